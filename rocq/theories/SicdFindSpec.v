(** Ground points and the pixels of SAR images they are found at (C91), written without the code. *)
Require Import Reals.
Require Import Verif.Base Verif.Vec Verif.SensorBase Verif.SicdSpec Verif.SarMetaModel Verif.SarMetaSpec Verif.SicdMetaSpec.
Local Open Scope R_scope.

(** The point [h] times [n] away from [p]. *)
Definition raised (p n : Vec) (h : R) : Vec := mkVec (vx p + h * vx n) (vy p + h * vy n) (vz p + h * vz n).

(** The place in the image plane of a pixel of a SIDD image, and the normal of that plane. *)
Definition sidd_place (d : SiddMeta) (i : Image) : Vec :=
  plane_point (ref_position d) (plane_urow d) (plane_ucol d) (sidd_metres d (ix i) (iy i)).
Definition sidd_normal (d : SiddMeta) : Vec := outward (ref_position d) (vcross (plane_urow d) (plane_ucol d)).

(** The antenna, whose velocity is [v], sees the pixel and the reference point on the same side of
    its track and is not below the image plane. *)
Definition in_view (d : SiddMeta) (v : R -> Vec) (i : Image) : Prop :=
  let xy := sidd_metres d (ix i) (iy i) in
  let t := declared2 (sidd_time_coa d) (fst xy) (snd xy) in
  let arp := along (sidd_arppoly d) t in
  0 < side_of (sidd_normal d) arp (v t) (sidd_place d i) * side_of (sidd_normal d) arp (v t) (ref_position d) /\
  0 <= height_over (ref_position d) (sidd_normal d) arp.

(** A usable SIDD document of an image that is not a chip. *)
Definition usable_sidd (d : SiddMeta) (v : R -> Vec) : Prop :=
  proper2 (sidd_time_coa d) /\ proper_xyz (sidd_arppoly d) /\ chip d = None /\
  unit (plane_urow d) /\ unit (plane_ucol d) /\ not_parallel (plane_urow d) (plane_ucol d) /\
  spacing_row d <> 0 /\ spacing_col d <> 0 /\ (forall t, velocity_at (along (sidd_arppoly d)) t (v t)).

(** [F] is closer to a translation than [L] on the points [D]: moving a point moves what is left of
    it after [F] by at most [L] times as much. *)
Definition nearly_translates (D : Vec -> Prop) (F : Vec -> Vec) (L : R) : Prop :=
  forall g g', D g -> D g' -> distance (vsub g (F g)) (vsub g' (F g')) <= L * distance g g'.

(** *** SICD documents *)

(** The normal of the slant plane: the plane of the antenna's velocity and the line of sight to the
    scene centre, both at the centre of aperture of the scene centre. *)
Definition slant_normal (d : SicdMeta) : Vec := vcross (arpvel d) (vsub (scp_position d) (arppos d)).
(** The place in the image plane of a pixel of the stored image. *)
Definition sicd_place (d : SicdMeta) (i : Image) : Vec :=
  plane_point (scp_position d) (row_uvect d) (col_uvect d) (grid_metres d (ix i) (iy i)).
(** Going from the ground point [g] along the slant plane's normal leads to the place of pixel [i]. *)
Definition projects_to (d : SicdMeta) (g : Vec) (i : Image) : Prop := exists k, sicd_place d i = raised g (slant_normal d) k.

Definition usable_sicd (d : SicdMeta) : Prop :=
  proper_meta d /\ unit (row_uvect d) /\ unit (col_uvect d) /\ not_parallel (row_uvect d) (col_uvect d) /\
  row_spacing d <> 0 /\ col_spacing d <> 0 /\ vdot (slant_normal d) (vcross (row_uvect d) (col_uvect d)) <> 0.

(** The search for the pixel of a scene point, starting at the ground point [g] with [n] attempts:
    the pixel that [g] projects to is taken if it is located within a centimetre of the scene point,
    if it is located nowhere, or if this was the last attempt; otherwise the search goes on from [g]
    moved by what the pixel's location was short of the scene point. *)
Inductive search (projects : Vec -> Image -> Prop) (located : Image -> option Vec -> Prop) (scene : Vec) : nat -> Vec -> Image -> Prop :=
| Close n g i p : projects g i -> located i (Some p) -> distance scene p <= 0.01 -> search projects located scene (S n) g i
| Nowhere n g i : projects g i -> located i None -> search projects located scene (S n) g i
| Last g i p : projects g i -> located i (Some p) -> search projects located scene 1 g i
| Further n g i p j : projects g i -> located i (Some p) -> 0.01 < distance scene p ->
    search projects located scene n (vadd g (vsub scene p)) j -> search projects located scene (S n) g j.
