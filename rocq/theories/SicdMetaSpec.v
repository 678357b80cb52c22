(** What SICD and SIDD metadata mean, written without the code that reads it: the grid, the
    trajectory of the antenna, and the range and range rate that each kind of image grid measures
    (SICD volume 3, sections 2, 4 and 5). *)
Require Import ZArith Reals List.
Require Import Verif.Base Verif.Vec Verif.SensorBase Verif.PolySpec Verif.SicdSpec Verif.SarMetaModel Verif.SarMetaSpec.
Local Open Scope R_scope.

Definition proper1 (p : Poly1) : Prop := (0 <= order1 p)%Z /\ in_order1 p /\ distinct1 p.
Definition proper2 (p : Poly2) : Prop := (0 <= order2_1 p)%Z /\ (0 <= order2_2 p)%Z /\ in_order2 p /\ distinct2 p.
Definition proper_xyz (p : XyzPoly) : Prop := proper1 (poly_x p) /\ proper1 (poly_y p) /\ proper1 (poly_z p).
(** Exponents within the declared orders, each used once, in all polynomials of the document. *)
Definition proper_meta (d : SicdMeta) : Prop :=
  proper2 (time_coa d) /\ proper_xyz (arppoly d) /\
  (forall p, pfa_meta d = Some p -> proper1 (polar_ang p) /\ proper1 (spatial_freq_sf p)) /\
  (forall i, inca_meta d = Some i -> proper1 (time_ca i) /\ proper2 (drate_sf i)).

(** Where the antenna is at a time. *)
Definition along (p : XyzPoly) (t : R) : Vec := mkVec (declared1 (poly_x p) t) (declared1 (poly_y p) t) (declared1 (poly_z p) t).
Definition trajectory (d : SicdMeta) : R -> Vec := along (arppoly d).

(** Metres from the scene centre, along rows and columns, of pixel (x, y) of the stored image. *)
Definition grid_metres (d : SicdMeta) (x y : R) : R * R :=
  ((y + IZR (first_row (image_data d)) - IZR (scp_row d)) * row_spacing d,
   (x + IZR (first_col (image_data d)) - IZR (scp_col d)) * col_spacing d).

(** Centre of aperture time of a grid location. *)
Definition coa_instant (d : SicdMeta) (xy : R * R) : R := declared2 (time_coa d) (fst xy) (snd xy).

(** A point of the plane through [o] spanned by [a] and [b]. *)
Definition plane_point (o a b : Vec) (xy : R * R) : Vec :=
  mkVec (vx o + fst xy * vx a + snd xy * vx b) (vy o + fst xy * vy a + snd xy * vy b) (vz o + fst xy * vz a + snd xy * vz b).

(** The range and the range rate at the centre of aperture of a grid location; [v] is the velocity
    of the antenna. *)
Definition measured (d : SicdMeta) (v : R -> Vec) (xy : R * R) (r rdot : R) : Prop :=
  let t := coa_instant d xy in
  let arp := trajectory d in
  let scp := scp_position d in
  match grid_type d, form_algo d with
  | RGAZIM, AlgoPFA => exists p, pfa_meta d = Some p /\
      let theta s := declared1 (polar_ang p) s in
      let range s := distance (arp s) scp + declared1 (spatial_freq_sf p) (theta s) * (fst xy * cos (theta s) + snd xy * sin (theta s)) in
      r = range t /\ derivable_pt_lim range t rdot
  | RGAZIM, AlgoRGAZCOMP => exists k, az_sf d = Some k /\
      r = distance (arp t) scp + fst xy /\
      - rdot / vnorm (v t) = - range_rate (arp t) (v t) scp / vnorm (v t) + k * snd xy
  | RGAZIM, _ => False
  | RGZERO, _ => exists i, inca_meta d = Some i /\
      let ca := declared1 (time_ca i) (snd xy) in
      let range s := sqrt ((r_ca_scp i + fst xy) ^ 2 + declared2 (drate_sf i) (fst xy) (snd xy) * vnorm (v ca) ^ 2 * (s - ca) ^ 2) in
      r = range t /\ derivable_pt_lim range t rdot
  | _, _ => let ipp := plane_point scp (row_uvect d) (col_uvect d) xy in
      r = distance (arp t) ipp /\ rdot = range_rate (arp t) (v t) ipp
  end.

(** The ground plane used without an elevation model: the focus plane of polar format images,
    otherwise the plane tangent to the ellipsoid's normal at the scene centre. *)
Definition surface_normal (to_geodetic : Vec -> Geodetic) (d : SicdMeta) : Vec :=
  match grid_type d, form_algo d, pfa_meta d with
  | RGAZIM, AlgoPFA, Some p => fpn p
  | _, _, _ => local_up (to_geodetic (scp_position d))
  end.

(** SIDD: planar images of which the reference point takes the place of the scene centre. *)
Definition sidd_metres (d : SiddMeta) (x y : R) : R * R := ((y - ref_row d) * spacing_row d, (x - ref_col d) * spacing_col d).
(** The normal of a plane that points away from the Earth's centre. *)
Definition outward (ref n : Vec) : Vec := if Rlt_dec (vdot n ref) 0 then vscale (-1) n else n.
