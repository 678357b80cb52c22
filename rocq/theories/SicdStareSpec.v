(** SICD images whose pixels are all measured at one antenna position (C106), written without the
    code. *)
Require Import Reals.
Require Import Verif.Base Verif.Vec Verif.SensorBase Verif.SicdSpec Verif.SarMetaModel Verif.SarMetaSpec Verif.SicdMetaSpec Verif.SicdFindSpec.
Local Open Scope R_scope.

(** Distance of a point from the plane that the velocity [v] and the normal [n] span at [a]: how far
    to the side of the track the point is. *)
Definition off_track (n a v p : Vec) : R := Rabs (side_of n a v p) / vnorm (vcross v n).

(** Range and range rate of a pixel are those of its place in the image plane. *)
Definition planar (d : SicdMeta) : Prop := grid_type d <> RGAZIM /\ grid_type d <> RGZERO.

(** An image in the slant plane, all of it measured at time [t] from where the antenna is said to be
    for the scene centre: the image axes are at right angles to the slant plane's normal. *)
Definition staring (d : SicdMeta) (v : R -> Vec) (t : R) : Prop :=
  planar d /\ (forall xy, coa_instant d xy = t) /\ arppos d = trajectory d t /\ arpvel d = v t /\
  perpendicular (row_uvect d) (slant_normal d) /\ perpendicular (col_uvect d) (slant_normal d).

(** An image in the ground plane. *)
Definition in_ground_plane (to_geodetic : Vec -> Geodetic) (d : SicdMeta) : Prop :=
  planar d /\ perpendicular (row_uvect d) (surface_normal to_geodetic d) /\ perpendicular (col_uvect d) (surface_normal to_geodetic d).
