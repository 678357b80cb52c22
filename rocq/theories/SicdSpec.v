(** Geometry of SAR images, written without the code: distances, range rates, planes, sides of the
    track, polynomials as sums of powers, and derivatives of trajectories. *)
Require Import ZArith Reals List.
Require Import Verif.Base Verif.Vec Verif.PolySpec Verif.CoordModel.
Import ListNotations.
Local Open Scope R_scope.

Definition distance (a b : Vec) : R := sqrt ((vx a - vx b) ^ 2 + (vy a - vy b) ^ 2 + (vz a - vz b) ^ 2).

(** Rate at which the distance to the fixed point [p] grows for an antenna at [a] with velocity [v];
    [C34_range_rate_is_derivative] shows that it deserves the name. *)
Definition range_rate (a v p : Vec) : R :=
  (vx v * (vx a - vx p) + vy v * (vy a - vy p) + vz v * (vz a - vz p)) / distance a p.

(** The plane through [ref] with normal [n]. *)
Definition on_plane (ref n p : Vec) : Prop :=
  vx n * (vx p - vx ref) + vy n * (vy p - vy ref) + vz n * (vz p - vz ref) = 0.
(** Signed distance of a point from that plane, for a normal of any length. *)
Definition height_over (ref n p : Vec) : R :=
  (vx n * (vx p - vx ref) + vy n * (vy p - vy ref) + vz n * (vz p - vz ref)) / sqrt (vx n ^ 2 + vy n ^ 2 + vz n ^ 2).

(** Positive on one side of the vertical plane through the track, negative on the other, zero below
    the track: the determinant of antenna-to-point, velocity and normal. *)
Definition side_of (n a v p : Vec) : R :=
  (vx a - vx p) * (vy v * vz n - vz v * vy n)
  - (vy a - vy p) * (vx v * vz n - vz v * vx n)
  + (vz a - vz p) * (vx v * vy n - vy v * vx n).

(** The antenna moves across the plane: its velocity is not along the normal. *)
Definition moves_across (n v : Vec) : Prop := forall k, v <> mkVec (k * vx n) (k * vy n) (k * vz n).

(** A polynomial as a sum of coefficients times powers. *)
Definition power_sum (c : list R) (x : R) : R :=
  total (List.map (fun i => nth i c 0 * x ^ i) (seq 0 (List.length c))).
Definition power_sum2 (c : list (list R)) (width : nat) (x y : R) : R :=
  total (List.map (fun i => total (List.map (fun j => nth j (nth i c []) 0 * x ^ i * y ^ j) (seq 0 width))) (seq 0 (List.length c))).

(** [d] is the derivative of the trajectory [f] at time [t]. *)
Definition velocity_at (f : R -> Vec) (t : R) (d : Vec) : Prop :=
  derivable_pt_lim (fun s => vx (f s)) t (vx d) /\
  derivable_pt_lim (fun s => vy (f s)) t (vy d) /\
  derivable_pt_lim (fun s => vz (f s)) t (vz d).

(** Unit length, and neither parallel nor anti-parallel. *)
Definition unit (a : Vec) : Prop := vx a ^ 2 + vy a ^ 2 + vz a ^ 2 = 1.
Definition perpendicular (a b : Vec) : Prop := vx a * vx b + vy a * vy b + vz a * vz b = 0.
Definition not_parallel (a b : Vec) : Prop :=
  vy a * vz b - vz a * vy b <> 0 \/ vz a * vx b - vx a * vz b <> 0 \/ vx a * vy b - vy a * vx b <> 0.

(** Away from the Earth at a latitude and longitude. *)
Definition local_up (g : Geodetic) : Vec :=
  mkVec (cos (latitude g) * cos (longitude g)) (cos (latitude g) * sin (longitude g)) (sin (latitude g)).

(** Successive tangent planes to the surface of constant height [target]: the contour is
    intersected with a plane, and the next plane touches the surface below (or above) the
    intersection.  [None] once there is no intersection. *)
Section Tangent_planes.
Variable intersect : Vec -> Vec -> option Vec.
Variable geodetic : Vec -> Geodetic.
Variable target : R.
Definition excess (p : Vec) : R := elevation (geodetic p) - target.
Definition foot (p : Vec) : Vec :=
  mkVec (vx p - excess p * vx (local_up (geodetic p))) (vy p - excess p * vy (local_up (geodetic p)))
        (vz p - excess p * vz (local_up (geodetic p))).
(** The intersection with the plane number [k], starting from the plane through [g] with normal
    [n]. *)
Fixpoint tangent_point (k : nat) (g n : Vec) : option Vec :=
  match intersect g n with
  | None => None
  | Some p => match k with O => Some p | S k' => tangent_point k' (foot p) (local_up (geodetic p)) end
  end.
End Tangent_planes.
