(** The WGS 84 ellipsoid and the conversions between geodetic and geocentric coordinates.
    Source: src/aws/osml/photogrammetry/coordinates.py:230-275.
    The code leaves these conversions to pyproj: the other models take them as arbitrary functions.
    Here they are what the transformer that coordinates.py:234-236 sets up stands for.
    Simplifications: exact reals; latitudes are found exactly, where PROJ uses a series that is good
    to less than a nanodegree near the surface of the Earth. *)
Require Import Reals Lra.
Require Import Verif.Base Verif.Vec Verif.TileModel.
Local Open Scope R_scope.

(** coordinates.py:234-235: ellps="WGS84", with the semi major axis in metres and the flattening. *)
Definition semi_major : R := 6378137.
Definition flattening : R := 1000000000 / 298257223563.
Definition eccentricity2 : R := flattening * (2 - flattening).

(** The distance along the normal from the ellipsoid to the axis. *)
Definition prime_vertical (lat : R) : R := semi_major / sqrt (1 - eccentricity2 * (sin lat) ^ 2).

(** coordinates.py:258-275 [geodetic_to_geocentric]. *)
Definition wgs84_geocentric (g : Geodetic) : Vec :=
  let n := prime_vertical (latitude g) in
  mkVec ((n + elevation g) * cos (latitude g) * cos (longitude g))
        ((n + elevation g) * cos (latitude g) * sin (longitude g))
        ((n * (1 - eccentricity2) + elevation g) * sin (latitude g)).

(** Zero where the normal to the ellipsoid at latitude [lat] passes through the point at distance
    [rho] from the axis and [z] from the equatorial plane. *)
Definition off_normal (rho z lat : R) : R :=
  rho * sin lat - z * cos lat - eccentricity2 * prime_vertical lat * sin lat * cos lat.

Lemma eccentricity2_bounds : 0 < eccentricity2 < 1 / 100.
Proof. unfold eccentricity2, flattening. lra. Qed.
Lemma curvature_pos lat : 99 / 100 < 1 - eccentricity2 * (sin lat) ^ 2 <= 1.
Proof.
  pose proof eccentricity2_bounds. pose proof (SIN_bound lat). assert (0 <= (sin lat) ^ 2 <= 1) by (cbn; nra). nra.
Qed.
Lemma off_normal_continuous rho z : continuity (off_normal rho z).
Proof.
  intros x. unfold off_normal, prime_vertical. pose proof (curvature_pos x).
  apply continuity_pt_minus; [apply continuity_pt_minus; apply continuity_pt_mult; try apply continuity_sin; try apply continuity_cos; apply continuity_pt_const; intros ? ?; reflexivity|].
  apply continuity_pt_mult; [|apply continuity_cos]. apply continuity_pt_mult; [|apply continuity_sin].
  apply continuity_pt_mult; [apply continuity_pt_const; intros ? ?; reflexivity|].
  apply (continuity_pt_div (fun _ => semi_major) (fun lat => sqrt (1 - eccentricity2 * sin lat ^ 2))).
  - apply continuity_pt_const. intros ? ?. reflexivity.
  - apply (continuity_pt_comp (fun lat => 1 - eccentricity2 * sin lat ^ 2) sqrt).
    + apply continuity_pt_minus; [apply continuity_pt_const; intros ? ?; reflexivity|].
      apply continuity_pt_mult; [apply continuity_pt_const; intros ? ?; reflexivity|]. cbn.
      apply (continuity_pt_mult sin (fun lat => sin lat * 1)); [apply continuity_sin|].
      apply continuity_pt_mult; [apply continuity_sin|apply continuity_pt_const; intros ? ?; reflexivity].
    + apply continuity_pt_sqrt. lra.
  - apply Rgt_not_eq, sqrt_lt_R0. lra.
Qed.
Definition latitude_found (rho z : R) : 0 < rho -> 0 < z -> {lat : R | 0 <= lat <= PI / 2 /\ off_normal rho z lat = 0}.
Proof.
  intros A B. apply IVT.
  - apply off_normal_continuous.
  - apply PI2_RGT_0.
  - unfold off_normal. rewrite sin_0, cos_0. lra.
  - unfold off_normal. rewrite sin_PI2, cos_PI2. lra.
Defined.

(** The latitude of a point north of the equator and off the axis. *)
Definition northern_latitude (rho z : R) : R :=
  match Rlt_dec 0 rho, Rlt_dec 0 z with
  | left A, left B => proj1_sig (latitude_found rho z A B)
  | _, _ => 0
  end.
Definition wgs84_latitude (rho z : R) : R :=
  if Req_EM_T rho 0 then (if Rlt_dec z 0 then - (PI / 2) else PI / 2)
  else if Rlt_dec z 0 then - northern_latitude rho (- z) else northern_latitude rho z.
Definition wgs84_longitude (rho x y : R) : R :=
  if Req_EM_T rho 0 then 0 else if Rlt_dec y 0 then - acos (x / rho) else acos (x / rho).

(** coordinates.py:238-255 [geocentric_to_geodetic]. *)
Definition wgs84_geodetic (p : Vec) : Geodetic :=
  let rho := sqrt (vx p ^ 2 + vy p ^ 2) in
  let lat := wgs84_latitude rho (vz p) in
  mkGeo (wgs84_longitude rho (vx p) (vy p)) lat
    (if Req_EM_T rho 0 then Rabs (vz p) - prime_vertical lat * (1 - eccentricity2)
     else rho / cos lat - prime_vertical lat).
