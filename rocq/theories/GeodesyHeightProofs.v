(** Lemmas about heights over the WGS 84 ellipsoid: tangent planes, distances and the inside. *)
Require Import Reals Lra.
Require Import Verif.Base Verif.Vec Verif.VecFacts Verif.TileModel Verif.SicdSpec Verif.GeodesyModel Verif.GeodesyProofs.
Local Open Scope R_scope.

(** The square of the semi minor axis, and the quadratic form that is one on the ellipsoid. *)
Definition minor2 : R := semi_major ^ 2 * (1 - eccentricity2).
Definition ellipsoid_form (p : Vec) : R := (vx p ^ 2 + vy p ^ 2) / semi_major ^ 2 + vz p ^ 2 / minor2.
Lemma major2_pos : 0 < semi_major ^ 2.
Proof. pose proof major_pos. nra. Qed.
Lemma minor2_pos : 0 < minor2.
Proof. unfold minor2. pose proof major2_pos. pose proof eccentricity2_bounds. apply Rmult_lt_0_compat; lra. Qed.

Lemma up_is_unit g : vx (local_up g) ^ 2 + vy (local_up g) ^ 2 + vz (local_up g) ^ 2 = 1.
Proof.
  unfold local_up. cbn [vx vy vz]. pose proof (sin2_cos2 (longitude g)) as A. pose proof (sin2_cos2 (latitude g)) as B. unfold Rsqr in A, B.
  replace ((cos (latitude g) * cos (longitude g)) ^ 2 + (cos (latitude g) * sin (longitude g)) ^ 2 + sin (latitude g) ^ 2)
    with (cos (latitude g) * cos (latitude g) * (sin (longitude g) * sin (longitude g) + cos (longitude g) * cos (longitude g)) + sin (latitude g) * sin (latitude g)) by ring.
  rewrite A. lra.
Qed.
Lemma unit_dot_le a b : vx a ^ 2 + vy a ^ 2 + vz a ^ 2 = 1 -> vx b ^ 2 + vy b ^ 2 + vz b ^ 2 = 1 -> vdot a b <= 1.
Proof. intros A B. unfold vdot. pose proof (pow2_ge_0 (vx a - vx b)). pose proof (pow2_ge_0 (vy a - vy b)). pose proof (pow2_ge_0 (vz a - vz b)). nra. Qed.

(** Heights are measured along the normal. *)
Definition on_ellipsoid (g : Geodetic) : Vec := wgs84_geocentric (mkGeo (longitude g) (latitude g) 0).
Lemma at_height g : wgs84_geocentric g = vadd (on_ellipsoid g) (vscale (elevation g) (local_up g)).
Proof. unfold on_ellipsoid, wgs84_geocentric, local_up, vadd, vscale. cbn [vx vy vz longitude latitude elevation]. f_equal; ring. Qed.
Lemma on_ellipsoid_up g : on_ellipsoid g =
  mkVec (prime_vertical (latitude g) * vx (local_up g)) (prime_vertical (latitude g) * vy (local_up g)) (prime_vertical (latitude g) * (1 - eccentricity2) * vz (local_up g)).
Proof. unfold on_ellipsoid, wgs84_geocentric, local_up. cbn [vx vy vz longitude latitude elevation]. f_equal; ring. Qed.
Lemma prime_w g : prime_vertical (latitude g) * (1 - eccentricity2 * vz (local_up g) ^ 2) = semi_major * w (latitude g) /\
  prime_vertical (latitude g) ^ 2 * (1 - eccentricity2 * vz (local_up g) ^ 2) = semi_major ^ 2.
Proof.
  unfold local_up. cbn [vz]. rewrite <- (w_sq (latitude g)), prime_vertical_w. pose proof (w_bounds (latitude g)). split; field; lra.
Qed.
Lemma height_along g : vdot (wgs84_geocentric g) (local_up g) = semi_major * w (latitude g) + elevation g.
Proof.
  rewrite at_height, on_ellipsoid_up. unfold vdot, vadd, vscale. cbn [vx vy vz]. destruct (prime_w g) as (A & _). rewrite <- A.
  pose proof (up_is_unit g) as U. set (k := local_up g) in *. set (n := prime_vertical (latitude g)) in *.
  assert (E : vx k ^ 2 + vy k ^ 2 = 1 - vz k ^ 2) by lra.
  replace ((n * vx k + elevation g * vx k) * vx k + (n * vy k + elevation g * vy k) * vy k + (n * (1 - eccentricity2) * vz k + elevation g * vz k) * vz k)
    with ((n + elevation g) * (vx k ^ 2 + vy k ^ 2) + (n * (1 - eccentricity2) + elevation g) * vz k ^ 2) by ring.
  rewrite E. ring.
Qed.
Lemma form_on_ellipsoid g : ellipsoid_form (on_ellipsoid g) = 1.
Proof.
  rewrite on_ellipsoid_up. unfold ellipsoid_form, minor2. cbn [vx vy vz]. destruct (prime_w g) as (_ & B). pose proof (up_is_unit g) as U. pose proof eccentricity2_bounds. pose proof major_pos as M.
  set (k := local_up g) in *. set (n := prime_vertical (latitude g)) in *. pose proof major2_pos as M2.
  assert (E : vx k ^ 2 + vy k ^ 2 = 1 - vz k ^ 2) by lra.
  replace (((n * vx k) ^ 2 + (n * vy k) ^ 2) / semi_major ^ 2 + (n * (1 - eccentricity2) * vz k) ^ 2 / (semi_major ^ 2 * (1 - eccentricity2)))
    with (n ^ 2 * ((vx k ^ 2 + vy k ^ 2) + (1 - eccentricity2) * vz k ^ 2) / semi_major ^ 2) by (field; lra).
  rewrite E. replace (1 - vz k ^ 2 + (1 - eccentricity2) * vz k ^ 2) with (1 - eccentricity2 * vz k ^ 2) by ring. rewrite B. field. lra.
Qed.

(** The tangent planes of the ellipsoid are outside. *)
Lemma below_tangent p g : ellipsoid_form p <= 1 -> vdot p (local_up g) <= semi_major * w (latitude g).
Proof.
  intros F. pose proof major2_pos as A. pose proof minor2_pos as B. pose proof (w_bounds (latitude g)) as W. pose proof major_pos as M.
  pose proof (up_is_unit g) as U. set (m := local_up g) in *.
  assert (S : (semi_major * w (latitude g)) ^ 2 = semi_major ^ 2 * (vx m ^ 2 + vy m ^ 2) + minor2 * vz m ^ 2).
  { replace ((semi_major * w (latitude g)) ^ 2) with (semi_major ^ 2 * (w (latitude g) * w (latitude g))) by ring. rewrite w_sq.
    change (sin (latitude g)) with (vz m). unfold minor2. replace (vx m ^ 2 + vy m ^ 2) with (1 - vz m ^ 2) by lra. ring. }
  assert (P : 0 < semi_major * w (latitude g)) by (apply Rmult_lt_0_compat; lra).
  set (s := semi_major * w (latitude g)) in *. unfold ellipsoid_form in F. set (a2 := semi_major ^ 2) in *. set (b2 := minor2) in *.
  assert (Q : vdot p m ^ 2 <= s ^ 2).
  { rewrite S. unfold vdot. destruct p as [x y z]. destruct m as [mx my mz]. cbn [vx vy vz] in *.
    assert (K : (x * mx + y * my + z * mz) ^ 2 <= ((x ^ 2 + y ^ 2) / a2 + z ^ 2 / b2) * (a2 * (mx ^ 2 + my ^ 2) + b2 * mz ^ 2)).
    { assert (D : ((x ^ 2 + y ^ 2) / a2 + z ^ 2 / b2) * (a2 * (mx ^ 2 + my ^ 2) + b2 * mz ^ 2) - (x * mx + y * my + z * mz) ^ 2
        = (x * my - y * mx) ^ 2 + ((x * mz * b2 - z * mx * a2) ^ 2 + (y * mz * b2 - z * my * a2) ^ 2) / (a2 * b2)) by (field; lra).
      assert (0 <= ((x * mz * b2 - z * mx * a2) ^ 2 + (y * mz * b2 - z * my * a2) ^ 2) / (a2 * b2)).
      { apply Rmult_le_pos; [pose proof (pow2_ge_0 (x * mz * b2 - z * mx * a2)); pose proof (pow2_ge_0 (y * mz * b2 - z * my * a2)); lra|].
        apply Rlt_le, Rinv_0_lt_compat, Rmult_lt_0_compat; lra. }
      pose proof (pow2_ge_0 (x * my - y * mx)). lra. }
    assert (T : 0 <= a2 * (mx ^ 2 + my ^ 2) + b2 * mz ^ 2).
    { pose proof (pow2_ge_0 mx). pose proof (pow2_ge_0 my). pose proof (pow2_ge_0 mz). assert (0 <= a2 * (mx ^ 2 + my ^ 2)) by (apply Rmult_le_pos; lra). assert (0 <= b2 * mz ^ 2) by (apply Rmult_le_pos; lra). lra. }
    eapply Rle_trans; [exact K|]. rewrite <- (Rmult_1_l (a2 * (mx ^ 2 + my ^ 2) + b2 * mz ^ 2)) at 2. apply Rmult_le_compat_r; assumption. }
  destruct (Rle_lt_dec (vdot p m) s); [assumption|]. exfalso. nra.
Qed.

(** A ball of radius up to the radius of curvature that touches the ellipsoid from the inside is inside. *)
Lemma form_le_minor v : ellipsoid_form v <= (vx v ^ 2 + vy v ^ 2 + vz v ^ 2) / minor2.
Proof.
  unfold ellipsoid_form. pose proof minor2_pos as B. pose proof major2_pos as A. pose proof eccentricity2_bounds as E.
  assert (I : / semi_major ^ 2 <= / minor2).
  { apply Rinv_le_contravar; [exact B|]. unfold minor2. nra. }
  assert (0 <= vx v ^ 2 + vy v ^ 2) by (pose proof (pow2_ge_0 (vx v)); pose proof (pow2_ge_0 (vy v)); lra). unfold Rdiv.
  rewrite (Rmult_plus_distr_r (vx v ^ 2 + vy v ^ 2) (vz v ^ 2)). apply Rplus_le_compat_r. now apply Rmult_le_compat_l.
Qed.
Lemma form_shift g v : ellipsoid_form (vadd (on_ellipsoid g) v) = 1 + 2 * (prime_vertical (latitude g) / semi_major ^ 2) * vdot (local_up g) v + ellipsoid_form v.
Proof.
  rewrite <- (form_on_ellipsoid g), on_ellipsoid_up. unfold ellipsoid_form, vadd, vdot, minor2. cbn [vx vy vz].
  pose proof major_pos. pose proof eccentricity2_bounds. field. lra.
Qed.
Lemma ball_inside g r m : 0 <= r <= prime_vertical (latitude g) * (1 - eccentricity2) -> vx m ^ 2 + vy m ^ 2 + vz m ^ 2 = 1 ->
  ellipsoid_form (vadd (on_ellipsoid g) (vscale r (vsub m (local_up g)))) <= 1.
Proof.
  intros Rb Um. rewrite form_shift. pose proof (up_is_unit g) as U. set (k := local_up g) in *. set (n := prime_vertical (latitude g)) in *.
  pose proof (form_le_minor (vscale r (vsub m k))) as L. pose proof (unit_dot_le m k Um U) as D.
  assert (E1 : vdot k (vscale r (vsub m k)) = - r * (1 - vdot m k)).
  { unfold vdot, vscale, vsub. cbn [vx vy vz]. transitivity (r * (vx m * vx k + vy m * vy k + vz m * vz k) - r * (vx k ^ 2 + vy k ^ 2 + vz k ^ 2)); [ring|]. rewrite U. ring. }
  assert (E2 : vx (vscale r (vsub m k)) ^ 2 + vy (vscale r (vsub m k)) ^ 2 + vz (vscale r (vsub m k)) ^ 2 = 2 * r ^ 2 * (1 - vdot m k)).
  { unfold vdot, vscale, vsub. cbn [vx vy vz]. transitivity (r ^ 2 * ((vx m ^ 2 + vy m ^ 2 + vz m ^ 2) + (vx k ^ 2 + vy k ^ 2 + vz k ^ 2)) - 2 * r ^ 2 * (vx m * vx k + vy m * vy k + vz m * vz k)); [ring|]. rewrite U, Um. ring. }
  rewrite E2 in L. rewrite E1. pose proof minor2_pos as B. pose proof major2_pos as A. pose proof eccentricity2_bounds. pose proof major_pos.
  assert (C : r / minor2 <= n / semi_major ^ 2).
  { replace (n / semi_major ^ 2) with (n * (1 - eccentricity2) / minor2) by (unfold minor2; field; lra). apply Rmult_le_compat_r; [apply Rlt_le, Rinv_0_lt_compat, B|lra]. }
  assert (0 <= r * (1 - vdot m k)) by (apply Rmult_le_pos; lra).
  replace (2 * r ^ 2 * (1 - vdot m k) / minor2) with (2 * (r * (1 - vdot m k)) * (r / minor2)) in L by (field; lra).
  replace (2 * (n / semi_major ^ 2) * (- r * (1 - vdot m k))) with (- (2 * (r * (1 - vdot m k)) * (n / semi_major ^ 2))) by ring.
  assert (2 * (r * (1 - vdot m k)) * (r / minor2) <= 2 * (r * (1 - vdot m k)) * (n / semi_major ^ 2)) by (apply Rmult_le_compat_l; lra). lra.
Qed.

(** The normal found through a point meets the ellipsoid before the axis and the equatorial plane,
    except for points of that plane near the centre of the Earth. *)
Lemma geodetic_shape p : let g := wgs84_geodetic p in
  0 <= prime_vertical (latitude g) * (1 - eccentricity2) + elevation g \/
  vz p = 0 /\ vx p ^ 2 + vy p ^ 2 <= (eccentricity2 * semi_major) ^ 2 /\ elevation g < - deepest.
Proof.
  intros g. unfold g, wgs84_geodetic. cbn [latitude elevation]. clear g. set (rho := sqrt (vx p ^ 2 + vy p ^ 2)). destruct (rho_pos (vx p) (vy p)) as (R0 & R2). fold rho in R0, R2.
  pose proof eccentricity2_bounds as E. pose proof major_pos as M.
  destruct (Req_EM_T rho 0) as [Z|Z].
  - left. pose proof (Rabs_pos (vz p)). lra.
  - destruct (latitude_off_axis rho (vz p)) as (L & N & P1 & P2 & P3); [lra|]. set (lat := wgs84_latitude rho (vz p)) in *.
    pose proof (prime_vertical_bounds lat) as B. assert (Cp : 0 < cos lat) by (apply cos_gt_0; lra).
    assert (K : forall s, 0 < s -> s = sin lat \/ s = - sin lat -> (sin lat = s -> 0 <= vz p) -> (sin lat = - s -> vz p <= 0) -> 0 <= prime_vertical lat * (1 - eccentricity2) + (rho / cos lat - prime_vertical lat)).
    { intros s Sp Ss Pz Nz. apply Rmult_le_reg_r with (cos lat * s); [apply Rmult_lt_0_compat; assumption|]. rewrite Rmult_0_l.
      replace ((prime_vertical lat * (1 - eccentricity2) + (rho / cos lat - prime_vertical lat)) * (cos lat * s)) with (rho * s - eccentricity2 * prime_vertical lat * s * cos lat) by (field; lra).
      unfold off_normal in N. destruct Ss as [-> | ->].
      - specialize (Pz eq_refl). assert (0 <= vz p * cos lat) by (apply Rmult_le_pos; lra). lra.
      - assert (vz p <= 0) by (apply Nz; ring). assert (0 <= - vz p * cos lat) by (apply Rmult_le_pos; lra). lra. }
    destruct (Rtotal_order (vz p) 0) as [Hz|[Hz|Hz]].
    + left. specialize (P2 Hz). assert (sin lat < 0) by (apply sin_lt_0_var; lra). apply (K (- sin lat)); lra.
    + rewrite (P3 Hz). rewrite cos_0. assert (N0 : prime_vertical 0 = semi_major).
      { unfold prime_vertical. rewrite sin_0. replace (1 - eccentricity2 * 0 ^ 2) with 1 by ring. rewrite sqrt_1. field. }
      rewrite N0. destruct (Rle_lt_dec 0 (semi_major * (1 - eccentricity2) + (rho / 1 - semi_major))) as [G|G]; [now left|]. right.
      unfold deepest. replace (rho / 1) with rho in * by field. split; [exact Hz|]. split; [|lra]. rewrite <- R2. replace ((eccentricity2 * semi_major) ^ 2) with ((eccentricity2 * semi_major) * (eccentricity2 * semi_major)) by ring. apply Rmult_le_compat; lra.
    + left. specialize (P1 Hz). assert (0 < sin lat) by (apply sin_gt_0; lra). apply (K (sin lat)); lra.
Qed.
Lemma central_ball p m : vz p = 0 -> vx p ^ 2 + vy p ^ 2 <= (eccentricity2 * semi_major) ^ 2 -> vx m ^ 2 + vy m ^ 2 + vz m ^ 2 = 1 ->
  ellipsoid_form (vadd p (vscale deepest m)) <= 1.
Proof.
  intros Z Rr U. unfold ellipsoid_form, minor2, deepest, vadd, vscale. cbn [vx vy vz]. rewrite Z. pose proof major_pos as M. pose proof major2_pos as M2. pose proof eccentricity2_bounds as E.
  set (a := semi_major) in *. set (e := eccentricity2) in *. destruct p as [x y z]. destruct m as [mx my mz]. cbn [vx vy vz] in *.
  assert (C0 : 0 <= mx ^ 2 + my ^ 2) by (pose proof (pow2_ge_0 mx); pose proof (pow2_ge_0 my); lra).
  set (c := sqrt (mx ^ 2 + my ^ 2)). assert (Cc : c * c = mx ^ 2 + my ^ 2) by (apply sqrt_sqrt; exact C0). assert (Cp : 0 <= c) by apply sqrt_pos.
  assert (D : x * mx + y * my <= e * a * c).
  { assert (Q : (x * mx + y * my) ^ 2 <= (e * a * c) ^ 2).
    { replace ((e * a * c) ^ 2) with ((e * a) ^ 2 * (mx ^ 2 + my ^ 2)) by (rewrite <- Cc; ring).
      eapply Rle_trans; [|apply Rmult_le_compat_r; [exact C0|exact Rr]]. pose proof (pow2_ge_0 (x * my - y * mx)). lra. }
    assert (0 <= e * a * c) by (apply Rmult_le_pos; [apply Rmult_le_pos; lra|lra]). destruct (Rle_lt_dec (x * mx + y * my) (e * a * c)); [assumption|]. exfalso. nra. }
  set (d := a * (1 - e)). assert (Dp : 0 < d) by (apply Rmult_lt_0_compat; lra).
  replace (((x + d * mx) ^ 2 + (y + d * my) ^ 2) / a ^ 2 + (0 + d * mz) ^ 2 / (a ^ 2 * (1 - e)))
    with ((x ^ 2 + y ^ 2 + 2 * d * (x * mx + y * my) + d ^ 2 * (mx ^ 2 + my ^ 2) + a ^ 2 * (1 - e) * mz ^ 2) / a ^ 2) by (unfold d; field; lra).
  replace (mz ^ 2) with (1 - c * c) by lra. rewrite <- Cc.
  apply Rmult_le_reg_r with (a ^ 2); [exact M2|]. unfold Rdiv. rewrite Rmult_assoc, Rinv_l by lra.
  assert (2 * d * (x * mx + y * my) <= 2 * d * (e * a * c)) by (apply Rmult_le_compat_l; lra).
  assert (K : (e * a) ^ 2 + 2 * d * (e * a * c) + d ^ 2 * (c * c) + a ^ 2 * (1 - e) * (1 - c * c) = a ^ 2 - a ^ 2 * (e * (1 - e) * (1 - c) ^ 2)) by (unfold d; ring).
  assert (0 <= a ^ 2 * (e * (1 - e) * (1 - c) ^ 2)).
  { apply Rmult_le_pos; [lra|]. apply Rmult_le_pos; [apply Rmult_le_pos; lra|apply pow2_ge_0]. }
  lra.
Qed.

(** A point is no further out, in any direction, than the surface of its own height. *)
Lemma no_higher p g : vdot p (local_up g) - semi_major * w (latitude g) <= Rmax (elevation (wgs84_geodetic p)) (- deepest).
Proof.
  pose proof (up_is_unit g) as Um. destruct (geodetic_shape p) as [S|(Z & Rr & L)].
  - pose proof (geocentric_geodetic p) as P. set (q := wgs84_geodetic p) in *. rewrite at_height in P. pose proof (up_is_unit q) as Uk.
    eapply Rle_trans; [|apply Rmax_l]. rewrite <- P. set (h := elevation q) in *. destruct (Rle_lt_dec 0 h) as [H|H].
    + assert (T : vdot (on_ellipsoid q) (local_up g) <= semi_major * w (latitude g)) by (apply below_tangent; rewrite form_on_ellipsoid; lra).
      pose proof (unit_dot_le (local_up q) (local_up g) Uk Um) as D. assert (h * vdot (local_up q) (local_up g) <= h * 1) by (apply Rmult_le_compat_l; assumption).
      assert (vdot (vadd (on_ellipsoid q) (vscale h (local_up q))) (local_up g) = vdot (on_ellipsoid q) (local_up g) + h * vdot (local_up q) (local_up g)) by (unfold vdot, vadd, vscale; cbn [vx vy vz]; ring). lra.
    + assert (B : ellipsoid_form (vadd (on_ellipsoid q) (vscale (- h) (vsub (local_up g) (local_up q)))) <= 1) by (apply ball_inside; [split; lra|exact Um]).
      apply (below_tangent _ g) in B.
      assert (E : vdot (vadd (on_ellipsoid q) (vscale (- h) (vsub (local_up g) (local_up q)))) (local_up g)
        = vdot (vadd (on_ellipsoid q) (vscale h (local_up q))) (local_up g) - h * (vx (local_up g) ^ 2 + vy (local_up g) ^ 2 + vz (local_up g) ^ 2)) by (unfold vdot, vadd, vscale, vsub; cbn [vx vy vz]; ring).
      rewrite E, Um in B. lra.
  - eapply Rle_trans; [|apply Rmax_r]. pose proof (central_ball p (local_up g) Z Rr Um) as B. apply (below_tangent _ g) in B.
    assert (E : vdot (vadd p (vscale deepest (local_up g))) (local_up g) = vdot p (local_up g) + deepest * (vx (local_up g) ^ 2 + vy (local_up g) ^ 2 + vz (local_up g) ^ 2)) by (unfold vdot, vadd, vscale; cbn [vx vy vz]; ring).
    rewrite E, Um in B. lra.
Qed.

Lemma distance_sq p q : distance p q ^ 2 = (vx p - vx q) ^ 2 + (vy p - vy q) ^ 2 + (vz p - vz q) ^ 2.
Proof. unfold distance. rewrite <- Rsqr_pow2. apply Rsqr_sqrt. repeat apply Rplus_le_le_0_compat; apply pow2_ge_0. Qed.
(** Heights differ by no more than the distance. *)
Lemma dot_le_distance p q u : vx u ^ 2 + vy u ^ 2 + vz u ^ 2 = 1 -> vdot p u - vdot q u <= distance p q.
Proof.
  intros U. unfold distance, vdot. set (a := vx p - vx q). set (b := vy p - vy q). set (c := vz p - vz q).
  assert (P : 0 <= a ^ 2 + b ^ 2 + c ^ 2) by (pose proof (pow2_ge_0 a); pose proof (pow2_ge_0 b); pose proof (pow2_ge_0 c); lra).
  pose proof (sqrt_sqrt _ P) as S. pose proof (sqrt_pos (a ^ 2 + b ^ 2 + c ^ 2)) as N. set (s := sqrt (a ^ 2 + b ^ 2 + c ^ 2)) in *.
  replace (vx p * vx u + vy p * vy u + vz p * vz u - (vx q * vx u + vy q * vy u + vz q * vz u)) with (a * vx u + b * vy u + c * vz u) by (unfold a, b, c; ring).
  assert (K : (a * vx u + b * vy u + c * vz u) ^ 2 <= s * s).
  { rewrite S, <- (Rmult_1_r (a ^ 2 + b ^ 2 + c ^ 2)), <- U. pose proof (pow2_ge_0 (a * vy u - b * vx u)). pose proof (pow2_ge_0 (a * vz u - c * vx u)). pose proof (pow2_ge_0 (b * vz u - c * vy u)). lra. }
  destruct (Rle_lt_dec (a * vx u + b * vy u + c * vz u) s); [assumption|]. exfalso. nra.
Qed.
Lemma height_lipschitz p q : elevation (wgs84_geodetic p) <= Rmax (elevation (wgs84_geodetic q)) (- deepest) + distance p q.
Proof.
  pose proof (height_along (wgs84_geodetic p)) as A. rewrite geocentric_geodetic in A. pose proof (no_higher q (wgs84_geodetic p)) as B.
  pose proof (dot_le_distance p q (local_up (wgs84_geodetic p)) (up_is_unit _)). lra.
Qed.

(** The sign of the height. *)
Lemma inside_below p : ellipsoid_form p <= 1 -> elevation (wgs84_geodetic p) <= 0.
Proof.
  intros F. pose proof (height_along (wgs84_geodetic p)) as A. rewrite geocentric_geodetic in A. pose proof (below_tangent p (wgs84_geodetic p) F). lra.
Qed.
Lemma below_inside p : elevation (wgs84_geodetic p) < 0 -> ellipsoid_form p < 1.
Proof.
  intros H. destruct (geodetic_shape p) as [S|(Z & Rr & L)].
  - pose proof (geocentric_geodetic p) as P. set (q := wgs84_geodetic p) in *. rewrite at_height in P. rewrite <- P, form_shift.
    pose proof (up_is_unit q) as U. set (k := local_up q) in *. set (h := elevation q) in *. set (n := prime_vertical (latitude q)) in *.
    pose proof (form_le_minor k) as Fk. rewrite U in Fk. pose proof minor2_pos as B. pose proof major2_pos as A. pose proof eccentricity2_bounds as E. pose proof (prime_vertical_bounds (latitude q)) as N. fold n in N. pose proof major_pos as M.
    assert (E1 : vdot k (vscale h k) = h) by (unfold vdot, vscale; cbn [vx vy vz]; transitivity (h * (vx k ^ 2 + vy k ^ 2 + vz k ^ 2)); [ring|rewrite U; ring]).
    assert (E2 : ellipsoid_form (vscale h k) = h ^ 2 * ellipsoid_form k) by (unfold ellipsoid_form, vscale; cbn [vx vy vz]; field; lra).
    rewrite E1, E2. assert (C : - h * (1 / minor2) <= n / semi_major ^ 2).
    { replace (n / semi_major ^ 2) with (n * (1 - eccentricity2) / minor2) by (unfold minor2; field; lra). replace (- h * (1 / minor2)) with (- h / minor2) by (field; lra).
      apply Rmult_le_compat_r; [apply Rlt_le, Rinv_0_lt_compat, B|lra]. }
    assert (D : - h * ellipsoid_form k <= n / semi_major ^ 2) by (eapply Rle_trans; [|exact C]; apply Rmult_le_compat_l; lra).
    assert (Np : 0 < n / semi_major ^ 2) by (apply Rdiv_lt_0_compat; lra).
    assert (X : 0 < - h * (2 * (n / semi_major ^ 2) - - h * ellipsoid_form k)) by (apply Rmult_lt_0_compat; lra). lra.
  - unfold ellipsoid_form. rewrite Z. pose proof minor2_pos as B. pose proof major2_pos as A. pose proof eccentricity2_bounds as E.
    replace (0 ^ 2 / minor2) with 0 by (field; lra). rewrite Rplus_0_r. apply Rmult_lt_reg_r with (semi_major ^ 2); [exact A|].
    unfold Rdiv. rewrite Rmult_assoc, Rinv_l by lra. replace ((eccentricity2 * semi_major) ^ 2) with (eccentricity2 ^ 2 * semi_major ^ 2) in Rr by ring.
    assert (eccentricity2 ^ 2 < 1) by nra. assert (eccentricity2 ^ 2 * semi_major ^ 2 < 1 * semi_major ^ 2) by (apply Rmult_lt_compat_r; assumption). lra.
Qed.
Lemma level_surface p : elevation (wgs84_geodetic p) = 0 -> ellipsoid_form p = 1.
Proof.
  intros H. rewrite <- (geocentric_geodetic p) at 1. rewrite at_height, H, <- (form_on_ellipsoid (wgs84_geodetic p)).
  f_equal. unfold vadd, vscale. apply vec_ext; cbn [vx vy vz]; ring.
Qed.
