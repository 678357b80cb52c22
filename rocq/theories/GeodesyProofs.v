(** Lemmas about the WGS 84 conversions. *)
Require Import Reals Lra.
Require Import Verif.Base Verif.Vec Verif.VecFacts Verif.TileModel Verif.GeodesyModel.
Local Open Scope R_scope.

Lemma major_pos : 0 < semi_major.
Proof. unfold semi_major. lra. Qed.

(** *** The ellipsoid *)
Definition w (lat : R) : R := sqrt (1 - eccentricity2 * (sin lat) ^ 2).
Lemma w_sq lat : w lat * w lat = 1 - eccentricity2 * (sin lat) ^ 2.
Proof. unfold w. apply sqrt_sqrt. pose proof (curvature_pos lat). lra. Qed.
Lemma w_bounds lat : 99 / 100 < w lat <= 1.
Proof.
  pose proof (curvature_pos lat) as C. pose proof (w_sq lat) as S. assert (0 <= w lat) by apply sqrt_pos. nra.
Qed.
Lemma prime_vertical_w lat : prime_vertical lat = semi_major / w lat.
Proof. reflexivity. Qed.
Lemma prime_vertical_bounds lat : semi_major <= prime_vertical lat < 2 * semi_major.
Proof.
  rewrite prime_vertical_w. pose proof (w_bounds lat). pose proof major_pos as M.
  assert (E : semi_major / w lat * w lat = semi_major) by (field; lra). set (n := semi_major / w lat) in *. assert (0 < n) by nra. nra.
Qed.
Lemma prime_vertical_opp lat : prime_vertical (- lat) = prime_vertical lat.
Proof. unfold prime_vertical. rewrite sin_neg. do 3 f_equal. ring. Qed.
Lemma off_normal_opp rho z lat : off_normal rho (- z) (- lat) = - off_normal rho z lat.
Proof. unfold off_normal. rewrite prime_vertical_opp, sin_neg, cos_neg. ring. Qed.

(** *** The latitude *)
Lemma northern rho z : 0 < rho -> 0 < z -> 0 < northern_latitude rho z < PI / 2 /\ off_normal rho z (northern_latitude rho z) = 0.
Proof.
  intros A B. unfold northern_latitude. destruct (Rlt_dec 0 rho); [|lra]. destruct (Rlt_dec 0 z); [|lra].
  destruct (latitude_found rho z r r0) as (lat & L & E). cbn [proj1_sig]. split; [|exact E]. split.
  - destruct (Req_dec lat 0) as [->|]; [|lra]. unfold off_normal in E. rewrite sin_0, cos_0 in E. lra.
  - destruct (Req_dec lat (PI / 2)) as [->|]; [|lra]. unfold off_normal in E. rewrite sin_PI2, cos_PI2 in E. lra.
Qed.
Lemma latitude_off_axis rho z : 0 < rho -> let lat := wgs84_latitude rho z in
  - (PI / 2) < lat < PI / 2 /\ off_normal rho z lat = 0 /\ (0 < z -> 0 < lat) /\ (z < 0 -> lat < 0) /\ (z = 0 -> lat = 0).
Proof.
  intros A lat. pose proof PI2_RGT_0. unfold lat. clear lat. unfold wgs84_latitude. destruct (Req_EM_T rho 0); [lra|]. destruct (Rlt_dec z 0) as [Z|Z].
  - destruct (northern rho (- z)) as (L & E); try lra. split; [lra|]. split; [|repeat split; lra].
    pose proof (off_normal_opp rho (- z) (northern_latitude rho (- z))) as O. rewrite Ropp_involutive in O. rewrite O, E. ring.
  - destruct (Req_dec z 0) as [->|N].
    + unfold northern_latitude. destruct (Rlt_dec 0 rho); [|lra]. destruct (Rlt_dec 0 0) as [F|F]; [exfalso; exact (Rlt_irrefl _ F)|].
      split; [lra|]. split; [unfold off_normal; rewrite sin_0, cos_0; ring|]. repeat split; lra.
    + destruct (northern rho z) as (L & E); lra.
Qed.

(** Only one latitude between the equator and the pole has its normal through a given point. *)
Lemma vertical_decreasing a b : 0 < a -> a < b -> b < PI / 2 -> prime_vertical b * cos b < prime_vertical a * cos a.
Proof.
  intros A L B. rewrite !prime_vertical_w. pose proof (w_bounds a) as Wa. pose proof (w_bounds b) as Wb. pose proof (w_sq a) as Sa. pose proof (w_sq b) as Sb.
  pose proof eccentricity2_bounds as E. pose proof major_pos as M. pose proof PI2_RGT_0.
  assert (Ca : 0 < cos a) by (apply cos_gt_0; lra). assert (Cb : 0 < cos b) by (apply cos_gt_0; lra).
  assert (D : cos b < cos a) by (apply cos_decreasing_1; lra).
  pose proof (sin2_cos2 a) as Ta. pose proof (sin2_cos2 b) as Tb. unfold Rsqr in Ta, Tb.
  assert (K : cos b * w a < cos a * w b).
  { assert (P : (cos a * w b) ^ 2 - (cos b * w a) ^ 2 = (1 - eccentricity2) * (cos a ^ 2 - cos b ^ 2)).
    { replace ((cos a * w b) ^ 2) with (cos a ^ 2 * (w b * w b)) by ring. replace ((cos b * w a) ^ 2) with (cos b ^ 2 * (w a * w a)) by ring.
      rewrite Sa, Sb. replace (sin a ^ 2) with (1 - cos a ^ 2) by (cbn; lra). replace (sin b ^ 2) with (1 - cos b ^ 2) by (cbn; lra). ring. }
    assert (Q : 0 < cos a ^ 2 - cos b ^ 2) by (replace (cos a ^ 2 - cos b ^ 2) with ((cos a - cos b) * (cos a + cos b)) by ring; apply Rmult_lt_0_compat; lra).
    assert (0 < (1 - eccentricity2) * (cos a ^ 2 - cos b ^ 2)) by (apply Rmult_lt_0_compat; lra).
    assert (0 < cos a * w b) by (apply Rmult_lt_0_compat; lra). assert (0 < cos b * w a) by (apply Rmult_lt_0_compat; lra).
    destruct (Rlt_le_dec (cos b * w a) (cos a * w b)); [assumption|]. exfalso. nra. }
  apply Rmult_lt_reg_r with (w a * w b); [apply Rmult_lt_0_compat; lra|].
  replace (semi_major / w b * cos b * (w a * w b)) with (semi_major * (cos b * w a)) by (field; lra).
  replace (semi_major / w a * cos a * (w a * w b)) with (semi_major * (cos a * w b)) by (field; lra).
  apply Rmult_lt_compat_l; assumption.
Qed.
Lemma one_latitude rho z a b : 0 < z -> 0 < a < PI / 2 -> 0 < b < PI / 2 -> off_normal rho z a = 0 -> off_normal rho z b = 0 -> a = b.
Proof.
  intros Z. assert (H : forall a b, 0 < a < PI / 2 -> 0 < b < PI / 2 -> off_normal rho z a = 0 -> off_normal rho z b = 0 -> ~ a < b).
  { clear a b. intros a b A B Ea Eb L. pose proof PI2_RGT_0. assert (Sa : 0 < sin a) by (apply sin_gt_0; lra). assert (Sb : 0 < sin b) by (apply sin_gt_0; lra).
    assert (Ra : rho = z * (cos a / sin a) + eccentricity2 * (prime_vertical a * cos a)).
    { apply Rmult_eq_reg_r with (sin a); [|lra]. unfold off_normal in Ea. field_simplify; lra. }
    assert (Rb : rho = z * (cos b / sin b) + eccentricity2 * (prime_vertical b * cos b)).
    { apply Rmult_eq_reg_r with (sin b); [|lra]. unfold off_normal in Eb. field_simplify; lra. }
    pose proof (vertical_decreasing a b (proj1 A) L (proj2 B)) as V. pose proof eccentricity2_bounds as E.
    assert (C : cos b / sin b < cos a / sin a).
    { assert (S : 0 < sin (b - a)) by (apply sin_gt_0; lra). rewrite sin_minus in S.
      apply Rmult_lt_reg_r with (sin a * sin b); [apply Rmult_lt_0_compat; lra|].
      replace (cos b / sin b * (sin a * sin b)) with (cos b * sin a) by (field; lra). replace (cos a / sin a * (sin a * sin b)) with (cos a * sin b) by (field; lra). lra. }
    assert (z * (cos b / sin b) < z * (cos a / sin a)) by (apply Rmult_lt_compat_l; assumption).
    assert (eccentricity2 * (prime_vertical b * cos b) < eccentricity2 * (prime_vertical a * cos a)) by (apply Rmult_lt_compat_l; lra). lra. }
  intros A B Ea Eb. destruct (Rtotal_order a b) as [L|[L|L]]; [|exact L|]; exfalso; [exact (H a b A B Ea Eb L)|exact (H b a B A Eb Ea L)].
Qed.

(** *** The longitude *)
Lemma rho_pos x y : 0 <= sqrt (x ^ 2 + y ^ 2) /\ sqrt (x ^ 2 + y ^ 2) * sqrt (x ^ 2 + y ^ 2) = x ^ 2 + y ^ 2.
Proof. split; [apply sqrt_pos|apply sqrt_sqrt; nra]. Qed.
Lemma longitude_direction rho x y : 0 < rho -> rho * rho = x ^ 2 + y ^ 2 -> let lon := wgs84_longitude rho x y in
  rho * cos lon = x /\ rho * sin lon = y /\ - PI < lon <= PI.
Proof.
  intros A E lon. unfold lon, wgs84_longitude. destruct (Req_EM_T rho 0); [lra|].
  assert (T : -1 <= x / rho <= 1).
  { assert (X : x / rho * rho = x) by (field; lra). assert (- rho <= x <= rho) by (split; nra). split; apply Rmult_le_reg_r with rho; lra. }
  pose proof (acos_bound (x / rho)) as B. pose proof PI_RGT_0.
  assert (C : rho * cos (acos (x / rho)) = x) by (rewrite cos_acos by exact T; field; lra).
  assert (S : rho * sin (acos (x / rho)) = Rabs y).
  { rewrite sin_acos by exact T. assert (Q : rho * sqrt (1 - (x / rho)²) = sqrt (Rsqr y)).
    { replace rho with (sqrt (rho * rho)) at 1 by (apply sqrt_square; lra).
      rewrite <- sqrt_mult_alt by nra. f_equal. unfold Rsqr. field_simplify; [|lra]. nra. }
    rewrite Q. apply sqrt_Rsqr_abs. }
  destruct (Rlt_dec y 0) as [Y|Y].
  - rewrite cos_neg, sin_neg. rewrite Rabs_left in S by exact Y. split; [exact C|]. split; [lra|].
    assert (acos (x / rho) <> PI).
    { intros F. rewrite F, sin_PI in S. lra. }
    lra.
  - rewrite Rabs_right in S by lra. split; [exact C|]. split; [exact S|]. lra.
Qed.
Lemma same_direction a b : - PI < a <= PI -> - PI < b <= PI -> cos a = cos b -> sin a = sin b -> a = b.
Proof.
  intros A B C S. pose proof PI_RGT_0. assert (D : cos (a - b) = 1).
  { rewrite cos_minus, <- C, <- S. pose proof (sin2_cos2 a) as T. unfold Rsqr in T. lra. }
  assert (E : 0 = a - b \/ a - b <> 0) by (destruct (Req_dec (a - b) 0); auto). destruct E as [E|E]; [lra|]. exfalso.
  assert (Hs : sin ((a - b) / 2) = 0).
  { assert (X : cos (a - b) = 1 - 2 * sin ((a - b) / 2) * sin ((a - b) / 2)) by (replace (a - b) with (2 * ((a - b) / 2)) at 1 by field; apply cos_2a_sin). nra. }
  destruct (Rtotal_order (a - b) 0) as [L|[L|L]]; [|lra|].
  - assert (0 < sin (- ((a - b) / 2))) by (apply sin_gt_0; lra). rewrite sin_neg in H0. lra.
  - assert (0 < sin ((a - b) / 2)) by (apply sin_gt_0; lra). lra.
Qed.

(** *** There and back *)
Lemma vec_ext a b : vx a = vx b -> vy a = vy b -> vz a = vz b -> a = b.
Proof. destruct a, b. cbn. now intros -> -> ->. Qed.
Lemma geocentric_geodetic p : wgs84_geocentric (wgs84_geodetic p) = p.
Proof.
  unfold wgs84_geodetic. set (rho := sqrt (vx p ^ 2 + vy p ^ 2)). destruct (rho_pos (vx p) (vy p)) as (R0 & R2). fold rho in R0, R2.
  unfold wgs84_geocentric. cbn [longitude latitude elevation]. destruct (Req_EM_T rho 0) as [Z|Z].
  - rewrite Z in R2. assert (X : vx p = 0) by nra. assert (Y : vy p = 0) by nra.
    unfold wgs84_latitude. destruct (Req_EM_T rho 0); [|lra].
    apply vec_ext; cbn [vx vy vz]; destruct (Rlt_dec (vz p) 0); rewrite ?cos_neg, ?cos_PI2, ?sin_neg, ?sin_PI2; try lra;
      [rewrite Rabs_left by assumption|rewrite Rabs_right by lra]; ring.
  - assert (P : 0 < rho) by lra. destruct (latitude_off_axis rho (vz p) P) as (L & N & _). destruct (longitude_direction rho (vx p) (vy p) P R2) as (C & S & _).
    set (lat := wgs84_latitude rho (vz p)) in *. set (lon := wgs84_longitude rho (vx p) (vy p)) in *.
    assert (Cp : 0 < cos lat) by (apply cos_gt_0; lra). unfold off_normal in N.
    apply vec_ext; cbn [vx vy vz].
    + replace (prime_vertical lat + (rho / cos lat - prime_vertical lat)) with (rho / cos lat) by ring. rewrite <- C. field. lra.
    + replace (prime_vertical lat + (rho / cos lat - prime_vertical lat)) with (rho / cos lat) by ring. rewrite <- S. field. lra.
    + apply Rmult_eq_reg_r with (cos lat); [|lra].
      replace ((prime_vertical lat * (1 - eccentricity2) + (rho / cos lat - prime_vertical lat)) * sin lat * cos lat)
        with (rho * sin lat - eccentricity2 * prime_vertical lat * sin lat * cos lat) by (field; lra). lra.
Qed.

(** Deeper than this a point can be nearer to the other side of the Earth. *)
Definition deepest : R := semi_major * (1 - eccentricity2).
Lemma shallow lat h : - deepest < h -> 0 < prime_vertical lat * (1 - eccentricity2) + h /\ 0 < prime_vertical lat + h.
Proof.
  intros H. pose proof (prime_vertical_bounds lat). pose proof eccentricity2_bounds. unfold deepest in H. pose proof major_pos.
  assert (semi_major * (1 - eccentricity2) <= prime_vertical lat * (1 - eccentricity2)) by (apply Rmult_le_compat_r; lra). split; [lra|]. nra.
Qed.
Lemma geodetic_geocentric lon lat h : - PI < lon <= PI -> - (PI / 2) < lat < PI / 2 -> - deepest < h ->
  wgs84_geodetic (wgs84_geocentric (mkGeo lon lat h)) = mkGeo lon lat h.
Proof.
  intros Lo La Hh. destruct (shallow lat h Hh) as (A & B). set (n := prime_vertical lat) in *.
  assert (Cp : 0 < cos lat) by (apply cos_gt_0; lra). set (r := (n + h) * cos lat). assert (Rp : 0 < r) by (apply Rmult_lt_0_compat; assumption).
  set (z := (n * (1 - eccentricity2) + h) * sin lat).
  unfold wgs84_geocentric. cbn [longitude latitude elevation]. fold n. fold r. fold z. unfold wgs84_geodetic. cbn [vx vy vz].
  assert (E : sqrt ((r * cos lon) ^ 2 + (r * sin lon) ^ 2) = r).
  { replace ((r * cos lon) ^ 2 + (r * sin lon) ^ 2) with (r * r); [apply sqrt_square; lra|].
    pose proof (sin2_cos2 lon) as T. unfold Rsqr in T. replace ((r * cos lon) ^ 2 + (r * sin lon) ^ 2) with (r * r * (sin lon * sin lon + cos lon * cos lon)) by ring. rewrite T. ring. }
  rewrite E. destruct (latitude_off_axis r z Rp) as (L & N & P1 & P2 & P3). destruct (longitude_direction r (r * cos lon) (r * sin lon) Rp) as (C & S & Lb).
  { pose proof (sin2_cos2 lon) as T. unfold Rsqr in T. replace ((r * cos lon) ^ 2 + (r * sin lon) ^ 2) with (r * r * (sin lon * sin lon + cos lon * cos lon)) by ring. rewrite T. ring. }
  assert (Q : off_normal r z lat = 0) by (unfold off_normal, r, z; fold n; ring).
  assert (K : wgs84_latitude r z = lat).
  { set (l := wgs84_latitude r z) in *. destruct (Rtotal_order lat 0) as [M|[M|M]].
    - assert (Sn : sin lat < 0) by (apply sin_lt_0_var; lra). assert (Z : z < 0) by (unfold z; nra). specialize (P2 Z).
      assert (- l = - lat); [|lra]. apply (one_latitude r (- z)); try lra; rewrite off_normal_opp; lra.
    - assert (z = 0) by (unfold z; rewrite M, sin_0; ring). rewrite M. apply P3. assumption.
    - assert (Sn : 0 < sin lat) by (apply sin_gt_0; lra). assert (Z : 0 < z) by (unfold z; apply Rmult_lt_0_compat; assumption). specialize (P1 Z).
      apply (one_latitude r z); try lra; assumption. }
  rewrite K. destruct (Req_EM_T r 0); [lra|]. f_equal.
  - apply same_direction; try assumption; apply Rmult_eq_reg_l with r; lra.
  - fold n. unfold r. field. lra.
Qed.
(** At the poles the longitude is lost. *)
Lemma geodetic_pole lon h (north : bool) : - deepest < h -> let lat := if north then PI / 2 else - (PI / 2) in
  wgs84_geodetic (wgs84_geocentric (mkGeo lon lat h)) = mkGeo 0 lat h.
Proof.
  intros Hh lat. destruct (shallow lat h Hh) as (A & B). set (n := prime_vertical lat) in *.
  assert (C : cos lat = 0) by (unfold lat; destruct north; rewrite ?cos_neg; apply cos_PI2).
  unfold wgs84_geocentric. cbn [longitude latitude elevation]. fold n. rewrite C. unfold wgs84_geodetic. cbn [vx vy vz].
  replace ((((n + h) * 0 * cos lon) ^ 2 + ((n + h) * 0 * sin lon) ^ 2)) with 0 by ring. rewrite sqrt_0.
  unfold wgs84_longitude, wgs84_latitude. destruct (Req_EM_T 0 0) as [_|]; [|lra].
  assert (K : (if Rlt_dec ((n * (1 - eccentricity2) + h) * sin lat) 0 then - (PI / 2) else PI / 2) = lat).
  { unfold lat. destruct north; rewrite ?sin_neg, sin_PI2; destruct (Rlt_dec _ 0); lra || reflexivity. }
  rewrite K. fold n. f_equal.
  unfold lat. destruct north; rewrite ?sin_neg, sin_PI2; [rewrite Rabs_right by lra|rewrite Rabs_left by lra]; ring.
Qed.
