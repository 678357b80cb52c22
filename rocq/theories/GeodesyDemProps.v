(** Property theorems for distances on the WGS 84 ellipsoid and the post spacing of elevation tiles
    (C103). *)
Require Import ZArith Reals String List Lra Lia.
Require Import Verif.Base Verif.BaseFacts Verif.Vec Verif.VecFacts Verif.SicdModel Verif.SensorBase Verif.TransformModel Verif.TransformSpec Verif.DemModel Verif.DemSpec Verif.DemProofs Verif.DemGdalModel Verif.DemGdalProps
  Verif.SicdSpec Verif.GeodesyModel Verif.GeodesyProofs Verif.GeodesyHeightProofs.
Import ListNotations.
Local Open Scope R_scope.

(** ** C103: distances between posts *)

(** The square of the haversine chord: of the distance of two directions on the unit sphere. *)
Definition chord2 (lon1 lat1 lon2 lat2 : R) : R :=
  4 * sin ((lat2 - lat1) / 2) ^ 2 + 4 * cos lat1 * cos lat2 * sin ((lon2 - lon1) / 2) ^ 2.

Lemma half_angle x : 4 * sin (x / 2) ^ 2 = 2 * (1 - cos x).
Proof. replace (cos x) with (cos (2 * (x / 2))) by (f_equal; field). rewrite cos_2a_sin. ring. Qed.
Lemma up_chord g k : distance (local_up g) (local_up k) ^ 2 = chord2 (longitude g) (latitude g) (longitude k) (latitude k).
Proof.
  rewrite distance_sq. pose proof (up_is_unit g) as Ug. pose proof (up_is_unit k) as Uk. unfold chord2.
  rewrite half_angle. replace (4 * cos (latitude g) * cos (latitude k) * sin ((longitude k - longitude g) / 2) ^ 2) with (cos (latitude g) * cos (latitude k) * (4 * sin ((longitude k - longitude g) / 2) ^ 2)) by ring.
  rewrite half_angle, !cos_minus.
  transitivity (2 - 2 * (vx (local_up g) * vx (local_up k) + vy (local_up g) * vy (local_up k) + vz (local_up g) * vz (local_up k))); [lra|].
  unfold local_up. cbn [vx vy vz]. ring.
Qed.

Lemma prime_vertical_most lat : prime_vertical lat <= 6399594.
Proof.
  unfold prime_vertical. assert (S : 1 - flattening <= sqrt (1 - eccentricity2 * sin lat ^ 2)).
  { rewrite <- (sqrt_square (1 - flattening)) by (unfold flattening; lra). apply sqrt_le_1_alt. pose proof eccentricity2_bounds. pose proof (SIN_bound lat).
    assert (sin lat ^ 2 <= 1) by (cbn; nra). replace ((1 - flattening) * (1 - flattening)) with (1 - eccentricity2 * 1) by (unfold eccentricity2; ring). nra. }
  assert (0 < 1 - flattening) by (unfold flattening; lra).
  apply Rle_trans with (semi_major / (1 - flattening)).
  - apply Rmult_le_compat_l; [pose proof major_pos; lra|]. apply Rinv_le_contravar; assumption.
  - unfold semi_major, flattening. apply Rmult_le_reg_r with (1 - 1000000000 / 298257223563); [lra|]. unfold Rdiv at 1. rewrite Rmult_assoc, Rinv_l by lra. lra.
Qed.
Lemma form_ge_major v : (vx v ^ 2 + vy v ^ 2 + vz v ^ 2) / semi_major ^ 2 <= ellipsoid_form v.
Proof.
  unfold ellipsoid_form. pose proof minor2_pos as B. pose proof major2_pos as A. pose proof eccentricity2_bounds as E.
  assert (I : / semi_major ^ 2 <= / minor2) by (apply Rinv_le_contravar; [exact B|unfold minor2; nra]).
  unfold Rdiv. rewrite Rmult_plus_distr_r. apply Rplus_le_compat_l. apply Rmult_le_compat_l; [apply pow2_ge_0|exact I].
Qed.
(** The ellipsoid lies in a ball of the largest radius of curvature that touches it. *)
Lemma surface_inside_ball g k : let v := vsub (on_ellipsoid k) (on_ellipsoid g) in
  vx v ^ 2 + vy v ^ 2 + vz v ^ 2 <= 2 * 6399594 * - vdot (local_up g) v.
Proof.
  intros v. pose proof (form_shift g v) as F. assert (E : vadd (on_ellipsoid g) v = on_ellipsoid k) by (unfold v, vadd, vsub; destruct (on_ellipsoid g), (on_ellipsoid k); cbn; f_equal; ring).
  rewrite E, form_on_ellipsoid in F. pose proof (form_ge_major v) as G. pose proof (prime_vertical_most (latitude g)) as M. pose proof (prime_vertical_bounds (latitude g)) as (B & _). pose proof major_pos as A.
  set (n := prime_vertical (latitude g)) in *. set (s := vx v ^ 2 + vy v ^ 2 + vz v ^ 2) in *. set (d := vdot (local_up g) v) in *. pose proof major2_pos as A2.
  assert (H : s <= 2 * n * - d).
  { apply Rmult_le_reg_r with (/ semi_major ^ 2); [apply Rinv_0_lt_compat, A2|]. fold (s / semi_major ^ 2). replace (2 * n * - d * / semi_major ^ 2) with (- (2 * (n / semi_major ^ 2) * d)) by (field; lra). lra. }
  assert (0 <= s) by (unfold s; pose proof (pow2_ge_0 (vx v)); pose proof (pow2_ge_0 (vy v)); pose proof (pow2_ge_0 (vz v)); lra).
  assert (0 <= - d) by nra. nra.
Qed.
Lemma cauchy a b c x y z s t : 0 <= s -> 0 <= t -> s ^ 2 = a ^ 2 + b ^ 2 + c ^ 2 -> t ^ 2 = x ^ 2 + y ^ 2 + z ^ 2 -> a * x + b * y + c * z <= s * t.
Proof.
  intros S T E F. apply Rnot_lt_le. intros L. assert (0 <= s * t) by (apply Rmult_le_pos; assumption).
  assert (K : (s * t) ^ 2 < (a * x + b * y + c * z) ^ 2) by (cbn; nra). rewrite Rpow_mult_distr, E, F in K.
  pose proof (pow2_ge_0 (a * y - b * x)). pose proof (pow2_ge_0 (a * z - c * x)). pose proof (pow2_ge_0 (b * z - c * y)). nra.
Qed.
Lemma surface_chord g k : 6335439 * distance (local_up g) (local_up k) <= distance (on_ellipsoid g) (on_ellipsoid k) <= 6399594 * distance (local_up g) (local_up k).
Proof.
  pose proof (up_is_unit g) as Ug. pose proof (up_is_unit k) as Uk.
  assert (Bi : forall x, 0 <= deepest <= prime_vertical (latitude x) * (1 - eccentricity2)).
  { intros x. pose proof (prime_vertical_bounds (latitude x)). pose proof eccentricity2_bounds. pose proof major_pos. unfold deepest. split; [apply Rmult_le_pos; lra|apply Rmult_le_compat_r; lra]. }
  pose proof (below_tangent _ k (ball_inside g deepest (local_up k) (Bi g) Uk)) as B1. pose proof (below_tangent _ g (ball_inside k deepest (local_up g) (Bi k) Ug)) as B2.
  pose proof (height_along (mkGeo (longitude k) (latitude k) 0)) as S1. pose proof (height_along (mkGeo (longitude g) (latitude g) 0)) as S2.
  change (wgs84_geocentric (mkGeo (longitude k) (latitude k) 0)) with (on_ellipsoid k) in S1. change (wgs84_geocentric (mkGeo (longitude g) (latitude g) 0)) with (on_ellipsoid g) in S2.
  change (local_up (mkGeo (longitude k) (latitude k) 0)) with (local_up k) in S1. change (local_up (mkGeo (longitude g) (latitude g) 0)) with (local_up g) in S2. cbn [latitude elevation] in S1, S2.
  pose proof (surface_inside_ball g k) as O1. pose proof (surface_inside_ball k g) as O2. cbv zeta in O1, O2.
  set (a := local_up g) in *. set (b := local_up k) in *. set (s := on_ellipsoid g) in *. set (t := on_ellipsoid k) in *.
  assert (De : distance a b ^ 2 = 2 * (1 - vdot a b)) by (rewrite distance_sq; unfold vdot; lra).
  assert (Dd : 6335439 <= deepest) by (unfold deepest, semi_major, eccentricity2, flattening; lra).
  assert (K1 : vdot s b + deepest * (1 - vdot a b) <= vdot t b).
  { assert (E : vdot (vadd s (vscale deepest (vsub b a))) b = vdot s b + deepest * ((vx b ^ 2 + vy b ^ 2 + vz b ^ 2) - vdot a b)) by (unfold vdot, vadd, vscale, vsub; cbn [vx vy vz]; ring).
    rewrite E, Uk in B1. lra. }
  assert (K2 : vdot t a + deepest * (1 - vdot a b) <= vdot s a).
  { assert (E : vdot (vadd t (vscale deepest (vsub a b))) a = vdot t a + deepest * ((vx a ^ 2 + vy a ^ 2 + vz a ^ 2) - vdot a b)) by (unfold vdot, vadd, vscale, vsub; cbn [vx vy vz]; ring).
    rewrite E, Ug in B2. lra. }
  pose proof (distance_sq s t) as Ds. pose proof (distance_sq a b) as Da.
  assert (P1 : 0 <= distance s t) by apply sqrt_pos. assert (P2 : 0 <= distance a b) by apply sqrt_pos.
  pose proof (cauchy (vx s - vx t) (vy s - vy t) (vz s - vz t) (vx a - vx b) (vy a - vy b) (vz a - vz b) _ _ P1 P2 Ds Da) as C.
  assert (E : (vx s - vx t) * (vx a - vx b) + (vy s - vy t) * (vy a - vy b) + (vz s - vz t) * (vz a - vz b) = (vdot s a - vdot t a) + (vdot t b - vdot s b)) by (unfold vdot; ring).
  rewrite E in C. set (x := distance s t) in *. set (y := distance a b) in *.
  split.
  - destruct (Req_dec y 0) as [Z|Z]; [rewrite Z; lra|]. apply Rmult_le_reg_r with y; [lra|]. replace (6335439 * y * y) with (6335439 * y ^ 2) by ring. rewrite De.
    assert (0 <= 1 - vdot a b) by (pose proof (pow2_ge_0 y); lra). nra.
  - destruct (Req_dec x 0) as [Z|Z]; [rewrite Z; nra|]. apply Rmult_le_reg_r with x; [lra|]. replace (x * x) with (x ^ 2) by ring. rewrite Ds.
    unfold vdot, vsub in O1, O2. cbn [vx vy vz] in O1, O2. clear Da De K1 K2 B1 B2. unfold vdot in C. nra.
Qed.

(** Two places of the ellipsoid are as far apart as on a sphere, with a radius between 6,335.439 and
    6,399.594 kilometres. *)
Theorem C103_distance :
  forall lon1 lat1 lon2 lat2 : R,
  let d := distance (wgs84_geocentric (mkGeo lon1 lat1 0)) (wgs84_geocentric (mkGeo lon2 lat2 0)) in
  6335439 ^ 2 * chord2 lon1 lat1 lon2 lat2 <= d ^ 2 <= 6399594 ^ 2 * chord2 lon1 lat1 lon2 lat2.
Proof.
  intros lon1 lat1 lon2 lat2 d. pose proof (surface_chord (mkGeo lon1 lat1 0) (mkGeo lon2 lat2 0)) as (L & U).
  change (on_ellipsoid (mkGeo lon1 lat1 0)) with (wgs84_geocentric (mkGeo lon1 lat1 0)) in L, U. change (on_ellipsoid (mkGeo lon2 lat2 0)) with (wgs84_geocentric (mkGeo lon2 lat2 0)) in L, U.
  fold d in L, U. change (chord2 lon1 lat1 lon2 lat2) with (chord2 (longitude (mkGeo lon1 lat1 0)) (latitude (mkGeo lon1 lat1 0)) (longitude (mkGeo lon2 lat2 0)) (latitude (mkGeo lon2 lat2 0))). rewrite <- up_chord. rewrite <- !Rpow_mult_distr.
  assert (0 <= d) by apply sqrt_pos. assert (0 <= distance (local_up (mkGeo lon1 lat1 0)) (local_up (mkGeo lon2 lat2 0))) by apply sqrt_pos.
  split; apply pow_incr; lra.
Qed.
Print Assumptions C103_distance.

(** Where post x of row y is, on the ellipsoid. *)
Definition post_place (g : list R) (x y : R) : Vec :=
  wgs84_geocentric (mkGeo (gdal_longitude g x y * PI / 180) (gdal_latitude g x y * PI / 180) 0).
Lemma distance_vnorm a b : vnorm (vsub a b) = distance a b.
Proof. unfold vnorm, vdot, vsub, distance. cbn [vx vy vz]. f_equal. ring. Qed.

(** The post spacing that is reported for a tile, whatever its geotransform: the diagonal of the tile over
    that in pixels. *)
Theorem C103_post_spacing :
  forall op dir find size h w id ds g0 g1 g2 g3 g4 g5 width height,
  good_tile op dir find w id ds g0 g1 g2 g3 g4 g5 width height ->
  let load := gdal_get_tile op wgs84_geocentric dir in
  let g := [g0; g1; g2; g3; g4; g5] in
  let x := INR width in let y := INR height in
  let diagonal2 := chord2 (g0 * PI / 180) (g3 * PI / 180) (gdal_longitude g x y * PI / 180) (gdal_latitude g x y * PI / 180) in
  exists sm,
  snd (describe_region find (fun _ => load) (fst (run find (fun _ => load) (new_cache size) h)) w) = Ok (Some sm) /\
  0 <= post_spacing sm /\
  6335439 ^ 2 * diagonal2 <= post_spacing sm ^ 2 * (x ^ 2 + y ^ 2) <= 6399594 ^ 2 * diagonal2.
Proof.
  intros op dir find size h w id ds g0 g1 g2 g3 g4 g5 width height G load g x y diagonal2.
  destruct (C78_summary op wgs84_geocentric dir find size h w id ds g0 g1 g2 g3 g4 g5 width height G) as (sm & D & _ & _ & P).
  exists sm. split; [exact D|]. fold g x y in P. rewrite distance_vnorm in P.
  destruct G as (_ & _ & _ & _ & _ & _ & W & H).
  assert (X : 0 < x) by (apply lt_0_INR; lia). assert (Y : 0 < y) by (apply lt_0_INR; lia).
  assert (Q : 0 < x ^ 2 + y ^ 2) by (cbn; nra). pose proof (sqrt_lt_R0 _ Q) as S. pose proof (sqrt_sqrt _ (Rlt_le _ _ Q)) as SS.
  split.
  - apply Rmult_le_reg_r with (sqrt (x ^ 2 + y ^ 2)); [exact S|]. rewrite P, Rmult_0_l. apply sqrt_pos.
  - pose proof (C103_distance (g0 * PI / 180) (g3 * PI / 180) (gdal_longitude g x y * PI / 180) (gdal_latitude g x y * PI / 180)) as C. cbv zeta in C.
    rewrite <- P in C. fold diagonal2 in C. replace ((post_spacing sm * sqrt (x ^ 2 + y ^ 2)) ^ 2) with (post_spacing sm ^ 2 * (x ^ 2 + y ^ 2)) in C; [exact C|].
    transitivity (post_spacing sm ^ 2 * (sqrt (x ^ 2 + y ^ 2) * sqrt (x ^ 2 + y ^ 2))); [rewrite SS; reflexivity|ring].
Qed.
Print Assumptions C103_post_spacing.

Lemma sin_sq_le t : sin t ^ 2 <= t ^ 2.
Proof.
  rewrite <- (pow2_abs (sin t)), <- (pow2_abs t). apply pow_incr. split; [apply Rabs_pos|].
  destruct (Rtotal_order t 0) as [T|[-> |T]].
  - rewrite (Rabs_left t T). rewrite <- (Ropp_involutive t) at 1. rewrite sin_neg, Rabs_Ropp.
    destruct (Rle_dec (- t) 1) as [L|L].
    + rewrite Rabs_pos_eq; [apply Rlt_le, sin_lt_x; lra|]. apply sin_ge_0; [lra|]. pose proof PI2_1. lra.
    + pose proof (SIN_bound (- t)). apply Rabs_le. lra.
  - rewrite sin_0. lra.
  - rewrite (Rabs_pos_eq t) by lra. destruct (Rle_dec t 1) as [L|L].
    + rewrite Rabs_pos_eq; [apply Rlt_le, sin_lt_x; lra|]. apply sin_ge_0; [lra|]. pose proof PI2_1. lra.
    + pose proof (SIN_bound t). apply Rabs_le. lra.
Qed.
Lemma cos_cos_le a b : cos a * cos b <= 1.
Proof. pose proof (COS_bound a). pose proof (COS_bound b). nra. Qed.
Lemma sq_le_of a b : 0 <= b -> a ^ 2 <= b ^ 2 -> a <= b.
Proof. intros B H. apply Rnot_lt_le. intros L. cbn in H. nra. Qed.

(** For tiles with the north up it is never more than the larger side of a cell at the equator. *)
Theorem C103_at_most :
  forall op dir find size h w id ds g0 g1 g3 g5 width height,
  good_tile op dir find w id ds g0 g1 0 g3 0 g5 width height ->
  let load := gdal_get_tile op wgs84_geocentric dir in
  exists sm,
  snd (describe_region find (fun _ => load) (fst (run find (fun _ => load) (new_cache size) h)) w) = Ok (Some sm) /\
  post_spacing sm <= 6399594 * (Rmax (Rabs g1) (Rabs g5) * PI / 180).
Proof.
  intros op dir find size h w id ds g0 g1 g3 g5 width height G load.
  destruct (C103_post_spacing op dir find size h w id ds g0 g1 0 g3 0 g5 width height G) as (sm & D & P & _ & U).
  exists sm. split; [exact D|]. destruct G as (_ & _ & _ & _ & _ & _ & W & H). cbv zeta in U.
  assert (X : 0 < INR width) by (apply lt_0_INR; lia). assert (Y : 0 < INR height) by (apply lt_0_INR; lia).
  set (x := INR width) in *. set (y := INR height) in *. set (m := Rmax (Rabs g1) (Rabs g5)).
  assert (M : 0 <= m) by (unfold m; pose proof (Rabs_pos g1); pose proof (Rmax_l (Rabs g1) (Rabs g5)); lra). pose proof PI_RGT_0 as PI0.
  assert (M1 : g1 ^ 2 <= m ^ 2) by (rewrite <- (pow2_abs g1); apply pow_incr; split; [apply Rabs_pos|apply Rmax_l]).
  assert (M5 : g5 ^ 2 <= m ^ 2) by (rewrite <- (pow2_abs g5); apply pow_incr; split; [apply Rabs_pos|apply Rmax_r]).
  apply sq_le_of; [apply Rmult_le_pos; [lra|]; apply Rmult_le_pos; [apply Rmult_le_pos|]; lra|].
  assert (Q : 0 < x ^ 2 + y ^ 2) by (cbn; nra). apply Rmult_le_reg_r with (x ^ 2 + y ^ 2); [exact Q|].
  eapply Rle_trans; [exact U|]. rewrite Rpow_mult_distr, Rmult_assoc. apply Rmult_le_compat_l; [apply pow2_ge_0|].
  unfold chord2, gdal_longitude, gdal_latitude. cbn [nth].
  replace ((g3 + 0 * x + g5 * y) * PI / 180 - g3 * PI / 180) with (y * g5 * (PI / 180)) by field.
  replace ((g0 + g1 * x + 0 * y) * PI / 180 - g0 * PI / 180) with (x * g1 * (PI / 180)) by field.
  set (c := cos _). set (c' := cos _). pose proof (cos_cos_le (g3 * PI / 180) ((g3 + 0 * x + g5 * y) * PI / 180)) as C. fold c c' in C.
  pose proof (sin_sq_le (y * g5 * (PI / 180) / 2)) as S1. pose proof (sin_sq_le (x * g1 * (PI / 180) / 2)) as S2.
  set (s2 := sin (x * g1 * (PI / 180) / 2) ^ 2) in *. assert (0 <= s2) by apply pow2_ge_0.
  apply Rle_trans with (4 * (y * g5 * (PI / 180) / 2) ^ 2 + 4 * (x * g1 * (PI / 180) / 2) ^ 2); [apply Rplus_le_compat; [lra|nra]|].
  replace (4 * (y * g5 * (PI / 180) / 2) ^ 2 + 4 * (x * g1 * (PI / 180) / 2) ^ 2) with ((y ^ 2 * g5 ^ 2 + x ^ 2 * g1 ^ 2) * (PI / 180) ^ 2) by field.
  replace ((m * PI / 180) ^ 2 * (x ^ 2 + y ^ 2)) with ((y ^ 2 * m ^ 2 + x ^ 2 * m ^ 2) * (PI / 180) ^ 2) by field.
  apply Rmult_le_compat_r; [apply pow2_ge_0|]. pose proof (pow2_ge_0 x). pose proof (pow2_ge_0 y). apply Rplus_le_compat; apply Rmult_le_compat_l; assumption.
Qed.
Print Assumptions C103_at_most.

(** Neighbouring posts of a row get closer with the cosine of the latitude. *)
Theorem C103_row :
  forall g0 g1 g3 g5 x y : R, let g := [g0; g1; 0; g3; 0; g5] in
  distance (post_place g x y) (post_place g (x + 1) y) <= 6399594 * (Rabs (cos (gdal_latitude g x y * PI / 180)) * (Rabs g1 * PI / 180)).
Proof.
  intros g0 g1 g3 g5 x y g. pose proof PI_RGT_0.
  apply sq_le_of; [apply Rmult_le_pos; [lra|]; apply Rmult_le_pos; [apply Rabs_pos|]; apply Rmult_le_pos; [apply Rmult_le_pos; [apply Rabs_pos|]|]; lra|].
  unfold post_place. eapply Rle_trans; [apply C103_distance|]. rewrite (Rpow_mult_distr 6399594). apply Rmult_le_compat_l; [apply pow2_ge_0|].
  rewrite Rpow_mult_distr, pow2_abs. unfold chord2, g, gdal_longitude, gdal_latitude. cbn [nth].
  replace (g3 + 0 * (x + 1) + g5 * y) with (g3 + 0 * x + g5 * y) by ring. set (lat := (g3 + 0 * x + g5 * y) * PI / 180).
  replace ((lat - lat) / 2) with 0 by field. rewrite sin_0.
  replace ((g0 + g1 * (x + 1) + 0 * y) * PI / 180 - (g0 + g1 * x + 0 * y) * PI / 180) with (g1 * PI / 180) by field.
  pose proof (sin_sq_le (g1 * PI / 180 / 2)) as S. replace ((Rabs g1 * PI / 180) ^ 2) with (4 * (g1 * PI / 180 / 2) ^ 2).
  - pose proof (pow2_ge_0 (cos lat)). replace (4 * 0 ^ 2 + 4 * cos lat * cos lat * sin (g1 * PI / 180 / 2) ^ 2) with (cos lat ^ 2 * (4 * sin (g1 * PI / 180 / 2) ^ 2)) by ring.
    apply Rmult_le_compat_l; [assumption|lra].
  - rewrite <- (pow2_abs (g1 * PI / 180 / 2)). unfold Rdiv. rewrite !Rabs_mult, (Rabs_pos_eq PI), (Rabs_pos_eq (/ 180)), (Rabs_pos_eq (/ 2)) by lra. field.
Qed.
Print Assumptions C103_row.

Lemma sin_near x : 0 <= x <= 1 / 45 -> 0.999 * x <= sin x.
Proof.
  intros X. destruct (pre_sin_bound x 0 (proj1 X)) as (L & _); [lra|]. unfold sin_approx, sin_term in L. cbn [Nat.mul Nat.add sum_f_R0 pow] in L.
  replace (INR (fact 1)) with 1 in L by reflexivity. replace (INR (fact 3)) with 6 in L by (rewrite INR_IZR_INZ; reflexivity).
  assert (x * x <= 1 / 2025) by nra. assert (x * (x * x) <= x * (1 / 2025)) by (apply Rmult_le_compat_l; lra). lra.
Qed.
Lemma cos_pole lat : 75 <= Rabs lat <= 90 -> 0 <= cos (lat * PI / 180) <= 1 / 3.
Proof.
  intros L. replace (cos (lat * PI / 180)) with (cos (Rabs lat * PI / 180)).
  - pose proof PI_RGT_0. pose proof PI_4. replace (Rabs lat * PI / 180) with (PI / 2 - (90 - Rabs lat) * PI / 180) by field. rewrite cos_shift.
    set (t := (90 - Rabs lat) * PI / 180). assert (T : 0 <= t <= 1 / 3) by (unfold t; nra).
    split; [apply sin_ge_0; pose proof PI2_1; lra|]. destruct (Req_dec t 0) as [-> |N]; [rewrite sin_0; lra|]. pose proof (sin_lt_x t). lra.
  - destruct (Rle_dec 0 lat) as [P|P]; [rewrite (Rabs_pos_eq lat P); reflexivity|]. rewrite (Rabs_left lat) by lra. replace (- lat * PI / 180) with (- (lat * PI / 180)) by field. apply cos_neg.
Qed.
Lemma cos_sixty lat : 60 <= Rabs lat <= 90 -> 0 <= cos (lat * PI / 180) <= 1 / 2.
Proof.
  intros L. replace (cos (lat * PI / 180)) with (cos (Rabs lat * PI / 180)).
  - pose proof PI_RGT_0. split; [apply cos_ge_0; nra|]. rewrite <- cos_PI3. apply cos_decr_1; nra.
  - destruct (Rle_dec 0 lat) as [P|P]; [rewrite (Rabs_pos_eq lat P); reflexivity|]. rewrite (Rabs_left lat) by lra. replace (- lat * PI / 180) with (- (lat * PI / 180)) by field. apply cos_neg.
Qed.
Lemma cos_north lat : -90 <= lat <= 90 -> 0 <= cos (lat * PI / 180).
Proof. intros L. pose proof PI_RGT_0. apply cos_ge_0; nra. Qed.

(** It is not the distance of neighbouring posts.  For tiles of square cells up to two degrees wide it is
    larger than that distance in every row from 60 degrees latitude on, and from 75 degrees on so is
    half of it, which is what the intersection with SICD contours takes for half a post. *)
Theorem C103_coarse_rows :
  forall op dir find size h w id ds g0 g1 g3 n,
  good_tile op dir find w id ds g0 g1 0 g3 0 (- g1) n n -> 0 < g1 -> INR n * g1 <= 2 -> -90 <= g3 - INR n * g1 -> g3 <= 90 ->
  let load := gdal_get_tile op wgs84_geocentric dir in
  let g := [g0; g1; 0; g3; 0; - g1] in
  exists sm,
  snd (describe_region find (fun _ => load) (fst (run find (fun _ => load) (new_cache size) h)) w) = Ok (Some sm) /\
  forall x y : R, 
  (60 <= Rabs (gdal_latitude g x y) <= 90 -> distance (post_place g x y) (post_place g (x + 1) y) < post_spacing sm) /\
  (75 <= Rabs (gdal_latitude g x y) <= 90 -> distance (post_place g x y) (post_place g (x + 1) y) < post_spacing sm / 2).
Proof.
  intros op dir find size h w id ds g0 g1 g3 n G P1 E2 S90 N90 load g.
  destruct (C103_post_spacing op dir find size h w id ds g0 g1 0 g3 0 (- g1) n n G) as (sm & D & P & L & _).
  exists sm. split; [exact D|]. destruct G as (_ & _ & _ & _ & _ & _ & W & _). cbv zeta in L. fold g in L.
  assert (X : 0 < INR n) by (apply lt_0_INR; lia). set (k := INR n) in *. pose proof PI_RGT_0 as PI0. pose proof PI_4 as PI4.
  assert (Low : 0.998 * (6335439 * (g1 * PI / 180)) ^ 2 <= 2 * post_spacing sm ^ 2).
  { unfold chord2, g, gdal_longitude, gdal_latitude in L. cbn [nth] in L.
    replace (((g3 + 0 * k + - g1 * k) * PI / 180 - g3 * PI / 180) / 2) with (- (k * (g1 * PI / 180) / 2)) in L by field. rewrite sin_neg in L.
    pose proof (cos_north g3 ltac:(nra)) as C1. pose proof (cos_north (g3 + 0 * k + - g1 * k) ltac:(nra)) as C2.
    set (c := cos (g3 * PI / 180)) in *. set (c' := cos ((g3 + 0 * k + - g1 * k) * PI / 180)) in *. set (s := sin (_ / 2)) in L at 2.
    assert (0 <= c * c' * s ^ 2) by (apply Rmult_le_pos; [apply Rmult_le_pos; assumption|apply pow2_ge_0]).
    set (t := g1 * PI / 180) in *. assert (T : 0 < t) by (unfold t; apply Rmult_lt_0_compat; [apply Rmult_lt_0_compat|]; lra).
    assert (K : 0 <= k * t / 2 <= 1 / 45) by (split; [nra|]; unfold t; replace (k * (g1 * PI / 180) / 2) with ((k * g1) * PI / 360) by field; assert (k * g1 * PI <= 2 * 4) by (apply Rmult_le_compat; nra); lra).
    pose proof (sin_near _ K) as S. set (q := sin (k * t / 2)) in *.
    assert (Q : (0.999 * (k * t / 2)) ^ 2 <= q ^ 2) by (apply pow_incr; lra).
    apply Rmult_le_reg_l with (k ^ 2); [cbn; nra|].
    apply Rle_trans with (6335439 ^ 2 * (4 * (0.999 * (k * t / 2)) ^ 2)).
    - replace (k ^ 2 * (0.998 * (6335439 * t) ^ 2)) with (6335439 ^ 2 * (0.998 * (k * t) ^ 2)) by ring. apply Rmult_le_compat_l; [apply pow2_ge_0|].
      replace (4 * (0.999 * (k * t / 2)) ^ 2) with (0.998001 * (k * t) ^ 2) by (field_simplify; lra). pose proof (pow2_ge_0 (k * t)). lra.
    - replace (k ^ 2 * (2 * post_spacing sm ^ 2)) with (post_spacing sm ^ 2 * (k ^ 2 + k ^ 2)) by ring. eapply Rle_trans; [|exact L].
      apply Rmult_le_compat_l; [apply pow2_ge_0|]. replace ((- q) ^ 2) with (q ^ 2) by ring. nra. }
  intros x y. pose proof (C103_row g0 g1 g3 (- g1) x y) as R. cbv zeta in R. fold g in R. rewrite (Rabs_pos_eq g1) in R by lra.
  set (t := g1 * PI / 180) in *. assert (T : 0 < t) by (unfold t; apply Rmult_lt_0_compat; [apply Rmult_lt_0_compat|]; lra).
  split; intros A.
  - destruct (cos_sixty _ A) as (C1 & C2). rewrite (Rabs_pos_eq (cos _) C1) in R. set (c := cos _) in *.
    apply Rle_lt_trans with (6399594 * (1 / 2 * t)); [nra|]. apply Rnot_le_lt. intros F.
    assert (post_spacing sm ^ 2 <= (6399594 * (1 / 2 * t)) ^ 2) by (apply pow_incr; lra).
    assert (0 < t ^ 2) by (cbn; nra). replace ((6399594 * (1 / 2 * t)) ^ 2) with (6399594 ^ 2 / 4 * t ^ 2) in H by field. replace ((6335439 * t) ^ 2) with (6335439 ^ 2 * t ^ 2) in Low by ring. nra.
  - destruct (cos_pole _ A) as (C1 & C2). rewrite (Rabs_pos_eq (cos _) C1) in R. set (c := cos _) in *.
    apply Rle_lt_trans with (6399594 * (1 / 3 * t)); [nra|]. apply Rnot_le_lt. intros F.
    assert (post_spacing sm ^ 2 <= (2 * (6399594 * (1 / 3 * t))) ^ 2) by (apply pow_incr; lra).
    assert (0 < t ^ 2) by (cbn; nra). replace ((2 * (6399594 * (1 / 3 * t))) ^ 2) with (6399594 ^ 2 * 4 / 9 * t ^ 2) in H by field. replace ((6335439 * t) ^ 2) with (6335439 ^ 2 * t ^ 2) in Low by ring. nra.
Qed.
Print Assumptions C103_coarse_rows.

(** A tile of two by two posts, a degree apart, between 78 and 80 degrees north. *)
Definition polar_dataset : DemDataset := mkDemDataset (Some [10; 1; 0; 80; 0; -1]) [[0; 0]; [0; 400]] (0, 400) None.
Example C103_non_vacuous :
  good_tile (fun _ => Ok (Some polar_dataset)) "/dem" demo_tile_of demo_center "t" polar_dataset 10 1 0 80 0 (- (1)) 2 2 /\
  INR 2 * 1 <= 2 /\ 75 <= Rabs (gdal_latitude [10; 1; 0; 80; 0; - (1)] 0 1) <= 90 /\
  0 < distance (post_place [10; 1; 0; 80; 0; - (1)] 0 1) (post_place [10; 1; 0; 80; 0; - (1)] (0 + 1) 1).
Proof.
  repeat split; try reflexivity; try lia; try discriminate; try lra.
  - cbn. intros row [<-|[<-|[]]]; reflexivity.
  - cbn. lra.
  - unfold gdal_latitude. cbn [nth]. replace (80 + 0 * 0 + - (1) * 1) with 79 by ring. rewrite Rabs_pos_eq; lra.
  - unfold gdal_latitude. cbn [nth]. replace (80 + 0 * 0 + - (1) * 1) with 79 by ring. rewrite Rabs_pos_eq; lra.
  - set (g := [10; 1; 0; 80; 0; - (1)]). assert (P0 : 0 <= distance (post_place g 0 1) (post_place g (0 + 1) 1)) by apply sqrt_pos.
    destruct (C103_distance (gdal_longitude g 0 1 * PI / 180) (gdal_latitude g 0 1 * PI / 180) (gdal_longitude g (0 + 1) 1 * PI / 180) (gdal_latitude g (0 + 1) 1 * PI / 180)) as (L & _).
    fold (post_place g 0 1) (post_place g (0 + 1) 1) in L. destruct (Rle_lt_or_eq_dec _ _ P0) as [E|E]; [exact E|]. exfalso. rewrite <- E in L.
    unfold chord2, g, gdal_longitude, gdal_latitude in L. cbn [nth] in L. pose proof PI_RGT_0 as PI0. pose proof PI_4.
    replace (80 + 0 * (0 + 1) + - (1) * 1) with 79 in L by ring. replace (80 + 0 * 0 + - (1) * 1) with 79 in L by ring.
    replace (((10 + 1 * (0 + 1) + 0 * 1) * PI / 180 - (10 + 1 * 0 + 0 * 1) * PI / 180) / 2) with (PI / 360) in L by field.
    assert (C : 0 < cos (79 * PI / 180)) by (apply cos_gt_0; lra). assert (S : 0 < sin (PI / 360)) by (apply sin_gt_0; lra).
    assert (0 < cos (79 * PI / 180) * cos (79 * PI / 180) * sin (PI / 360) ^ 2) by (apply Rmult_lt_0_compat; [nra|cbn; nra]).
    pose proof (pow2_ge_0 (sin ((79 * PI / 180 - 79 * PI / 180) / 2))). lra.
Qed.

(** The half post of the intersection with the terrain is then more than a whole one. *)
Theorem C103_half_post_refuted :
  exists op dir find w id ds g0 g1 g3 n sm,
  good_tile op dir find w id ds g0 g1 0 g3 0 (- g1) n n /\
  snd (describe_region find (fun _ => gdal_get_tile op wgs84_geocentric dir) (new_cache 10) w) = Ok (Some sm) /\
  forall to_geodetic scp side t d, SicdModel.describe_region t (to_geodetic scp) = Some (min_elevation sm, max_elevation sm, post_spacing sm) ->
  SicdModel.make_dem to_geodetic scp side t = Ok d ->
  let g := [g0; g1; 0; g3; 0; - g1] in
  distance (post_place g 0 1) (post_place g 1 1) < SicdModel.delta_dist_dem d.
Proof.
  destruct C103_non_vacuous as (G & W & L & _). 
  destruct (C103_coarse_rows _ _ _ 10 [] _ _ _ _ _ _ _ G ltac:(lra) W ltac:(cbn; lra) ltac:(lra)) as (sm & D & C). cbv zeta in D.
  eexists _, _, _, _, _, _, _, _, _, _, sm. split; [exact G|]. split; [exact D|].
  intros to_geodetic scp side t d S M g. unfold SicdModel.make_dem in M. rewrite S in M. injection M as <-. cbn [SicdModel.delta_dist_dem].
  destruct (C 0 1) as (_ & H). specialize (H L). rewrite Rplus_0_l in H. unfold g. lra.
Qed.
Print Assumptions C103_half_post_refuted.
