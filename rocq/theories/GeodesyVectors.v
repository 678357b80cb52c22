(** The tests of the conversions between geodetic and geocentric coordinates, run on the model.
    Source: test/aws/osml/photogrammetry/test_coordinates.py:149-165. *)
Require Import Reals Lra.
Require Import Verif.Base Verif.Vec Verif.VecFacts Verif.SicdSpec Verif.TileModel Verif.FloatProofs Verif.GeodesyModel Verif.GeodesyProofs Verif.GeodesyHeightProofs Verif.GeodesyProps.
Local Open Scope R_scope.

Lemma sin_poly x : 0 <= x <= 4 ->
  x - x ^ 3 / 6 + x ^ 5 / 120 - x ^ 7 / 5040 <= sin x <= x - x ^ 3 / 6 + x ^ 5 / 120 - x ^ 7 / 5040 + x ^ 9 / 362880.
Proof.
  intros (A & B). destruct (pre_sin_bound x 1 A B) as (L & H). unfold sin_approx, sin_term in L, H.
  cbn [Nat.mul Nat.add sum_f_R0 pow] in L, H. 
  assert (F : INR (fact 1) = 1 /\ INR (fact 3) = 6 /\ INR (fact 5) = 120 /\ INR (fact 7) = 5040 /\ INR (fact 9) = 362880).
  { rewrite !INR_IZR_INZ. repeat split; vm_compute; reflexivity. }
  destruct F as (F1 & F3 & F5 & F7 & F9). rewrite F1, F3, F5, F7 in L. rewrite F1, F3, F5, F7, F9 in H. split; lra.
Qed.
Lemma cos_poly x : -2 <= x <= 2 ->
  1 - x ^ 2 / 2 + x ^ 4 / 24 - x ^ 6 / 720 <= cos x <= 1 - x ^ 2 / 2 + x ^ 4 / 24 - x ^ 6 / 720 + x ^ 8 / 40320.
Proof.
  intros (A & B). destruct (pre_cos_bound x 1 A B) as (L & H). unfold cos_approx, cos_term in L, H.
  cbn [Nat.mul Nat.add sum_f_R0 pow] in L, H.
  assert (F : INR (fact 0) = 1 /\ INR (fact 2) = 2 /\ INR (fact 4) = 24 /\ INR (fact 6) = 720 /\ INR (fact 8) = 40320).
  { rewrite !INR_IZR_INZ. repeat split; vm_compute; reflexivity. }
  destruct F as (F1 & F3 & F5 & F7 & F9). rewrite F1, F3, F5, F7 in L. rewrite F1, F3, F5, F7, F9 in H. split; lra.
Qed.
Lemma five_degrees : 0.0871557427 <= sin (PI / 36) <= 0.0871557428 /\ 0.9961946980 <= cos (PI / 36) <= 0.9961946981.
Proof.
  pose proof pi_bounds as (A & B). set (l := 872664625997 / 10 ^ 13). set (u := 872664625998 / 10 ^ 13).
  assert (Il : l <= PI / 36) by (unfold l; lra). assert (Iu : PI / 36 <= u) by (unfold u; lra). pose proof PI_RGT_0. pose proof PI2_1.
  assert (Lb : 0 <= l <= 1) by (unfold l; lra). assert (Ub : 0 <= u <= 1) by (unfold u; lra).
  assert (S1 : sin l <= sin (PI / 36)) by (apply sin_incr_1; lra). assert (S2 : sin (PI / 36) <= sin u) by (apply sin_incr_1; lra).
  assert (C1 : cos (PI / 36) <= cos l) by (apply cos_decr_1; lra). assert (C2 : cos u <= cos (PI / 36)) by (apply cos_decr_1; lra).
  destruct (sin_poly l) as (Sl & _); [lra|]. destruct (sin_poly u) as (_ & Su); [lra|]. destruct (cos_poly l) as (_ & Cl); [lra|]. destruct (cos_poly u) as (Cu & _); [lra|].
  assert (Sll : 0.0871557427 <= l - l ^ 3 / 6 + l ^ 5 / 120 - l ^ 7 / 5040) by (unfold l; lra).
  assert (Suu : u - u ^ 3 / 6 + u ^ 5 / 120 - u ^ 7 / 5040 + u ^ 9 / 362880 <= 0.0871557428) by (unfold u; lra).
  assert (Cuu : 0.9961946980 <= 1 - u ^ 2 / 2 + u ^ 4 / 24 - u ^ 6 / 720) by (unfold u; lra).
  assert (Cll : 1 - l ^ 2 / 2 + l ^ 4 / 24 - l ^ 6 / 720 + l ^ 8 / 40320 <= 0.9961946981) by (unfold l; lra).
  repeat split; eauto using Rle_trans.
Qed.
Lemma ten_degrees : 0.1736481776 <= sin (PI / 18) <= 0.1736481777 /\ 0.9848077529 <= cos (PI / 18) <= 0.9848077531.
Proof.
  pose proof pi_bounds as (A & B). set (l := 1745329251994 / 10 ^ 13). set (u := 1745329251995 / 10 ^ 13).
  assert (Il : l <= PI / 18) by (unfold l; lra). assert (Iu : PI / 18 <= u) by (unfold u; lra). pose proof PI_RGT_0. pose proof PI2_1.
  assert (Lb : 0 <= l <= 1) by (unfold l; lra). assert (Ub : 0 <= u <= 1) by (unfold u; lra).
  assert (S1 : sin l <= sin (PI / 18)) by (apply sin_incr_1; lra). assert (S2 : sin (PI / 18) <= sin u) by (apply sin_incr_1; lra).
  assert (C1 : cos (PI / 18) <= cos l) by (apply cos_decr_1; lra). assert (C2 : cos u <= cos (PI / 18)) by (apply cos_decr_1; lra).
  destruct (sin_poly l) as (Sl & _); [lra|]. destruct (sin_poly u) as (_ & Su); [lra|]. destruct (cos_poly l) as (_ & Cl); [lra|]. destruct (cos_poly u) as (Cu & _); [lra|].
  assert (Sll : 0.1736481776 <= l - l ^ 3 / 6 + l ^ 5 / 120 - l ^ 7 / 5040) by (unfold l; lra).
  assert (Suu : u - u ^ 3 / 6 + u ^ 5 / 120 - u ^ 7 / 5040 + u ^ 9 / 362880 <= 0.1736481777) by (unfold u; lra).
  assert (Cuu : 0.9848077529 <= 1 - u ^ 2 / 2 + u ^ 4 / 24 - u ^ 6 / 720) by (unfold u; lra).
  assert (Cll : 1 - l ^ 2 / 2 + l ^ 4 / 24 - l ^ 6 / 720 + l ^ 8 / 40320 <= 0.9848077531) by (unfold l; lra).
  repeat split; eauto using Rle_trans.
Qed.

(** test_geodetic_to_ecef (158-165): five degrees east, ten degrees north. *)
Theorem T41_geodetic_to_ecef :
  let p := wgs84_geocentric (mkGeo (PI / 36) (PI / 18) 0) in
  Rabs (vx p - 6257968) <= 0.41 /\ Rabs (vy p - 547501) <= 0.3 /\ Rabs (vz p - 1100249) <= 0.46.
Proof.
  destruct five_degrees as (S5 & C5). destruct ten_degrees as (S10 & C10). cbv zeta. unfold wgs84_geocentric. cbn [longitude latitude elevation vx vy vz].
  rewrite prime_vertical_w. pose proof (w_sq (PI / 18)) as Q. pose proof (w_bounds (PI / 18)) as W0. set (s := sin (PI / 18)) in *. set (c := cos (PI / 18)) in *. set (s5 := sin (PI / 36)) in *. set (c5 := cos (PI / 36)) in *.
  assert (Eb : 0.006694379990 <= eccentricity2 <= 0.006694379991) by (unfold eccentricity2, flattening; lra).
  assert (S2 : 0.1736481776 ^ 2 <= s ^ 2 <= 0.1736481777 ^ 2) by (split; apply pow_incr; lra).
  assert (ES : 0.006694379990 * 0.1736481776 ^ 2 <= eccentricity2 * s ^ 2 <= 0.006694379991 * 0.1736481777 ^ 2) by (split; apply Rmult_le_compat; lra).
  set (w10 := w (PI / 18)) in *.
  assert (W : 0.99989906477 <= w10 <= 0.99989906479) by (split; nra).
  assert (X : semi_major / w10 * w10 = semi_major) by (field; lra). set (n := semi_major / w10) in *. unfold semi_major in X.
  assert (N : 6378780.8435 <= n <= 6378780.8438) by (split; nra).
  assert (P : 0.9848077529 * 0.9961946980 <= c * c5 <= 0.9848077531 * 0.9961946981) by (split; apply Rmult_le_compat; lra).
  assert (P' : 0.9848077529 * 0.0871557427 <= c * s5 <= 0.9848077531 * 0.0871557428) by (split; apply Rmult_le_compat; lra).
  assert (R1 : 6378780.8435 * (0.9848077529 * 0.9961946980) <= n * (c * c5) <= 6378780.8438 * (0.9848077531 * 0.9961946981)) by (split; apply Rmult_le_compat; lra).
  assert (R2 : 6378780.8435 * (0.9848077529 * 0.0871557427) <= n * (c * s5) <= 6378780.8438 * (0.9848077531 * 0.0871557428)) by (split; apply Rmult_le_compat; lra).
  assert (M : (1 - 0.006694379991) * 0.1736481776 <= (1 - eccentricity2) * s <= (1 - 0.006694379990) * 0.1736481777) by (split; apply Rmult_le_compat; lra).
  assert (R3 : 6378780.8435 * ((1 - 0.006694379991) * 0.1736481776) <= n * ((1 - eccentricity2) * s) <= 6378780.8438 * ((1 - 0.006694379990) * 0.1736481777)) by (split; apply Rmult_le_compat; lra).
  replace ((n + 0) * c * c5) with (n * (c * c5)) by ring. replace ((n + 0) * c * s5) with (n * (c * s5)) by ring. replace ((n * (1 - eccentricity2) + 0) * s) with (n * ((1 - eccentricity2) * s)) by ring.
  repeat split; apply Rabs_le; lra.
Qed.
Print Assumptions T41_geodetic_to_ecef.

(** test_ecef_to_geodetic (149-156). *)
Theorem T42_ecef_to_geodetic :
  let g := wgs84_geodetic (mkVec 6257968 547501 1100249) in
  Rabs (longitude g - PI / 36) <= 0.000001 /\ Rabs (latitude g - PI / 18) <= 0.000001 /\ Rabs (elevation g) <= 1.
Proof.
  cbv zeta. set (p := mkVec 6257968 547501 1100249). set (q := wgs84_geocentric (mkGeo (PI / 36) (PI / 18) 0)).
  destruct C101_non_vacuous as (Cn & _). pose proof PI_RGT_0 as Pi. pose proof pi_bounds as (Pl & Pu).
  assert (Q : wgs84_geodetic q = mkGeo (PI / 36) (PI / 18) 0) by (apply C101_forth; [exact Cn|cbn; lra]).
  assert (D : distance p q <= 0.7).
  { destruct T41_geodetic_to_ecef as (X & Y & Z). fold q in X, Y, Z. 
    assert (Sx : (vx q - 6257968) ^ 2 <= 0.41 ^ 2) by (rewrite <- (pow2_abs (vx q - 6257968)); apply pow_incr; split; [apply Rabs_pos|exact X]).
    assert (Sy : (vy q - 547501) ^ 2 <= 0.3 ^ 2) by (rewrite <- (pow2_abs (vy q - 547501)); apply pow_incr; split; [apply Rabs_pos|exact Y]).
    assert (Sz : (vz q - 1100249) ^ 2 <= 0.46 ^ 2) by (rewrite <- (pow2_abs (vz q - 1100249)); apply pow_incr; split; [apply Rabs_pos|exact Z]).
    pose proof (distance_sq p q) as S. unfold p in S at 2 3 4. cbn [vx vy vz] in S. assert (0 <= distance p q) by apply sqrt_pos.
    destruct (Rle_lt_dec (distance p q) 0.7) as [G|F]; [lra|]. exfalso. assert (0.7 ^ 2 <= distance p q ^ 2) by (apply pow_incr; lra). lra. }
  assert (H0 : -1 < elevation (wgs84_geodetic p)).
  { pose proof (height_lipschitz q p) as L. rewrite Q in L. cbn [elevation] in L. replace (distance q p) with (distance p q) in L by (unfold distance; f_equal; ring).
    assert (6335439 <= deepest) by (unfold deepest, semi_major, eccentricity2, flattening; lra). unfold Rmax in L. destruct (Rle_dec _ _) in L; lra. }
  pose proof (C101_heights p q) as He. pose proof (C101_directions p q) as Di. rewrite Q in He, Di. cbn [elevation] in He, Di. set (g := wgs84_geodetic p) in *.
  assert (Ha : Rabs (elevation g - 0) <= distance p q) by (apply He; lra). rewrite Rminus_0_r in Ha.
  assert (Dd : distance (local_up g) (local_up (mkGeo (PI / 36) (PI / 18) 0)) <= 0.0000002).
  { specialize (Di ltac:(lra) ltac:(lra)). set (x := distance (local_up g) _) in *. assert (0 <= x) by apply sqrt_pos.
    assert (6335438 * x <= (6335439 + (elevation g + 0) / 2) * x) by (apply Rmult_le_compat_r; lra). lra. }
  destruct five_degrees as (S5 & C5). destruct ten_degrees as (S10 & C10).
  destruct (sin_poly 0.000001) as (Se & _); [lra|]. destruct (cos_poly 0.000001) as (Ce & _); [lra|]. pose proof (COS_bound 0.000001) as (_ & Ce1).
  assert (Se' : 0.0000009999 <= sin 0.000001) by lra. assert (Ce' : 0.999999999999 <= cos 0.000001) by lra. clear Se Ce.
  destruct (C101_back p) as ((Lo & La) & Pb). fold g in Lo, La, Pb.
  split; [|split; [|lra]].
  - (* longitude *)
    set (rho := (prime_vertical (latitude g) + elevation g) * cos (latitude g)).
    assert (X : rho * cos (longitude g) = 6257968) by (exact (f_equal vx Pb)). assert (Y : rho * sin (longitude g) = 547501) by (exact (f_equal vy Pb)).
    assert (Rp : 6257968 <= rho).
    { pose proof (COS_bound (longitude g)). pose proof (prime_vertical_bounds (latitude g)) as B. unfold semi_major in B. pose proof (COS_bound (latitude g)).
      assert (0 <= rho) by (apply Rmult_le_pos; [lra|]; apply cos_ge_0; lra). assert (rho * cos (longitude g) <= rho * 1) by (apply Rmult_le_compat_l; lra). lra. }
    set (e := longitude g - PI / 36). assert (Sn : rho * sin e = 547501 * cos (PI / 36) - 6257968 * sin (PI / 36)) by (unfold e; rewrite sin_minus, <- X, <- Y; ring).
    assert (Cs : rho * cos e = 6257968 * cos (PI / 36) + 547501 * sin (PI / 36)) by (unfold e; rewrite cos_minus, <- X, <- Y; ring).
    assert (Cp : 0 < cos e) by (apply Rmult_lt_reg_l with rho; lra).
    assert (Sb : -0.0000005 <= sin e <= 0.0000005).
    { split; apply Rmult_le_reg_l with rho; lra. }
    assert (E : - (PI / 2) < e < PI / 2).
    { split.
      - destruct (Rlt_le_dec (- (PI / 2)) e) as [G|F]; [lra|]. exfalso. assert (cos (- e) <= 0) by (apply cos_le_0; unfold e in *; lra). rewrite cos_neg in H. lra.
      - destruct (Rlt_le_dec e (PI / 2)) as [G|F]; [lra|]. exfalso. assert (cos e <= 0) by (apply cos_le_0; unfold e in *; lra). lra. }
    apply Rabs_le. split.
    + destruct (Rle_lt_dec (-0.000001) e) as [G|F]; [lra|]. exfalso. assert (sin e <= sin (Ropp 0.000001)) by (apply sin_incr_1; lra). rewrite sin_neg in H. lra.
    + destruct (Rle_lt_dec e 0.000001) as [G|F]; [lra|]. exfalso. assert (sin 0.000001 <= sin e) by (apply sin_incr_1; lra). lra.
  - (* latitude *)
    assert (Z : Rabs (sin (latitude g) - sin (PI / 18)) <= 0.0000002).
    { eapply Rle_trans; [|exact Dd]. pose proof (distance_sq (local_up g) (local_up (mkGeo (PI / 36) (PI / 18) 0))) as S. set (x := distance (local_up g) (local_up (mkGeo (PI / 36) (PI / 18) 0))) in *.
      assert (0 <= x) by apply sqrt_pos. change (vz (local_up (mkGeo (PI / 36) (PI / 18) 0))) with (sin (PI / 18)) in S.
      pose proof (pow2_ge_0 (vx (local_up g) - vx (local_up (mkGeo (PI / 36) (PI / 18) 0)))). pose proof (pow2_ge_0 (vy (local_up g) - vy (local_up (mkGeo (PI / 36) (PI / 18) 0)))).
      change (vz (local_up g)) with (sin (latitude g)) in S.
      rewrite <- (Rabs_right x) by lra. apply Rsqr_le_abs_0. rewrite !Rsqr_pow2. lra. }
    assert (Zb : -0.0000002 <= sin (latitude g) - sin (PI / 18) <= 0.0000002) by (unfold Rabs in Z; destruct (Rcase_abs _) in Z; lra).
    assert (Lb : - (PI / 2) <= latitude g <= PI / 2) by (destruct La as [La|([La|La] & _)]; lra).
    apply Rabs_le. split.
    + destruct (Rle_lt_dec (-0.000001) (latitude g - PI / 18)) as [G|F]; [lra|]. exfalso.
      assert (K : sin (latitude g) <= sin (PI / 18 - 0.000001)) by (apply sin_incr_1; lra). rewrite sin_minus in K.
      assert (sin (PI / 18) * cos 0.000001 <= sin (PI / 18) * 1) by (apply Rmult_le_compat_l; lra).
      assert (0.98 * 0.0000009999 <= cos (PI / 18) * sin 0.000001) by (apply Rmult_le_compat; lra). lra.
    + destruct (Rle_lt_dec (latitude g - PI / 18) 0.000001) as [G|F]; [lra|]. exfalso.
      assert (K : sin (PI / 18 + 0.000001) <= sin (latitude g)) by (apply sin_incr_1; lra). rewrite sin_plus in K.
      assert (sin (PI / 18) * 0.999999999999 <= sin (PI / 18) * cos 0.000001) by (apply Rmult_le_compat_l; lra).
      assert (0.98 * 0.0000009999 <= cos (PI / 18) * sin 0.000001) by (apply Rmult_le_compat; lra). lra.
Qed.
Print Assumptions T42_ecef_to_geodetic.
