(** C108: an ordinary rational polynomial camera gives accurate pixels in binary64, underflow and all. *)
Require Import ZArith Reals List Lra Lia SpecFloat.
Require Import Verif.Base Verif.BaseFacts Verif.CoordModel Verif.CoordFloatModel Verif.RpcModel
  Verif.RoundModel Verif.RoundSpec Verif.RoundProofs Verif.FloatModel Verif.FloatSpec Verif.FloatProofs Verif.FloatNearest
  Verif.RpcFloatModel Verif.RpcFloatSpec Verif.RpcFloatProofs.
Import ListNotations.
Local Open Scope R_scope.

(** The program returns numbers, and they are within a millionth of a pixel of the exact pixel of a
    point whose longitude and latitude are the given ones up to a rounding error. *)
Theorem C108_pixel : forall m lon lat height, ordinary m -> is_binary64 lon -> is_binary64 lat -> is_binary64 height ->
  in_cube (real_rpc m) (mkGeo (value lon) (value lat) (value height)) ->
  exists fx fy lon' lat' i,
    f_rpc_world_to_image m lon lat height = Ok (fx, fy) /\ is_binary64 fx /\ is_binary64 fy /\
    Rabs (lon' - value lon) <= powerRZ 2 (-51) * Rabs (value lon) + powerRZ 2 (-1074) /\
    Rabs (lat' - value lat) <= powerRZ 2 (-51) * Rabs (value lat) + powerRZ 2 (-1074) /\
    rpc_world_to_image (real_rpc m) (mkGeo lon' lat' (value height)) = Ok i /\
    Rabs (value fx - ix i) <= / 1000000 /\ Rabs (value fy - iy i) <= / 1000000.
Proof.
  intros m lon lat height O Bx By Bz (Cl & Cp & Ch). destruct O. cbn [real_rpc longitude latitude elevation long_off long_scale lat_off lat_scale height_off height_scale] in *.
  pose proof pi_bounds as PB. pose proof binary64_pos as U0. destruct small_units as [U T]. pose proof tiny_pos as T0.
  assert (DR : forall a, degrees (radians a) = a) by (intros; unfold degrees, radians; field; lra).
  assert (RD : forall a, radians (degrees a) = a) by (intros; unfold degrees, radians; field; lra).
  (* a longitude or latitude *)
  assert (A : forall x o s, is_binary64 x -> between 0 o 180 -> between (/ 1000) s 180 -> Rabs (degrees (value x) - value o) <= Rabs (value s) ->
    is_binary64 (f_degrees x) /\ small_tree (f_normalized (f_degrees x) o s) /\
    Rabs (radians (value (f_degrees x)) - value x) <= powerRZ 2 (-51) * Rabs (value x) + powerRZ 2 (-1074) /\
    py_div (f_sub (f_degrees x) o) s = Ok (feval (f_normalized (f_degrees x) o s))).
  { intros x o s X [Bo Ho] [Bs Hs] C.
    assert (D : Rabs (degrees (value x)) <= 720) by (replace (degrees (value x)) with ((degrees (value x) - value o) + value o) by ring; apply Rle_trans with (1 := Rabs_triang _ _); lra).
    destruct (f_degrees_abs x X ltac:(lra)) as [Bd Ed].
    assert (G2 : growth binary64 2 <= 3 / 10 ^ 14) by (apply small_growth; lia). assert (G0 : 0 <= growth binary64 2) by (apply growth_nonneg; lra).
    pose proof (Rabs_pos (degrees (value x))) as N.
    assert (E1 : Rabs (value (f_degrees x) - degrees (value x)) <= / 10 ^ 9).
    { apply Rle_trans with (1 := Ed). assert (growth binary64 2 * Rabs (degrees (value x)) <= 3 / 10 ^ 14 * 720) by (apply Rmult_le_compat; lra). lra. }
    assert (V : Rabs (value (f_degrees x)) <= 721) by (replace (value (f_degrees x)) with ((value (f_degrees x) - degrees (value x)) + degrees (value x)) by ring; apply Rle_trans with (1 := Rabs_triang _ _); lra).
    assert (S0 : 0 < Rabs (value s)) by lra. assert (Zs : value s <> 0) by (intros Z; rewrite Z, Rabs_R0 in S0; lra).
    assert (L : Rabs ((value (f_degrees x) - value o) / value s) <= 1.01).
    { unfold Rdiv. rewrite Rabs_mult, Rabs_inv. apply Rmult_le_reg_r with (Rabs (value s)); [exact S0|]. rewrite Rmult_assoc, Rinv_l by lra. rewrite Rmult_1_r.
      replace (value (f_degrees x) - value o) with ((value (f_degrees x) - degrees (value x)) + (degrees (value x) - value o)) by ring. apply Rle_trans with (1 := Rabs_triang _ _). lra. }
    split; [exact Bd|]. destruct (normalized_moderate (f_degrees x) o s Bd Bo Bs ltac:(lra) ltac:(lra) ltac:(lra) L) as [M M'].
    split; [|split].
    - exists (f_degrees x), o, s. split; [reflexivity|]. split; [exact M|].
      change (shape (f_normalized (f_degrees x) o s)) with (normalized (value (f_degrees x)) (value o) (value s)). rewrite normalized_magnitude. exact L.
    - rewrite <- (RD (value x)) at 1. replace (radians (value (f_degrees x)) - radians (degrees (value x))) with ((value (f_degrees x) - degrees (value x)) * (PI / 180)) by (unfold radians; field).
      rewrite Rabs_mult, (Rabs_pos_eq (PI / 180)) by lra. replace (Rabs (value x)) with (Rabs (degrees (value x)) * (PI / 180))
        by (rewrite <- (Rabs_pos_eq (PI / 180)) by lra; rewrite <- Rabs_mult; f_equal; unfold degrees; field; lra).
      assert (G : growth binary64 2 <= powerRZ 2 (-51)).
      { replace (powerRZ 2 (-51)) with (4 * binary64) by (rewrite <- binary64_pw; change (-51)%Z with (2 + -53)%Z; rewrite pw_add; change (pw 2) with (2 ^ 2); ring). unfold growth. nra. }
      apply Rle_trans with ((growth binary64 2 * Rabs (degrees (value x)) + tiny) * (PI / 180)); [apply Rmult_le_compat_r; lra|]. rewrite Rmult_plus_distr_r. apply Rplus_le_compat.
      + rewrite Rmult_assoc. apply Rmult_le_compat_r; [apply Rmult_le_pos; lra|exact G].
      + fold tiny. apply Rle_trans with (tiny * 1); [apply Rmult_le_compat_l; lra|lra].
    - unfold py_div. destruct s; try reflexivity. exfalso. apply Zs. reflexivity. }
  destruct (A lon (f_long_off m) (f_long_scale m) Bx ord_long_off ord_long_scale Cl) as (Bl & Tl & El & Pl).
  destruct (A lat (f_lat_off m) (f_lat_scale m) By ord_lat_off ord_lat_scale Cp) as (Bp & Tp & Ep & Pp). clear A.
  destruct ord_height_off as [Bho Hho]. destruct ord_height_scale as [Bhs Hhs].
  assert (Th : small_tree (f_normalized height (f_height_off m) (f_height_scale m))).
  { assert (L : Rabs ((value height - value (f_height_off m)) / value (f_height_scale m)) <= 1.01).
    { unfold Rdiv. rewrite Rabs_mult, Rabs_inv. apply Rmult_le_reg_r with (Rabs (value (f_height_scale m))); [lra|]. rewrite Rmult_assoc, Rinv_l by lra. lra. }
    assert (V : Rabs (value height) <= 200000) by (replace (value height) with ((value height - value (f_height_off m)) + value (f_height_off m)) by ring; apply Rle_trans with (1 := Rabs_triang _ _); lra).
    destruct (normalized_moderate height _ _ Bz Bho Bhs ltac:(lra) ltac:(lra) ltac:(lra) L) as [M M']. exists height, (f_height_off m), (f_height_scale m). split; [reflexivity|]. split; [exact M|].
    change (shape (f_normalized height (f_height_off m) (f_height_scale m))) with (normalized (value height) (value (f_height_off m)) (value (f_height_scale m))). rewrite normalized_magnitude. exact L. }
  set (l := f_normalized (f_degrees lon) (f_long_off m) (f_long_scale m)) in *. set (p := f_normalized (f_degrees lat) (f_lat_off m) (f_lat_scale m)) in *.
  set (h := f_normalized height (f_height_off m) (f_height_scale m)) in *.
  (* numerators and denominators *)
  assert (NU : forall c, numerator c -> exists r, rpc_evaluate (map value c) (exact (shape l)) (exact (shape p)) (exact (shape h)) = Ok r /\
    f_rpc_evaluate c (feval l) (feval p) (feval h) = Ok (feval (f_formula c l p h)) /\ is_binary64 (feval (f_formula c l p h)) /\ Rabs (value (feval (f_formula c l p h)) - r) <= 13 / 10 ^ 14 /\ Rabs r <= 4).
  { intros c (L & B & S). assert (W : Rabs (value (hd f_zero c)) + 1.04 * total (tl c) <= 4).
    { destruct c as [|c0 c]; [discriminate L|]. cbn [hd tl]. cbn [total fold_right] in S. fold (total c) in S. pose proof (Rabs_pos (value c0)). assert (0 <= total c) by (clear; induction c as [|g c IH]; cbn [total fold_right]; [lra|]; fold (total c); pose proof (Rabs_pos (value g)); lra). lra. }
    destruct (poly_float c l p h L B) as (r & R1 & R2 & R3 & R4 & R5); auto; [intros f F; pose proof (total_bound c f F); lra|].
    exists r. repeat (split; [assumption|]). replace r with ((r - value (hd f_zero c)) + value (hd f_zero c)) by ring. apply Rle_trans with (1 := Rabs_triang _ _). lra. }
  assert (DE : forall c, denominator c -> exists r, rpc_evaluate (map value c) (exact (shape l)) (exact (shape p)) (exact (shape h)) = Ok r /\
    f_rpc_evaluate c (feval l) (feval p) (feval h) = Ok (feval (f_formula c l p h)) /\ is_binary64 (feval (f_formula c l p h)) /\ Rabs (value (feval (f_formula c l p h)) - r) <= 13 / 10 ^ 14 /\ 1 / 2 <= Rabs r).
  { intros c (L & B & c0 & rest & -> & V & S).
    destruct (poly_float (c0 :: rest) l p h L B) as (r & R1 & R2 & R3 & R4 & R5); auto.
    - intros f [<-|F]; [rewrite V, Rabs_R1; lra|]. pose proof (total_bound rest f F). lra.
    - cbn [hd tl]. rewrite V, Rabs_R1. lra.
    - exists r. repeat (split; [assumption|]). cbn [hd tl] in R5. rewrite V in R5. apply abs_interval in R5. rewrite Rabs_pos_eq; lra. }
  destruct (NU _ ord_samp_num) as (sn & S1 & S2 & S3 & S4 & S5). destruct (DE _ ord_samp_den) as (sd & D1 & D2 & D3 & D4 & D5).
  destruct (NU _ ord_line_num) as (ln & L1 & L2 & L3 & L4 & L5). destruct (DE _ ord_line_den) as (ld & K1 & K2 & K3 & K4 & K5). clear NU DE.
  destruct ord_samp_scale as [Bss Hss]. destruct ord_samp_off as [Bso Hso]. destruct ord_line_scale as [Bls Hls]. destruct ord_line_off as [Blo Hlo].
  destruct (f_quotient _ _ (f_samp_scale m) (f_samp_off m) sn sd S3 D3 Bss Bso S4 D4 S5 D5 ltac:(lra) ltac:(lra)) as [X1 X2].
  destruct (f_quotient _ _ (f_line_scale m) (f_line_off m) ln ld L3 K3 Bls Blo L4 K4 L5 K5 ltac:(lra) ltac:(lra)) as [Y1 Y2].
  eexists _, _, (radians (value (f_degrees lon))), (radians (value (f_degrees lat))), _. split; [|split; [exact X1|split; [exact Y1|split; [exact El|split; [exact Ep|split]]]]].
  - unfold f_rpc_world_to_image. rewrite Pl. cbn [bind]. rewrite Pp. cbn [bind].
    change (f_div (f_sub height (f_height_off m)) (f_height_scale m)) with (feval h). rewrite S2. cbn [bind]. rewrite D2. cbn [bind]. rewrite L2. cbn [bind]. rewrite K2. reflexivity.
  - unfold rpc_world_to_image. cbn [longitude latitude elevation]. rewrite !DR.
    cbn [real_rpc long_off long_scale lat_off lat_scale height_off height_scale samp_num_poly samp_den_poly line_num_poly line_den_poly samp_scale samp_off line_scale line_off].
    change ((value (f_degrees lon) - value (f_long_off m)) / value (f_long_scale m)) with (exact (shape l)).
    change ((value (f_degrees lat) - value (f_lat_off m)) / value (f_lat_scale m)) with (exact (shape p)).
    change ((value height - value (f_height_off m)) / value (f_height_scale m)) with (exact (shape h)).
    rewrite S1. cbn [bind]. rewrite D1. cbn [bind]. rewrite L1. cbn [bind]. rewrite K1. reflexivity.
  - cbn [ix iy]. split; [exact X2|exact Y2].
Qed.
Print Assumptions C108_pixel.

(** Within a thousandth of a pixel of the exact pixel of the given point itself. *)
Theorem C108_given_point : forall m lon lat height, ordinary m -> is_binary64 lon -> is_binary64 lat -> is_binary64 height ->
  in_cube (real_rpc m) (mkGeo (value lon) (value lat) (value height)) ->
  exists fx fy i,
    f_rpc_world_to_image m lon lat height = Ok (fx, fy) /\
    rpc_world_to_image (real_rpc m) (mkGeo (value lon) (value lat) (value height)) = Ok i /\
    Rabs (value fx - ix i) <= / 1000 /\ Rabs (value fy - iy i) <= / 1000.
Proof.
  intros m lon lat height O Bx By Bz C. destruct (C108_pixel m lon lat height O Bx By Bz C) as (fx & fy & lon' & lat' & i' & F & _ & _ & Elon & Elat & I' & X & Y).
  destruct O. destruct C as (Cl & Cp & Ch). cbn [real_rpc longitude latitude elevation long_off long_scale lat_off lat_scale height_off height_scale] in Cl, Cp, Ch.
  pose proof pi_bounds as PB. pose proof tiny_pos as T0. destruct small_units as [_ T].
  (* the normalised coordinates of the two points *)
  assert (A : forall x x' o s, between 0 o 180 -> between (/ 1000) s 180 -> Rabs (degrees x - value o) <= Rabs (value s) -> Rabs (x' - x) <= powerRZ 2 (-51) * Rabs x + powerRZ 2 (-1074) ->
    Rabs ((degrees x - value o) / value s) <= 1.01 /\ Rabs ((degrees x' - value o) / value s) <= 1.01 /\
    Rabs ((degrees x' - value o) / value s - (degrees x - value o) / value s) <= 17 / 10 ^ 11).
  { intros x x' o s [Bo Ho] [Bs Hs] K E. assert (S0 : 0 < Rabs (value s)) by lra. assert (Zs : value s <> 0) by (intros Z; rewrite Z, Rabs_R0 in S0; lra).
    assert (D : Rabs (degrees x) <= 360) by (replace (degrees x) with ((degrees x - value o) + value o) by ring; apply Rle_trans with (1 := Rabs_triang _ _); lra).
    assert (DX : Rabs (degrees x' - degrees x) <= 1.7 / 10 ^ 13).
    { replace (degrees x' - degrees x) with ((x' - x) * (180 / PI)) by (unfold degrees; field; lra). rewrite Rabs_mult.
      assert (K0 : 0 < 180 / PI < 58) by (split; [apply Rdiv_lt_0_compat; lra|apply Rmult_lt_reg_r with PI; [lra|]; unfold Rdiv; rewrite Rmult_assoc, Rinv_l; lra]).
      rewrite (Rabs_pos_eq (180 / PI)) by lra.
      apply Rle_trans with ((powerRZ 2 (-51) * Rabs x + powerRZ 2 (-1074)) * (180 / PI)); [apply Rmult_le_compat_r; lra|].
      rewrite Rmult_plus_distr_r. replace (powerRZ 2 (-51) * Rabs x * (180 / PI)) with (powerRZ 2 (-51) * Rabs (degrees x)).
      2: { unfold degrees. replace (x * 180 / PI) with (x * (180 / PI)) by (field; lra). rewrite Rabs_mult, (Rabs_pos_eq (180 / PI)) by lra. ring. }
      assert (Q1 : powerRZ 2 (-51) * Rabs (degrees x) <= 4.4409 / 10 ^ 16 * 360).
      { apply Rmult_le_compat; [apply Rlt_le, pw_pos|apply Rabs_pos| |exact D]. change (powerRZ 2 (-51)) with (/ 2 ^ 51). apply Rle_trans with (/ 2251799813685248); [apply Req_le; f_equal; ring|lra]. }
      assert (Q2 : powerRZ 2 (-1074) * (180 / PI) <= / 10 ^ 17 * 58).
      { apply Rmult_le_compat; [apply Rlt_le, pw_pos|lra| |lra]. apply Rle_trans with (pw (-60)); [apply pw_le; lia|]. change (pw (-60)) with (/ 2 ^ 60). apply Rinv_le_contravar; lra. }
      lra. }
    assert (I : Rabs (/ value s) <= 1000) by (rewrite Rabs_inv; replace 1000 with (/ (/ 1000)) by field; apply Rinv_le_contravar; lra).
    assert (E1 : Rabs ((degrees x - value o) / value s) <= 1).
    { unfold Rdiv. rewrite Rabs_mult, Rabs_inv. apply Rmult_le_reg_r with (Rabs (value s)); [exact S0|]. rewrite Rmult_assoc, Rinv_l by lra. lra. }
    assert (E2 : Rabs ((degrees x' - value o) / value s - (degrees x - value o) / value s) <= 1.7 / 10 ^ 13 * 1000).
    { replace ((degrees x' - value o) / value s - (degrees x - value o) / value s) with ((degrees x' - degrees x) * / value s) by (field; exact Zs).
      rewrite Rabs_mult. apply Rmult_le_compat; auto using Rabs_pos. }
    split; [lra|]. split; [|lra].
    replace ((degrees x' - value o) / value s) with (((degrees x' - value o) / value s - (degrees x - value o) / value s) + (degrees x - value o) / value s) by ring.
    apply Rle_trans with (1 := Rabs_triang _ _). lra. }
  destruct (A _ lon' _ _ ord_long_off ord_long_scale Cl Elon) as (L1 & L2 & L3). destruct (A _ lat' _ _ ord_lat_off ord_lat_scale Cp Elat) as (P1 & P2 & P3). clear A.
  assert (H1 : Rabs ((value height - value (f_height_off m)) / value (f_height_scale m)) <= 1.01).
  { destruct ord_height_scale as [_ Hs]. unfold Rdiv. rewrite Rabs_mult, Rabs_inv. apply Rmult_le_reg_r with (Rabs (value (f_height_scale m))); [lra|]. rewrite Rmult_assoc, Rinv_l by lra. lra. }
  unfold rpc_world_to_image in *. cbn [longitude latitude elevation real_rpc long_off long_scale lat_off lat_scale height_off height_scale samp_num_poly samp_den_poly line_num_poly line_den_poly samp_scale samp_off line_scale line_off] in *.
  set (l := (degrees (value lon) - value (f_long_off m)) / value (f_long_scale m)) in *. set (p := (degrees (value lat) - value (f_lat_off m)) / value (f_lat_scale m)) in *.
  set (l' := (degrees lon' - value (f_long_off m)) / value (f_long_scale m)) in *. set (p' := (degrees lat' - value (f_lat_off m)) / value (f_lat_scale m)) in *.
  set (h := (value height - value (f_height_off m)) / value (f_height_scale m)) in *. clearbody l p l' p' h.
  assert (Some20 : forall c a b d, length c = 20%nat -> exists r, rpc_evaluate (map value c) a b d = Ok r).
  { intros c a b d K. unfold rpc_evaluate. rewrite map_length, K. cbn. eexists. reflexivity. }
  assert (NU : forall c r', numerator c -> rpc_evaluate (map value c) l' p' h = Ok r' -> exists r, rpc_evaluate (map value c) l p h = Ok r /\ Rabs (r' - r) <= 12 * (17 / 10 ^ 11) /\ Rabs r <= 4).
  { intros c r' (K & B & S) R'. destruct (Some20 c l p h K) as (r & R). exists r. split; [exact R|].
    destruct c as [|c0 c]; [discriminate K|]. cbn [map] in R, R'. cbn [total fold_right] in S. fold (total c) in S.
    assert (0 <= total c) by (rewrite <- total_sum; clear; induction c as [|g c IH]; cbn [map fold_right]; [lra|]; pose proof (Rabs_pos (value g)); lra). pose proof (Rabs_pos (value c0)). split.
    - eapply Rle_trans; [apply (poly_near (value c0 :: map value c) l' p' l p h (17 / 10 ^ 11) r' r); auto; [cbn [length] in *; rewrite map_length; lia|lra]|]. cbn [tl]. rewrite total_sum.
      apply Rle_trans with (4 * (17 / 10 ^ 11) * 3); [apply Rmult_le_compat_l; lra|lra].
    - pose proof (poly_bound c0 c l p h r ltac:(cbn in K; lia) L1 P1 H1 R) as W. replace r with ((r - value c0) + value c0) by ring. apply Rle_trans with (1 := Rabs_triang _ _). lra. }
  assert (DE : forall c r', denominator c -> rpc_evaluate (map value c) l' p' h = Ok r' -> exists r, rpc_evaluate (map value c) l p h = Ok r /\ Rabs (r' - r) <= 17 / 10 ^ 11 /\ 1 / 2 <= Rabs r /\ 1 / 2 <= Rabs r').
  { intros c r' (K & B & c0 & rest & -> & V & S) R'. destruct (Some20 _ l p h K) as (r & R). exists r. split; [exact R|]. cbn [map] in R, R'. split; [|split].
    - eapply Rle_trans; [apply (poly_near (value c0 :: map value rest) l' p' l p h (17 / 10 ^ 11) r' r); auto; [cbn [length] in *; rewrite map_length; lia|lra]|]. cbn [tl]. rewrite total_sum.
      apply Rle_trans with (4 * (17 / 10 ^ 11) * (1 / 4)); [apply Rmult_le_compat_l; lra|lra].
    - pose proof (poly_bound c0 rest l p h r ltac:(cbn in K; lia) L1 P1 H1 R) as W. rewrite V in W. apply abs_interval in W. rewrite Rabs_pos_eq; lra.
    - pose proof (poly_bound c0 rest l' p' h r' ltac:(cbn in K; lia) L2 P2 H1 R') as W. rewrite V in W. apply abs_interval in W. rewrite Rabs_pos_eq; lra. }
  assert (QN : forall N D N' D' s o, Rabs (N' - N) <= 12 * (17 / 10 ^ 11) -> Rabs (D' - D) <= 17 / 10 ^ 11 -> Rabs N <= 4 -> 1 / 2 <= Rabs D -> 1 / 2 <= Rabs D' -> Rabs s <= 100000 ->
    Rabs ((N' / D' * s + o) - (N / D * s + o)) <= 40 * (17 / 10 ^ 11) * 100000).
  { intros N D N' D' s o EN ED BN BD BD' Bs. assert (D0 : D <> 0) by (intros ->; rewrite Rabs_R0 in BD; lra). assert (D0' : D' <> 0) by (intros ->; rewrite Rabs_R0 in BD'; lra).
    replace (N' / D' * s + o - (N / D * s + o)) with (((N' - N) - N * / D * (D' - D)) * / D' * s) by (field; auto). rewrite Rabs_mult. apply Rmult_le_compat; auto using Rabs_pos.
    rewrite Rabs_mult, Rabs_inv. assert (J' : / Rabs D' <= / (1 / 2)) by (apply Rinv_le_contravar; lra). assert (I0' : 0 < / Rabs D') by (apply Rinv_0_lt_compat; lra).
    assert (I : / Rabs D <= / (1 / 2)) by (apply Rinv_le_contravar; lra). assert (I0 : 0 < / Rabs D) by (apply Rinv_0_lt_compat; lra).
    assert (W : Rabs (N' - N - N * / D * (D' - D)) <= 20 * (17 / 10 ^ 11)).
    { unfold Rminus at 1. apply Rle_trans with (1 := Rabs_triang _ _). rewrite Rabs_Ropp, !Rabs_mult, Rabs_inv.
      assert (Q : Rabs N * / Rabs D <= 4 * 2) by (apply Rmult_le_compat; auto using Rabs_pos; lra).
      assert (Q0 : 0 <= Rabs N * / Rabs D) by (apply Rmult_le_pos; [apply Rabs_pos|lra]).
      assert (Rabs N * / Rabs D * Rabs (D' - D) <= 4 * 2 * (17 / 10 ^ 11)) by (apply Rmult_le_compat; auto using Rabs_pos). lra. }
    apply Rle_trans with (20 * (17 / 10 ^ 11) * 2); [apply Rmult_le_compat; auto using Rabs_pos; lra|lra]. }
  destruct (rpc_evaluate (map value (f_samp_num m)) l' p' h) as [sn'|] eqn:S1; [|discriminate I']. cbn [bind] in I'.
  destruct (rpc_evaluate (map value (f_samp_den m)) l' p' h) as [sd'|] eqn:S2; [|discriminate I']. cbn [bind] in I'.
  destruct (rpc_evaluate (map value (f_line_num m)) l' p' h) as [ln'|] eqn:S3; [|discriminate I']. cbn [bind] in I'.
  destruct (rpc_evaluate (map value (f_line_den m)) l' p' h) as [ld'|] eqn:S4; [|discriminate I']. cbn [bind] in I'. injection I' as <-.
  destruct (NU _ _ ord_samp_num S1) as (sn & -> & N1 & N2). destruct (DE _ _ ord_samp_den S2) as (sd & -> & N3 & N4 & N5).
  destruct (NU _ _ ord_line_num S3) as (ln & -> & M1 & M2). destruct (DE _ _ ord_line_den S4) as (ld & -> & M3 & M4 & M5).
  exists fx, fy. eexists. split; [exact F|]. cbn [bind]. split; [reflexivity|]. cbn [ix iy] in *. destruct ord_samp_scale as [_ Z1]. destruct ord_line_scale as [_ Z2].
  pose proof (QN sn sd sn' sd' _ (value (f_samp_off m)) N1 N3 N2 N4 N5 (proj2 Z1)) as Q1. pose proof (QN ln ld ln' ld' _ (value (f_line_off m)) M1 M3 M2 M4 M5 (proj2 Z2)) as Q2. split.
  - replace (value fx - (sn / sd * value (f_samp_scale m) + value (f_samp_off m))) with ((value fx - (sn' / sd' * value (f_samp_scale m) + value (f_samp_off m))) + (sn' / sd' * value (f_samp_scale m) + value (f_samp_off m) - (sn / sd * value (f_samp_scale m) + value (f_samp_off m)))) by ring.
    apply Rle_trans with (1 := Rabs_triang _ _). lra.
  - replace (value fy - (ln / ld * value (f_line_scale m) + value (f_line_off m))) with ((value fy - (ln' / ld' * value (f_line_scale m) + value (f_line_off m))) + (ln' / ld' * value (f_line_scale m) + value (f_line_off m) - (ln / ld * value (f_line_scale m) + value (f_line_off m)))) by ring.
    apply Rle_trans with (1 := Rabs_triang _ _). lra.
Qed.
Print Assumptions C108_given_point.

(** A camera at longitude 57.25 and latitude 28.5 degrees, with coefficients that binary64 cannot
    hold exactly and one whose products underflow, and the point at 1 and 1/2 radians. *)
Definition f_ratio (n d : Z) : spec_float := f_div (f_of_Z n) (f_of_Z d).
Definition f_smallest : spec_float := S754_finite false 1 (-1074).
Definition demo_den : list spec_float := [f_of_Z 1; f_ratio 1 1000; f_ratio (-1) 3000] ++ repeat f_zero 17.
Definition demo_frpc : FRPC :=
  mkFRPC (f_of_Z 4000) (f_of_Z 5000) (f_ratio 57 2) (f_ratio 229 4) (f_of_Z 50)
    (f_of_Z 4000) (f_of_Z 5000) (f_ratio 1 4) (f_ratio 1 8) (f_of_Z 500)
    ([f_ratio 1 1000; f_zero; f_ratio (-99) 100; f_ratio 1 50] ++ repeat f_zero 15 ++ [f_smallest]) demo_den
    ([f_ratio 1 700; f_ratio 101 100; f_zero; f_ratio (-1) 50; f_ratio 1 300] ++ repeat f_zero 15) demo_den.
Definition one_radian : spec_float := f_of_Z 1.
Definition half_radian : spec_float := f_ratio 1 2.

Ltac see := repeat match goal with
  | |- context [f_of_Z ?n] => let v := eval vm_compute in (f_of_Z n) in change (f_of_Z n) with v
  | |- context [f_ratio ?n ?d] => let v := eval vm_compute in (f_ratio n d) in change (f_ratio n d) with v
  end.
Lemma pw_neg n : pw (Z.neg n) = / IZR (2 ^ Z.pos n).
Proof. change (Z.neg n) with (- Z.pos n)%Z. rewrite <- pw_IZR by lia. reflexivity. Qed.
Lemma abs_value s m n : Rabs (value (S754_finite s m (Z.neg n))) = IZR (Z.pos m) / IZR (2 ^ Z.pos n).
Proof. rewrite value_sign, pw_neg, Rmult_assoc. assert (0 < IZR (Z.pos m)) by now apply IZR_lt. assert (0 < / IZR (2 ^ Z.pos n)) by (apply Rinv_0_lt_compat, IZR_lt, Z.pow_pos_nonneg; lia). apply abs_sign. apply Rmult_le_pos; lra. Qed.
Lemma abs_zero s : Rabs (value (S754_zero s)) = 0.
Proof. apply Rabs_R0. Qed.
Ltac powers := repeat match goal with |- context [IZR (2 ^ Z.pos ?n)] => let v := eval vm_compute in (2 ^ Z.pos n)%Z in change (2 ^ Z.pos n)%Z with v end.
Ltac bits := split; [exact I|vm_compute; reflexivity].

Lemma smallest_abs : 0 <= Rabs (value f_smallest) <= / 1000000.
Proof.
  split; [apply Rabs_pos|]. unfold f_smallest. rewrite abs_value. apply Rle_trans with (pw (-20)).
  - rewrite pw_neg. unfold Rdiv. rewrite Rmult_1_l. apply Rinv_le_contravar; [apply IZR_lt; reflexivity|apply IZR_le, Z.pow_le_mono_r; lia].
  - change (pw (-20)) with (/ 2 ^ 20). lra.
Qed.
Lemma demo_ordinary : ordinary demo_frpc.
Proof.
  assert (D : denominator demo_den).
  { split; [reflexivity|]. split; [unfold demo_den; see; cbn [app repeat]; repeat (apply Forall_cons; [bits|]); apply Forall_nil|].
    exists (f_of_Z 1), ([f_ratio 1 1000; f_ratio (-1) 3000] ++ repeat f_zero 17). split; [reflexivity|]. split.
    - see. rewrite value_sign, pw_neg. cbn [sign]. powers. lra.
    - cbn [app repeat total fold_right]. see. rewrite !abs_value. unfold f_zero. rewrite !abs_zero. powers. lra. }
  constructor; cbn [demo_frpc f_line_off f_samp_off f_lat_off f_long_off f_height_off f_line_scale f_samp_scale f_lat_scale f_long_scale f_height_scale f_line_num f_line_den f_samp_num f_samp_den];
    try exact D; try (see; split; [bits|rewrite abs_value; powers; lra]).
  - split; [reflexivity|]. split; [see; cbn [app repeat]; repeat (apply Forall_cons; [bits|]); apply Forall_nil|].
    cbn [app repeat total fold_right]. see. rewrite !abs_value. unfold f_zero. rewrite !abs_zero. pose proof smallest_abs. powers. lra.
  - split; [reflexivity|]. split; [see; cbn [app repeat]; repeat (apply Forall_cons; [bits|]); apply Forall_nil|].
    cbn [app repeat total fold_right]. see. rewrite !abs_value. unfold f_zero. rewrite !abs_zero. powers. lra.
Qed.

(** The hypotheses hold, with a product that underflows; the program returns column 6849.9 and row 1669.8. *)
Example C108_non_vacuous :
  ordinary demo_frpc /\ is_binary64 one_radian /\ is_binary64 half_radian /\ is_binary64 (f_of_Z 100) /\
  in_cube (real_rpc demo_frpc) (mkGeo (value one_radian) (value half_radian) (value (f_of_Z 100))) /\
  value f_smallest <> 0 /\ f_mul f_smallest (f_ratio 1 10) = S754_zero false /\
  f_rpc_world_to_image demo_frpc one_radian half_radian (f_of_Z 100) =
    Ok (S754_finite false 7531581304896086 (-40), S754_finite false 7343946784866600 (-42)).
Proof.
  split; [exact demo_ordinary|]. split; [bits|]. split; [bits|]. split; [bits|]. split; [|split; [|split]].
  - unfold in_cube, one_radian, half_radian. cbn [demo_frpc real_rpc longitude latitude elevation long_off long_scale lat_off lat_scale height_off height_scale f_lat_off f_long_off f_height_off f_lat_scale f_long_scale f_height_scale].
    see. rewrite !abs_value, !value_sign, !pw_neg. cbn [sign]. powers. pose proof pi_bounds as B. unfold degrees.
    assert (I : 318309886 / 10 ^ 9 < / PI < 318309887 / 10 ^ 9).
    { split; apply Rmult_lt_reg_r with PI; try lra; rewrite Rinv_l; lra. }
    unfold Rdiv in *. repeat split; apply Rabs_le; split; lra.
  - rewrite <- (Rabs_R0) at 1. intros H. assert (A : Rabs (value f_smallest) = 0) by (rewrite H; apply Rabs_R0 || (rewrite Rabs_R0; apply Rabs_R0)).
    unfold f_smallest in A. rewrite abs_value in A. assert (0 < / IZR (2 ^ 1074)) by (apply Rinv_0_lt_compat, IZR_lt; reflexivity). unfold Rdiv in A. lra.
  - vm_compute. reflexivity.
  - vm_compute. reflexivity.
Qed.

(** What raises: a zero longitude or latitude scale, and a polynomial of fewer than 20 coefficients.
    A zero height scale and a vanishing denominator do not raise: numpy's division goes on with
    infinities or NaN. *)
Definition is_zero (f : spec_float) : Prop := exists s, f = S754_zero s.
Definition enough (c : list spec_float) : Prop := (20 <= List.length c)%nat.
Theorem C108_returns : forall m lon lat height,
  (exists fx fy, f_rpc_world_to_image m lon lat height = Ok (fx, fy)) <->
  (~ is_zero (f_long_scale m) /\ ~ is_zero (f_lat_scale m) /\
   enough (f_samp_num m) /\ enough (f_samp_den m) /\ enough (f_line_num m) /\ enough (f_line_den m)).
Proof.
  assert (D : forall a b, (exists q, py_div a b = Ok q /\ ~ is_zero b) \/ (py_div a b = Err ZeroDivisionError /\ is_zero b)).
  { intros a b. destruct b; [right|left..]; try (eexists; split; [reflexivity|intros (s' & Z); discriminate Z]). split; [reflexivity|eexists; reflexivity]. }
  assert (E : forall c l p h, (exists q, f_rpc_evaluate c l p h = Ok q /\ enough c) \/ (f_rpc_evaluate c l p h = Err IndexError /\ ~ enough c)).
  { intros c l p h. unfold f_rpc_evaluate, enough. destruct (Nat.ltb_spec (List.length c) 20) as [L|L]; [right; split; [reflexivity|lia]|left; eexists; split; [reflexivity|exact L]]. }
  intros m lon lat height. unfold f_rpc_world_to_image.
  destruct (D (f_sub (f_degrees lon) (f_long_off m)) (f_long_scale m)) as [(l & -> & Zl)|(-> & Zl)]; cbn [bind].
  2: { split; [intros (fx & fy & Q); discriminate Q|intros (A & _); contradiction]. }
  destruct (D (f_sub (f_degrees lat) (f_lat_off m)) (f_lat_scale m)) as [(p & -> & Zp)|(-> & Zp)]; cbn [bind].
  2: { split; [intros (fx & fy & Q); discriminate Q|intros (_ & A & _); contradiction]. }
  set (h := f_div (f_sub height (f_height_off m)) (f_height_scale m)).
  destruct (E (f_samp_num m) l p h) as [(q1 & -> & E1)|(-> & E1)]; cbn [bind].
  2: { split; [intros (fx & fy & Q); discriminate Q|tauto]. }
  destruct (E (f_samp_den m) l p h) as [(q2 & -> & E2)|(-> & E2)]; cbn [bind].
  2: { split; [intros (fx & fy & Q); discriminate Q|tauto]. }
  destruct (E (f_line_num m) l p h) as [(q3 & -> & E3)|(-> & E3)]; cbn [bind].
  2: { split; [intros (fx & fy & Q); discriminate Q|tauto]. }
  destruct (E (f_line_den m) l p h) as [(q4 & -> & E4)|(-> & E4)]; cbn [bind].
  2: { split; [intros (fx & fy & Q); discriminate Q|tauto]. }
  split; [tauto|]. intros _. do 2 eexists. reflexivity.
Qed.
(** Without a height scale the demonstration camera returns NaN for a pixel. *)
Definition flat_frpc : FRPC :=
  mkFRPC (f_line_off demo_frpc) (f_samp_off demo_frpc) (f_lat_off demo_frpc) (f_long_off demo_frpc) (f_of_Z 50)
    (f_line_scale demo_frpc) (f_samp_scale demo_frpc) (f_lat_scale demo_frpc) (f_long_scale demo_frpc) f_zero
    (f_line_num demo_frpc) demo_den (f_samp_num demo_frpc) demo_den.
Example C108_flat : f_rpc_world_to_image flat_frpc one_radian half_radian (f_of_Z 100) = Ok (S754_nan, S754_nan).
Proof. vm_compute. reflexivity. Qed.
Print Assumptions C108_returns.
