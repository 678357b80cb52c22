(** Lemmas about displayed pixels in binary64. *)
Require Import ZArith Reals List Bool Lra Lia SpecFloat.
Require Import Verif.Base Verif.BaseFacts Verif.CoordFloatModel Verif.FloatModel Verif.FloatSpec Verif.FloatProofs Verif.FloatNearest
  Verif.TileFloatProofs Verif.DmsFloatModel Verif.DmsFloatProofs Verif.DisplayFloatModel Verif.DisplayFloatSpec.
Import ListNotations.
Local Open Scope R_scope.
Local Notation pw := (powerRZ 2).

(** ** Comparisons *)
Lemma finite_lt m1 e1 m2 e2 s s' : is_binary64 (S754_finite s m1 e1) -> is_binary64 (S754_finite s' m2 e2) -> (e1 < e2)%Z ->
  IZR (Zpos m1) * pw e1 < IZR (Zpos m2) * pw e2.
Proof.
  intros B1 B2 L. pose proof (valid_mantissa _ _ _ B1) as (M1 & E1 & _). pose proof (valid_mantissa _ _ _ B2) as (M2 & E2 & V2).
  rewrite fexp_val in V2. pose proof (digits_pos m2) as D.
  assert (H : (2 ^ 52 <= Zpos m2)%Z). { destruct (Z.eq_dec (Zpos (digits2_pos m2)) 53) as [E|E]; [rewrite E in D; apply D|lia]. }
  pose proof (pw_pos e1). apply IZR_le in H. apply IZR_lt in M1. rewrite <- pw_IZR in H, M1 by lia.
  apply Rlt_le_trans with (pw 53 * pw e1); [apply Rmult_lt_compat_r; assumption|].
  apply Rle_trans with (pw 52 * pw e2); [rewrite <- !pw_add; apply pw_le; lia|]. apply Rmult_le_compat_r; [apply Rlt_le, pw_pos|assumption].
Qed.

Lemma compare_value x y : is_binary64 x -> is_binary64 y ->
  match SFcompare x y with Some Lt => value x < value y | Some Eq => value x = value y | Some Gt => value y < value x | None => False end.
Proof.
  intros Bx By. destruct x as [sx| | |sx mx ex]; try (destruct Bx; contradiction); destruct y as [sy| | |sy my ey]; try (destruct By; contradiction).
  - cbn. reflexivity.
  - rewrite (value_sign sy). pose proof (Rmult_lt_0_compat _ _ (pos_IZR my) (pw_pos ey)). destruct sy; cbn [SFcompare sign value]; nra.
  - rewrite (value_sign sx). pose proof (Rmult_lt_0_compat _ _ (pos_IZR mx) (pw_pos ex)). destruct sx; cbn [SFcompare sign value]; nra.
  - rewrite !value_sign. pose proof (Rmult_lt_0_compat _ _ (pos_IZR my) (pw_pos ey)). pose proof (Rmult_lt_0_compat _ _ (pos_IZR mx) (pw_pos ex)).
    assert (G : match (ex ?= ey)%Z with Lt => IZR (Zpos mx) * pw ex < IZR (Zpos my) * pw ey | Gt => IZR (Zpos my) * pw ey < IZR (Zpos mx) * pw ex
                | Eq => match Pcompare mx my Eq with Lt => IZR (Zpos mx) * pw ex < IZR (Zpos my) * pw ey | Gt => IZR (Zpos my) * pw ey < IZR (Zpos mx) * pw ex
                        | Eq => IZR (Zpos mx) * pw ex = IZR (Zpos my) * pw ey end end).
    { destruct (Z.compare_spec ex ey) as [->|L|L]; [|exact (finite_lt _ _ _ _ _ _ Bx By L)|exact (finite_lt _ _ _ _ _ _ By Bx L)].
      change (Pcompare mx my Eq) with (Pos.compare mx my). destruct (Pos.compare_spec mx my) as [->|L|L]; [reflexivity| |];
        (apply Rmult_lt_compat_r; [apply pw_pos|apply IZR_lt; exact L]). }
    cbn [SFcompare]. destruct sx, sy; cbn [sign]; try nra.
    + destruct (ex ?= ey)%Z; [destruct (Pcompare mx my Eq)| |]; cbn [CompOpp]; nra.
    + destruct (ex ?= ey)%Z; [destruct (Pcompare mx my Eq)| |]; nra.
Qed.
Lemma ltb_value x y : is_binary64 x -> is_binary64 y -> SFltb x y = true <-> value x < value y.
Proof.
  intros Bx By. pose proof (compare_value x y Bx By) as H. unfold SFltb. destruct (SFcompare x y) as [[]|]; try contradiction; split; try discriminate; try reflexivity; lra.
Qed.
Lemma ltb_false x y : is_binary64 x -> is_binary64 y -> SFltb x y = false <-> value y <= value x.
Proof.
  intros Bx By. pose proof (ltb_value x y Bx By) as H. destruct (SFltb x y); split; intros G; try discriminate; try reflexivity.
  - pose proof (proj1 H eq_refl). lra.
  - destruct (Rle_lt_dec (value y) (value x)) as [|L]; [assumption|]. now apply H in L.
Qed.
Lemma eqb_value x y : is_binary64 x -> is_binary64 y -> SFeqb x y = true <-> value x = value y.
Proof.
  intros Bx By. pose proof (compare_value x y Bx By) as H. unfold SFeqb. destruct (SFcompare x y) as [[]|]; try contradiction; split; try discriminate; try reflexivity; lra.
Qed.

Lemma zero_float : is_binary64 (f_of_Z 0) /\ value (f_of_Z 0) = 0.
Proof. apply of_Z_exact. lia. Qed.
Lemma one_float : is_binary64 (f_of_Z 1) /\ value (f_of_Z 1) = 1.
Proof. apply of_Z_exact. lia. Qed.
Lemma white_float : is_binary64 (f_of_Z 255) /\ value (f_of_Z 255) = 255.
Proof. apply of_Z_exact. lia. Qed.

Lemma max_one_value x : is_binary64 x -> is_binary64 (f_max_one x) /\ value (f_max_one x) = Rmax (value x) 1.
Proof.
  intros B. destruct one_float as [B1 V1]. unfold f_max_one. destruct (SFltb x (f_of_Z 1)) eqn:E.
  - apply ltb_value in E; auto. split; [exact B1|]. rewrite V1 in *. rewrite Rmax_right; lra.
  - apply ltb_false in E; auto. split; [exact B|]. rewrite V1 in *. rewrite Rmax_left; lra.
Qed.
Lemma clip_value x : is_binary64 x -> is_binary64 (f_clip x) /\ value (f_clip x) = level (value x).
Proof.
  intros B. destruct zero_float as [B0 V0]. destruct white_float as [B1 V1]. unfold f_clip, level. destruct (SFltb x (f_of_Z 0)) eqn:E.
  - apply ltb_value in E; auto. split; [exact B0|]. rewrite V0 in *. rewrite Rmin_right, Rmax_left; lra.
  - apply ltb_false in E; auto. rewrite V0 in E. destruct (SFltb (f_of_Z 255) x) eqn:F.
    + apply ltb_value in F; auto. split; [exact B1|]. rewrite V1 in *. rewrite Rmin_left, Rmax_right; lra.
    + apply ltb_false in F; auto. split; [exact B|]. rewrite V1 in *. rewrite Rmin_right, Rmax_right; lra.
Qed.

(** ** Levels *)
Lemma level_bounds v : 0 <= level v <= 255.
Proof. unfold level. split; [apply Rmax_l|]. apply Rmax_lub; [lra|apply Rmin_l]. Qed.
Lemma level_mono u v : u <= v -> level u <= level v.
Proof. intros H. unfold level. apply Rle_max_compat_l. apply Rle_min_compat_l. exact H. Qed.
Lemma level_inside v : 0 <= v <= 255 -> level v = v.
Proof. intros H. unfold level. rewrite Rmin_right, Rmax_right; lra. Qed.
Lemma level_low v : v <= 0 -> level v = 0.
Proof. intros H. unfold level. rewrite Rmin_right, Rmax_left; lra. Qed.
Lemma level_high v : 255 <= v -> level v = 255.
Proof. intros H. unfold level. rewrite Rmin_left, Rmax_right; lra. Qed.
(** A relative error before the clip is an absolute one after it. *)
Lemma level_relative v e d : 0 <= d <= 1 / 256 -> Rabs e <= d -> Rabs (level (v * (1 + e)) - level v) <= 256 * d.
Proof.
  intros D E. apply abs_interval in E. apply Rabs_le. destruct (Rle_lt_dec v 0) as [N|P].
  - rewrite (level_low v N), (level_low (v * (1 + e))) by nra. lra.
  - destruct (Rle_lt_dec 255 v) as [H|H].
    + rewrite (level_high v H). pose proof (level_bounds (v * (1 + e))) as L. split; [|lra].
      assert (M : 255 * (1 - d) <= v * (1 + e)) by (apply Rmult_le_compat; lra).
      apply level_mono in M. rewrite (level_inside (255 * (1 - d))) in M by lra. lra.
    + rewrite (level_inside v) by lra. assert (B : v * (1 + d) <= v + 255 * d) by nra. assert (B' : v - 255 * d <= v * (1 + e) <= v + 255 * d) by nra.
      destruct B' as [B1 B2]. unfold level. split.
      * apply Rle_trans with (Rmin 255 (v * (1 + e)) - v); [|pose proof (Rmax_r 0 (Rmin 255 (v * (1 + e)))); lra].
        apply Rmin_case; lra.
      * enough (Rmax 0 (Rmin 255 (v * (1 + e))) <= v + 255 * d) by lra. apply Rmax_lub; [lra|]. pose proof (Rmin_r 255 (v * (1 + e))). lra.
Qed.
Lemma level_absolute u v d : Rabs (u - v) <= d -> Rabs (level u - level v) <= d.
Proof.
  intros H. apply abs_interval in H. apply Rabs_le. unfold level, Rmax, Rmin.
  destruct (Rle_dec 255 u), (Rle_dec 255 v); repeat destruct Rle_dec; lra.
Qed.

Lemma trunc_level x : is_binary64 x -> exists z, f_trunc (f_clip x) = Some z /\ z = Rfloor (level (value x)) /\ (0 <= z <= 255)%Z.
Proof.
  intros B. destruct (clip_value x B) as [Bc Vc]. pose proof (level_bounds (value x)) as L. exists (Rfloor (level (value x))).
  rewrite trunc_value by apply Bc. rewrite Vc. destruct (Rlt_dec (level (value x)) 0) as [H|_]; [lra|]. split; [reflexivity|]. split; [reflexivity|].
  destruct (Rfloor_spec (level (value x))) as [F1 F2]. split.
  - apply Z.lt_succ_r. apply lt_IZR. unfold Z.succ. rewrite plus_IZR. lra.
  - apply le_IZR. lra.
Qed.
Lemma shows_close z v w d : z = Rfloor w -> (0 <= z <= 255)%Z -> Rabs (w - v) <= d -> shows z v d.
Proof. intros -> B E. apply abs_interval in E. destruct (Rfloor_spec w) as [F1 F2]. split; [exact B|]. lra. Qed.
Lemma shows_apart z v d : shows z v d -> apart d v -> z = Rfloor v.
Proof.
  intros (_ & S1 & S2) A. symmetry. apply Rfloor_unique. split.
  - pose proof (A z) as Az. unfold Rabs in Az. destruct Rcase_abs in Az; lra.
  - pose proof (A (z + 1)%Z) as Az. rewrite plus_IZR in Az. unfold Rabs in Az. destruct Rcase_abs in Az; lra.
Qed.
Lemma shows_near z v d : shows z v d -> d < 1 -> (Z.abs (z - Rfloor v) <= 1)%Z.
Proof.
  intros (_ & S1 & S2) D. destruct (Rfloor_spec v) as [F1 F2]. apply Z.abs_le. split; apply Z.lt_succ_r, lt_IZR; unfold Z.succ; rewrite plus_IZR, ?opp_IZR, minus_IZR; lra.
Qed.

(** ** One pixel *)
Lemma moderate_sub x y : moderate x -> moderate y ->
  nearest (value x - value y) (f_sub x y) /\ rounded (value x - value y) (value (f_sub x y)) /\ Rabs (value (f_sub x y)) <= pw 401.
Proof.
  intros [Bx Mx] [By My]. assert (A : Rabs (value x - value y) <= pw 401).
  { replace (pw 401) with (pw 400 + pw 400) by (change 401%Z with (400 + 1)%Z; rewrite (pw_add 400 1), (pw_IZR 1) by lia; change (2 ^ 1)%Z with 2%Z; ring).
    apply abs_interval in Mx. apply abs_interval in My. apply Rabs_le. lra. }
  assert (F : finite (f_sub x y)) by (apply sub_finite; [apply Bx|apply By|apply Rle_lt_trans with (1 := A); apply pw_lt; lia]).
  pose proof (sub_nearest x y Bx By F) as N. split; [exact N|]. split; [apply (sub_rounded x y (binary64_proper x Bx) (binary64_proper y By) F)|].
  apply (abs_nearest_le _ _ _ N); [lia|exact A].
Qed.

Lemma max_one_moderate x : is_binary64 x -> Rabs (value x) <= pw 401 ->
  is_binary64 (f_max_one x) /\ value (f_max_one x) = Rmax (value x) 1 /\ 1 <= Rmax (value x) 1 <= pw 401.
Proof.
  intros B A. destruct (max_one_value x B) as [Bm Vm]. split; [exact Bm|]. split; [exact Vm|]. split; [apply Rmax_r|]. apply abs_interval in A.
  apply Rmax_lub; [lra|]. change 1 with (pw 0). apply pw_le. lia.
Qed.

Lemma unit_error d : Rabs d <= pw (-53) -> - / 9007199254740992 <= d <= / 9007199254740992.
Proof. intros H. rewrite pw53 in H. now apply abs_interval in H. Qed.
Lemma pw_lo51 : pw (-51) = / 2251799813685248.
Proof. apply pw_neg. Qed.

(** A few roundings. *)
Lemma three_errors d1 d2 d3 : Rabs d1 <= pw (-53) -> Rabs d2 <= pw (-53) -> Rabs d3 <= pw (-53) ->
  exists e, (1 + d1) * (1 + d2) * (1 + d3) = 1 + e /\ Rabs e <= pw (-51).
Proof.
  intros H1 H2 H3. apply unit_error in H1. apply unit_error in H2. apply unit_error in H3. exists ((1 + d1) * (1 + d2) * (1 + d3) - 1). split; [ring|].
  rewrite pw_lo51. set (u := / 9007199254740992) in *. assert (U : 0 < u < 1 / 1000000) by (unfold u; lra).
  replace (/ 2251799813685248) with (4 * u) by (unfold u; lra). apply Rabs_le.
  assert (A : -(2 * u + u / 100) <= (1 + d1) * (1 + d2) - 1 <= 2 * u + u / 100) by nra. nra.
Qed.
Lemma quotient_errors d1 d2 d4 : Rabs d1 <= pw (-53) -> Rabs d2 <= pw (-53) -> Rabs d4 <= pw (-53) ->
  exists e, (1 + d1) * (1 + d2) / (1 + d4) = 1 + e /\ Rabs e <= pw (-51).
Proof.
  intros H1 H2 H4. apply unit_error in H1. apply unit_error in H2. apply unit_error in H4.
  exists ((d1 + d2 + d1 * d2 - d4) / (1 + d4)). split; [field; lra|].
  rewrite pw_lo51. set (u := / 9007199254740992) in *. assert (U : 0 < u < 1 / 1000000) by (unfold u; lra).
  replace (/ 2251799813685248) with (4 * u) by (unfold u; lra). apply Rabs_le.
  assert (A : - (3 * u + u / 100) <= d1 + d2 + d1 * d2 - d4 <= 3 * u + u / 100) by nra. set (t := d1 + d2 + d1 * d2 - d4) in *.
  split; [apply Rmult_le_reg_r with (1 + d4)|apply Rmult_le_reg_r with (1 + d4)]; try lra; unfold Rdiv; rewrite Rmult_assoc, Rinv_l by lra; nra.
Qed.

(** A product or quotient that is too small for full precision is black either way. *)
Lemma tiny_level x f v e : nearest x f -> Rabs x <= pw (-60) -> x = v * (1 + e) -> Rabs e <= pw (-50) -> Rabs (level (value f) - level v) <= pw (-42).
Proof.
  intros N X E D. assert (F : Rabs (value f) <= pw (-60)) by (apply (abs_nearest_le _ _ _ N); [lia|exact X]). rewrite (pw_neg 50) in D. apply level_absolute. rewrite (pw_neg 42). rewrite (pw_neg 60) in *.
  change (2 ^ 50)%Z with 1125899906842624%Z in D. change (2 ^ 42)%Z with 4398046511104%Z. change (2 ^ 60)%Z with 1152921504606846976%Z in *.
  apply abs_interval in D. apply abs_interval in X. apply abs_interval in F.
  assert (V : - (2 * / 1152921504606846976) <= v <= 2 * / 1152921504606846976) by (subst x; nra). apply Rabs_le. lra.
Qed.
Lemma precise_level X f v e d : value f = X * (1 + d) -> X = v * (1 + e) -> Rabs e <= pw (-51) -> Rabs d <= pw (-53) -> Rabs (level (value f) - level v) <= pw (-42).
Proof.
  intros F E He Hd. set (c := (1 + e) * (1 + d) - 1). assert (V : value f = v * (1 + c)) by (unfold c; rewrite F, E; ring). rewrite V.
  apply unit_error in Hd. rewrite pw_lo51 in He. apply abs_interval in He.
  apply Rle_trans with (256 * (8 * / 9007199254740992)).
  - apply level_relative; [lra|]. unfold c. set (u := / 9007199254740992) in *. assert (U : 0 < u < 1 / 1000000) by (unfold u; lra).
    replace (/ 2251799813685248) with (4 * u) in He by (unfold u; lra). apply Rabs_le. nra.
  - rewrite (pw_neg 42). change (2 ^ 42)%Z with 4398046511104%Z. lra.
Qed.

Lemma pw_small j k : (j <= k)%Z -> pw j <= pw k.
Proof. apply pw_le. Qed.

Definition f_minmax_value (lo hi p : spec_float) : spec_float := f_mul (f_sub p lo) (f_div (f_of_Z 255) (f_max_one hi)).
Definition f_dra_value (smin smax p : spec_float) : spec_float := f_div (f_mul (f_of_Z 255) (f_sub p smin)) (f_max_one (f_sub smax smin)).

Lemma abs_mul_le x y a b : Rabs x <= a -> Rabs y <= b -> Rabs (x * y) <= a * b.
Proof. intros. rewrite Rabs_mult. apply Rmult_le_compat; auto using Rabs_pos. Qed.

Lemma gain_nearest hi : moderate hi -> let g := f_div (f_of_Z 255) (f_max_one hi) in
  is_binary64 g /\ nearest (255 / Rmax (value hi) 1) g /\ rounded (255 / Rmax (value hi) 1) (value g) /\ 0 <= value g <= 255.
Proof.
  intros [B A] g. assert (A1 : Rabs (value hi) <= pw 401) by (apply Rle_trans with (1 := A); apply pw_le; lia).
  destruct (max_one_moderate hi B A1) as (Bm & Vm & M1 & M2). destruct white_float as [B1 V1]. set (M := Rmax (value hi) 1) in *.
  assert (Q0 : 0 < / M <= 1). { split; [apply Rinv_0_lt_compat; lra|]. rewrite <- Rinv_1. apply Rinv_le_contravar; lra. }
  assert (Q : 0 < 255 / M <= 255) by (unfold Rdiv; nra).
  assert (Nz : value (f_max_one hi) <> 0) by (rewrite Vm; lra).
  assert (F : finite g). { unfold g. apply div_finite; [apply B1|apply Bm|exact Nz|]. rewrite V1, Vm. rewrite Rabs_pos_eq by lra. apply Rle_lt_trans with (pw 8); [|apply pw_lt; lia].
    rewrite pw_IZR by lia. change (2 ^ 8)%Z with 256%Z. lra. }
  assert (N : nearest (255 / M) g). { rewrite <- V1, <- Vm. apply div_nearest; auto. }
  split; [apply N|]. split; [exact N|]. split.
  - rewrite <- V1, <- Vm. apply div_rounded; auto; [apply B1|apply Bm|]. right. rewrite V1, Vm, Rabs_pos_eq by lra. unfold smallest_normal.
    apply Rle_trans with (pw (- (401))); [apply pw_le; lia|]. apply Rle_trans with (/ M); [|unfold Rdiv; nra].
    change (- (401))%Z with (Z.neg 401). rewrite (pw_neg 401), <- (pw_IZR 401) by lia. apply Rinv_le_contravar; lra.
  - split; [rewrite <- (proj2 zero_float); apply (nearest_ge _ _ _ N); [apply zero_float|rewrite (proj2 zero_float); lra]|].
    rewrite <- V1. apply (nearest_le _ _ _ N); [exact B1|rewrite V1; lra].
Qed.

Lemma minmax_product lo hi p : moderate lo -> moderate hi -> moderate p -> let g := f_div (f_of_Z 255) (f_max_one hi) in
  nearest (value (f_sub p lo) * value g) (f_minmax_value lo hi p).
Proof.
  intros L H P g. destruct (moderate_sub p lo P L) as (Ns & Rs & As). destruct (gain_nearest hi H) as (Bg & Ng & Rg & G). fold g in Bg, Ng, Rg, G.
  unfold f_minmax_value. fold g. apply mul_nearest; [apply Ns|exact Bg|]. apply mul_finite; [apply Ns|apply Bg|].
  apply Rle_lt_trans with (pw 401 * pw 8); [|rewrite <- pw_add; apply pw_lt; lia]. apply abs_mul_le; [exact As|]. rewrite Rabs_pos_eq by lra.
  rewrite (pw_IZR 8) by lia. change (2 ^ 8)%Z with 256%Z. lra.
Qed.

Lemma minmax_value_level lo hi p : moderate lo -> moderate hi -> moderate p ->
  is_binary64 (f_minmax_value lo hi p) /\ Rabs (level (value (f_minmax_value lo hi p)) - minmax_shade (value lo) (value hi) (value p)) <= pw (-42).
Proof.
  intros L H P. destruct (moderate_sub p lo P L) as (Ns & Rs & As). destruct (gain_nearest hi H) as (Bg & Ng & Rg & G).
  pose proof (minmax_product lo hi p L H P) as N. cbn zeta in N. unfold f_minmax_value in *. set (g := f_div (f_of_Z 255) (f_max_one hi)) in *. set (s := f_sub p lo) in *.
  split; [apply N|]. unfold minmax_shade. set (v := 255 * (value p - value lo) / Rmax (value hi) 1).
  destruct Rs as (d1 & D1 & E1). destruct Rg as (d2 & D2 & E2).
  assert (X : value s * value g = v * ((1 + d1) * (1 + d2))). { rewrite E1, E2. unfold v. unfold Rdiv. ring. }
  destruct (three_errors d1 d2 0 D1 D2) as (e & E & He); [rewrite Rabs_R0; apply Rlt_le, pw_pos|]. rewrite Rplus_0_r, Rmult_1_r in E. rewrite E in X.
  destruct (Rle_lt_dec (Rabs (value s * value g)) (pw (-60))) as [T|T].
  - apply (tiny_level _ _ _ e N T X). apply Rle_trans with (1 := He). apply pw_le. lia.
  - assert (F : finite (f_mul s g)) by apply N. destruct (mul_rounded s g F) as [(d3 & D3 & E3) _]; [apply Ns|apply Bg| |].
    + right. apply Rlt_le. apply Rlt_trans with (2 := T). unfold smallest_normal. apply pw_lt. lia.
    + exact (precise_level _ _ _ _ _ E3 X He D3).
Qed.

Lemma max_one_rounded x r : rounded x r -> (1 <= x -> 1 <= r) -> (x <= 1 -> r <= 1) -> rounded (Rmax x 1) (Rmax r 1).
Proof.
  intros Rx H1 H2. destruct (Rle_lt_dec x 1) as [L|L].
  - rewrite (Rmax_right x 1 L), (Rmax_right r 1 (H2 L)). apply rounded_exact.
  - rewrite (Rmax_left x 1), (Rmax_left r 1); [exact Rx|apply H1; lra|lra].
Qed.

Lemma dra_width smin smax : moderate smin -> moderate smax -> let W := f_max_one (f_sub smax smin) in
  is_binary64 W /\ rounded (Rmax (value smax - value smin) 1) (value W) /\ 1 <= value W <= pw 401 /\ value W = Rmax (value (f_sub smax smin)) 1.
Proof.
  intros L H W. destruct (moderate_sub smax smin H L) as (N & Rs & A). destruct (max_one_moderate _ (proj1 N) A) as (Bm & Vm & M). fold W in Bm, Vm.
  split; [exact Bm|]. rewrite Vm. split; [|split; [exact M|reflexivity]]. destruct one_float as [B1 V1]. apply max_one_rounded; [exact Rs| |]; intros G; rewrite <- V1.
  - apply (nearest_ge _ _ _ N B1). now rewrite V1.
  - apply (nearest_le _ _ _ N B1). now rewrite V1.
Qed.

(** 255 times a difference. *)
Lemma dra_product smin p : moderate smin -> moderate p -> let s := f_sub p smin in
  nearest (255 * value s) (f_mul (f_of_Z 255) s) /\ Rabs (value (f_mul (f_of_Z 255) s)) <= pw 409 /\
  (pw (-100) <= Rabs (value s) -> rounded (255 * value s) (value (f_mul (f_of_Z 255) s))).
Proof.
  intros L P s. destruct (moderate_sub p smin P L) as (N & Rs & A). fold s in N, Rs, A. destruct white_float as [B1 V1].
  assert (Q : Rabs (255 * value s) <= pw 409).
  { change 409%Z with (8 + 401)%Z. rewrite (pw_add 8 401). apply abs_mul_le; [|exact A]. rewrite Rabs_pos_eq by lra. rewrite (pw_IZR 8) by lia. change (2 ^ 8)%Z with 256%Z. lra. }
  assert (F : finite (f_mul (f_of_Z 255) s)). { apply mul_finite; [apply B1|apply N|]. rewrite V1. apply Rle_lt_trans with (1 := Q). apply pw_lt. lia. }
  assert (M : nearest (255 * value s) (f_mul (f_of_Z 255) s)) by (rewrite <- V1; apply mul_nearest; [exact B1|apply N|exact F]).
  split; [exact M|]. split; [apply (abs_nearest_le _ _ _ M); [lia|exact Q]|]. intros G. rewrite <- V1. apply mul_rounded; [exact F|apply B1|apply N|].
  right. rewrite V1, Rabs_mult, (Rabs_pos_eq 255) by lra. unfold smallest_normal. apply Rle_trans with (pw (-100)); [apply pw_le; lia|]. pose proof (pw_pos (-100)). lra.
Qed.

Lemma dra_quotient smin smax p : moderate smin -> moderate smax -> moderate p ->
  nearest (value (f_mul (f_of_Z 255) (f_sub p smin)) / value (f_max_one (f_sub smax smin))) (f_dra_value smin smax p).
Proof.
  intros L H P. destruct (dra_product smin p L P) as (N & A & _). destruct (dra_width smin smax L H) as (Bw & _ & W & _). unfold f_dra_value.
  apply div_nearest; [apply N|exact Bw|lra|]. apply div_finite; [apply N|apply Bw|lra|].
  apply Rle_lt_trans with (pw 409 * 1); [|rewrite Rmult_1_r; apply pw_lt; lia]. apply abs_mul_le; [exact A|].
  rewrite Rabs_pos_eq by (apply Rlt_le, Rinv_0_lt_compat; lra). rewrite <- Rinv_1. apply Rinv_le_contravar; lra.
Qed.

Lemma dra_value_level smin smax p : moderate smin -> moderate smax -> moderate p ->
  is_binary64 (f_dra_value smin smax p) /\ Rabs (level (value (f_dra_value smin smax p)) - dra_shade (value smin) (value smax) (value p)) <= pw (-42).
Proof.
  intros L H P. pose proof (dra_quotient smin smax p L H P) as N. split; [apply N|].
  destruct (moderate_sub p smin P L) as (Ns & (d1 & D1 & E1) & As). destruct (dra_product smin p L P) as (Nm & Am & Rm).
  destruct (dra_width smin smax L H) as (Bw & (d4 & D4 & E4) & W & _). unfold dra_shade. set (w := Rmax (value smax - value smin) 1) in *.
  assert (Hw : 1 <= w) by apply Rmax_r. set (v := 255 * (value p - value smin) / w). unfold f_dra_value in *.
  set (s := f_sub p smin) in *. set (m := f_mul (f_of_Z 255) s) in *. set (W' := f_max_one (f_sub smax smin)) in *.
  pose proof (unit_error _ D4) as D4'. pose proof (unit_error _ D1) as D1'.
  destruct (Rle_lt_dec (pw (-100)) (Rabs (value s))) as [G|G].
  - destruct (Rm G) as (d2 & D2 & E2). destruct (quotient_errors d1 d2 d4 D1 D2 D4) as (e & E & He).
    assert (X : value m / value W' = v * (1 + e)). { rewrite <- E, E2, E1, E4. unfold v. field. lra. }
    destruct (Rle_lt_dec (Rabs (value m / value W')) (pw (-60))) as [T|T].
    + apply (tiny_level _ _ _ e N T X). apply Rle_trans with (1 := He). apply pw_le. lia.
    + assert (F : finite (f_div m W')) by apply N. destruct (div_rounded m W' F) as [(d3 & D3 & E3) _]; [apply Nm|apply Bw|lra| |].
      * right. apply Rlt_le. apply Rlt_trans with (2 := T). unfold smallest_normal. apply pw_lt. lia.
      * exact (precise_level _ _ _ _ _ E3 X He D3).
  - assert (Tv : Rabs v <= pw (-80)).
    { unfold v, Rdiv. replace (pw (-80)) with (pw (-80) * 1) by ring. apply abs_mul_le.
      - assert (Q : Rabs (value p - value smin) <= 2 * pw (-100)).
        { apply Rlt_le in G. rewrite E1 in G. rewrite Rabs_mult in G. rewrite (Rabs_pos_eq (1 + d1)) in G by lra.
          pose proof (Rabs_pos (value p - value smin)). nra. }
        rewrite Rabs_mult, (Rabs_pos_eq 255) by lra. apply Rle_trans with (pw 9 * pw (-100)); [|rewrite <- pw_add; apply pw_le; lia].
        rewrite (pw_IZR 9) by lia. change (2 ^ 9)%Z with 512%Z. pose proof (pw_pos (-100)). lra.
      - rewrite Rabs_pos_eq by (apply Rlt_le, Rinv_0_lt_compat; lra). rewrite <- Rinv_1. apply Rinv_le_contravar; lra. }
    assert (Tm : Rabs (value m) <= pw (-80)).
    { apply (abs_nearest_le _ _ _ Nm); [lia|]. apply Rle_trans with (pw 8 * pw (-100)); [|rewrite <- pw_add; apply pw_le; lia]. apply abs_mul_le; [|lra].
      rewrite Rabs_pos_eq, (pw_IZR 8) by (lra || lia). change (2 ^ 8)%Z with 256%Z. lra. }
    assert (Tf : Rabs (value (f_div m W')) <= pw (-80)).
    { apply (abs_nearest_le _ _ _ N); [lia|]. unfold Rdiv. replace (pw (-80)) with (pw (-80) * 1) by ring. apply abs_mul_le; [exact Tm|].
      rewrite Rabs_pos_eq by (apply Rlt_le, Rinv_0_lt_compat; lra). rewrite <- Rinv_1. apply Rinv_le_contravar; lra. }
    apply level_absolute. apply abs_interval in Tf. apply abs_interval in Tv. apply Rabs_le. pose proof (pw_pos (-80)).
    assert (pw (-80) <= pw (-43)) by (apply pw_le; lia). assert (E : pw (-42) = 2 * pw (-43)) by (change (-42)%Z with (1 + -43)%Z; rewrite (pw_add 1), (pw_IZR 1) by lia; reflexivity). lra.
Qed.

(** Brighter pixels are not shown darker. *)
Lemma minmax_value_mono lo hi p q : moderate lo -> moderate hi -> moderate p -> moderate q -> value p <= value q ->
  value (f_minmax_value lo hi p) <= value (f_minmax_value lo hi q).
Proof.
  intros L H P Q Le. pose proof (minmax_product lo hi p L H P) as N. pose proof (minmax_product lo hi q L H Q) as N'. cbn zeta in N, N'.
  destruct (gain_nearest hi H) as (_ & _ & _ & G). apply (nearest_monotone _ _ _ _ N N'). apply Rmult_le_compat_r; [lra|].
  apply (nearest_monotone _ _ _ _ (proj1 (moderate_sub p lo P L)) (proj1 (moderate_sub q lo Q L))). lra.
Qed.
Lemma dra_value_mono smin smax p q : moderate smin -> moderate smax -> moderate p -> moderate q -> value p <= value q ->
  value (f_dra_value smin smax p) <= value (f_dra_value smin smax q).
Proof.
  intros L H P Q Le. apply (nearest_monotone _ _ _ _ (dra_quotient smin smax p L H P) (dra_quotient smin smax q L H Q)).
  destruct (dra_width smin smax L H) as (_ & _ & W & _). apply Rmult_le_compat_r; [apply Rlt_le, Rinv_0_lt_compat; lra|].
  apply (nearest_monotone _ _ _ _ (proj1 (dra_product smin p L P)) (proj1 (dra_product smin q L Q))). apply Rmult_le_compat_l; [lra|].
  apply (nearest_monotone _ _ _ _ (proj1 (moderate_sub p smin P L)) (proj1 (moderate_sub q smin Q L))). lra.
Qed.

(** Differences of whole numbers are exact. *)
Lemma sub_whole x y b n m : is_binary64 x -> is_binary64 y -> value x = IZR n -> value y = IZR m -> (Z.abs n <= b)%Z -> (Z.abs m <= b)%Z -> (b <= 2 ^ 50)%Z ->
  is_binary64 (f_sub x y) /\ value (f_sub x y) = IZR (n - m).
Proof.
  intros Bx By Ex Ey Hn Hm Hb. destruct (of_Z_exact (n - m)) as [Bd Vd]; [lia|].
  assert (N : nearest (value x - value y) (f_sub x y)).
  { apply sub_nearest; auto. apply sub_finite; [apply Bx|apply By|]. rewrite Ex, Ey, <- minus_IZR, <- abs_IZR, pw_IZR by lia. apply IZR_lt.
    apply Z.lt_trans with (2 ^ 53)%Z; [lia|apply Z.pow_lt_mono_r; lia]. }
  split; [apply N|]. rewrite Ex, Ey, <- minus_IZR in N. apply (nearest_exact _ _ _ N Bd Vd).
Qed.
