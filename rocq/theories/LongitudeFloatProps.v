(** C111: the longitude of an RSM ground domain of 0 to 2 pi in binary64 arithmetic, bit by bit. *)
Require Import ZArith Reals Lra Lia SpecFloat.
Require Import Verif.Base Verif.BaseFacts Verif.RoundModel Verif.RoundSpec Verif.CoordFloatModel Verif.FloatModel Verif.FloatSpec Verif.FloatProofs Verif.FloatNearest
  Verif.TileFloatProofs Verif.LongitudeFloatModel.
Local Open Scope R_scope.
Local Notation pw := (powerRZ 2).

(** The exact remainder of two binary64 numbers is a binary64 number. *)
Lemma fmod_value a b : is_binary64 a -> is_binary64 b -> 0 <= value a < pw 900 -> 0 < value b ->
  is_binary64 (f_fmod a b) /\ 0 <= value (f_fmod a b) < value b /\ exists q : Z, value (f_fmod a b) = value a - IZR q * value b.
Proof.
  intros Ba Bb [A0 A1] B0.
  destruct b as [sb|sb| |sb mb eb]; [cbn in B0; lra|cbn in B0; lra|cbn in B0; lra|].
  destruct a as [sa|sa| |sa ma ea]; [|destruct Ba as [[] _]|destruct Ba as [[] _]|].
  { cbn [f_fmod]. split; [exact Ba|]. cbn [value] in *. split; [lra|]. exists 0%Z. lra. }
  rewrite value_sign in A0, A1, B0.
  assert (sa = false) as ->. { destruct sa; [|reflexivity]. pose proof (pos_IZR ma). pose proof (pw_pos ea). cbn [sign] in A0. assert (0 < IZR (Zpos ma) * pw ea) by nra. lra. }
  assert (sb = false) as ->. { destruct sb; [|reflexivity]. pose proof (pos_IZR mb). pose proof (pw_pos eb). cbn [sign] in B0. assert (0 < IZR (Zpos mb) * pw eb) by nra. lra. }
  cbn [sign] in *. rewrite !Rmult_1_l in *.
  destruct (valid_mantissa _ _ _ Ba) as (Ma & Ea & _). destruct (valid_mantissa _ _ _ Bb) as (Mb & Eb & _).
  cbn [f_fmod]. rewrite !value_sign. cbn [sign cond_Zopp]. rewrite !Rmult_1_l.
  set (e := Z.min ea eb). set (A := (Z.pos ma * 2 ^ (ea - e))%Z). set (B := (Z.pos mb * 2 ^ (eb - e))%Z).
  assert (VA : IZR (Zpos ma) * pw ea = IZR A * pw e).
  { unfold A. rewrite mult_IZR, <- pw_IZR by lia. rewrite Rmult_assoc, <- pw_add. do 2 f_equal. lia. }
  assert (VB : IZR (Zpos mb) * pw eb = IZR B * pw e).
  { unfold B. rewrite mult_IZR, <- pw_IZR by lia. rewrite Rmult_assoc, <- pw_add. do 2 f_equal. lia. }
  rewrite VA, VB in *. pose proof (pw_pos e) as Pe.
  assert (B1 : (0 < B)%Z). { apply lt_IZR. nra. }
  assert (A2 : (0 <= A)%Z). { apply le_IZR. apply Rmult_le_reg_r with (1 := Pe). lra. }
  pose proof (Z.mod_pos_bound A B B1) as M. pose proof (Z.mod_le A B A2 B1) as L.
  assert (S : (A mod B < 2 ^ 53)%Z).
  { destruct (Z.le_gt_cases ea eb) as [C|C].
    - apply Z.le_lt_trans with (1 := L). unfold A. replace (ea - e)%Z with 0%Z by lia. lia.
    - apply Z.lt_trans with (1 := proj2 M). unfold B. replace (eb - e)%Z with 0%Z by lia. lia. }
  assert (F : finite (binary_normalize prec emax (A mod B) e false)).
  { apply normalize_finite. rewrite Rabs_mult, (Rabs_right (pw e)) by lra. rewrite <- abs_IZR.
    apply Rle_lt_trans with (2 := A1). apply Rmult_le_compat_r; [lra|]. apply IZR_le. lia. }
  pose proof (normalize_nearest _ _ _ F) as N.
  destruct (representable (A mod B) e) as (g & Bg & Vg); [lia|lia|].
  pose proof (nearest_exact _ _ _ N Bg Vg) as V. split; [apply N|]. rewrite V. split.
  - split; [apply Rmult_le_pos; [apply IZR_le; lia|lra]|]. apply Rmult_lt_compat_r; [exact Pe|]. apply IZR_lt. lia.
  - exists (A / B)%Z. rewrite <- Rmult_assoc, <- mult_IZR, <- Rmult_minus_distr_r, <- minus_IZR. do 2 f_equal. rewrite (Z.div_mod A B) at 2 by lia. ring.
Qed.

(** The same for a negative dividend: the remainder is negative or zero. *)
Lemma fmod_negative a b : is_binary64 a -> is_binary64 b -> - pw 900 < value a < 0 -> 0 < value b ->
  is_binary64 (f_fmod a b) /\ - value b < value (f_fmod a b) <= 0 /\ exists q : Z, value (f_fmod a b) = value a + IZR q * value b.
Proof.
  intros Ba Bb [A0 A1] B0.
  destruct b as [sb|sb| |sb mb eb]; [cbn in B0; lra|cbn in B0; lra|cbn in B0; lra|].
  destruct a as [sa|sa| |sa ma ea]; [cbn in A1; lra|destruct Ba as [[] _]|destruct Ba as [[] _]|].
  rewrite value_sign in A0, A1, B0.
  assert (sa = true) as ->. { destruct sa; [reflexivity|]. pose proof (pos_IZR ma). pose proof (pw_pos ea). cbn [sign] in A1. assert (0 < IZR (Zpos ma) * pw ea) by nra. lra. }
  assert (sb = false) as ->. { destruct sb; [|reflexivity]. pose proof (pos_IZR mb). pose proof (pw_pos eb). cbn [sign] in B0. assert (0 < IZR (Zpos mb) * pw eb) by nra. lra. }
  cbn [sign] in *. rewrite !Rmult_1_l in B0.
  destruct (valid_mantissa _ _ _ Ba) as (Ma & Ea & _). destruct (valid_mantissa _ _ _ Bb) as (Mb & Eb & _).
  cbn [f_fmod]. rewrite !value_sign. cbn [sign cond_Zopp]. rewrite !Rmult_1_l, !Rmult_assoc in *.
  set (e := Z.min ea eb). set (A := (Z.pos ma * 2 ^ (ea - e))%Z). set (B := (Z.pos mb * 2 ^ (eb - e))%Z).
  assert (VA : IZR (Zpos ma) * pw ea = IZR A * pw e).
  { unfold A. rewrite mult_IZR, <- pw_IZR by lia. rewrite Rmult_assoc, <- pw_add. do 2 f_equal. lia. }
  assert (VB : IZR (Zpos mb) * pw eb = IZR B * pw e).
  { unfold B. rewrite mult_IZR, <- pw_IZR by lia. rewrite Rmult_assoc, <- pw_add. do 2 f_equal. lia. }
  rewrite VA, VB in *. pose proof (pw_pos e) as Pe.
  assert (B1 : (0 < B)%Z). { apply lt_IZR. nra. }
  assert (A2 : (0 <= A)%Z). { apply le_IZR. apply Rmult_le_reg_r with (1 := Pe). lra. }
  pose proof (Z.mod_pos_bound A B B1) as M. pose proof (Z.mod_le A B A2 B1) as L.
  assert (S : (A mod B < 2 ^ 53)%Z).
  { destruct (Z.le_gt_cases ea eb) as [C|C].
    - apply Z.le_lt_trans with (1 := L). unfold A. replace (ea - e)%Z with 0%Z by lia. lia.
    - apply Z.lt_trans with (1 := proj2 M). unfold B. replace (eb - e)%Z with 0%Z by lia. lia. }
  assert (F : finite (binary_normalize prec emax (- (A mod B)) e true)).
  { apply normalize_finite. rewrite Rabs_mult, (Rabs_right (pw e)) by lra. rewrite <- abs_IZR.
    apply Rle_lt_trans with (IZR A * pw e); [|lra]. apply Rmult_le_compat_r; [lra|]. apply IZR_le. lia. }
  pose proof (normalize_nearest _ _ _ F) as N.
  destruct (representable (- (A mod B)) e) as (g & Bg & Vg); [lia|lia|].
  pose proof (nearest_exact _ _ _ N Bg Vg) as V. split; [apply N|]. rewrite V, opp_IZR. split.
  - split; [|assert (0 <= IZR (A mod B) * pw e) by (apply Rmult_le_pos; [apply IZR_le; lia|lra]); lra].
    assert (IZR (A mod B) * pw e < IZR B * pw e) by (apply Rmult_lt_compat_r; [exact Pe|]; apply IZR_lt; lia). lra.
  - exists (A / B)%Z. rewrite (Z.div_mod A B) at 2 by lia. rewrite plus_IZR, mult_IZR. ring.
Qed.

Lemma remainder_value a b : is_binary64 a -> is_binary64 b -> 0 <= value a < pw 900 -> 0 < value b ->
  is_binary64 (f_remainder a b) /\ 0 <= value (f_remainder a b) < value b /\ exists q : Z, value (f_remainder a b) = value a - IZR q * value b.
Proof.
  intros Ba Bb A0 B0. destruct (fmod_value a b Ba Bb A0 B0) as (Bm & R & Q). unfold f_remainder.
  assert (Sb : f_sign b = false).
  { destruct b as [[]|[]| |[] m e]; try reflexivity; try (cbn in B0; lra). rewrite value_sign in B0. pose proof (pos_IZR m). pose proof (pw_pos e). cbn [sign] in B0. assert (0 < IZR (Zpos m) * pw e) by nra. lra. }
  rewrite Sb. destruct (f_fmod a b) as [s|s| |s m e].
  - split; [split; [exact I|reflexivity]|]. exact (conj R Q).
  - destruct Bm as [[] _].
  - destruct Bm as [[] _].
  - destruct s; [|exact (conj Bm (conj R Q))]. exfalso. rewrite value_sign in R. pose proof (pos_IZR m). pose proof (pw_pos e). cbn [sign] in R. assert (0 < IZR (Zpos m) * pw e) by nra. lra.
Qed.

Lemma two_pi_float : f_two_pi = S754_finite false 7074237752028440 (-50).
Proof. now vm_compute. Qed.
Lemma two_pi_binary64 : is_binary64 f_two_pi.
Proof. rewrite two_pi_float. now split. Qed.
Lemma two_pi_value : value f_two_pi = 7074237752028440 / 1125899906842624.
Proof. rewrite two_pi_float. cbn [value]. change (pw (-50)) with (/ 2 ^ 50). replace (2 ^ 50) with 1125899906842624 by (cbn; lra). cbn. lra. Qed.
Lemma two_pi_close : value f_two_pi < 2 * PI <= value f_two_pi + 25 / 10 ^ 17.
Proof. pose proof pi_bounds. rewrite two_pi_value. cbn [pow] in *. lra. Qed.

(** The sum before the remainder is taken. *)
Lemma shifted_sum x : is_binary64 x -> - 4 <= value x <= 7 ->
  nearest (value x + value f_two_pi) (f_add x f_two_pi) /\ Rabs (value (f_add x f_two_pi) - (value x + value f_two_pi)) <= 13.3 * / 9007199254740992 /\
  0 <= value (f_add x f_two_pi) < 2 * value f_two_pi + 1.
Proof.
  intros Bx R. pose proof two_pi_value as V. assert (W : 6.28 < value f_two_pi < 6.29) by lra.
  assert (F : finite (f_add x f_two_pi)).
  { apply add_finite; [apply Bx|apply two_pi_binary64|]. apply Rle_lt_trans with (pw 4); [|apply pw_lt; lia]. rewrite pw_IZR by lia. apply Rabs_le. change (IZR (2 ^ 4)) with 16. lra. }
  pose proof (add_nearest _ _ Bx two_pi_binary64 F) as N. pose proof (add_rounded _ _ (binary64_proper _ Bx) (binary64_proper _ two_pi_binary64) F) as P.
  change (SFadd prec emax x f_two_pi) with (f_add x f_two_pi) in *. split; [exact N|].
  assert (E : Rabs (value (f_add x f_two_pi) - (value x + value f_two_pi)) <= 13.3 * / 9007199254740992). { apply rounded_error; [exact (proj1 P)|]. apply Rabs_le. lra. }
  split; [exact E|]. revert E. unfold Rabs. destruct (Rcase_abs _); lra.
Qed.

(** A ground location that the sensor model is asked about: a longitude of either convention. *)
Theorem C111_domain :
  forall x : spec_float, is_binary64 x -> - 4 <= value x <= 7 ->
  let r := f_domain_longitude x in
  is_binary64 r /\ 0 <= value r < value f_two_pi /\ value f_two_pi < 2 * PI /\
  exists k : Z, (-1 <= k <= 1)%Z /\ Rabs (value r - (value x + IZR k * (2 * PI))) <= 1 / 2 ^ 49.
Proof.
  intros x Bx R. cbv zeta. destruct (shifted_sum x Bx R) as (N & E & S). pose proof two_pi_value as V. pose proof two_pi_close as C.
  assert (W : 6.28 < value f_two_pi < 6.29) by lra.
  destruct (remainder_value (f_add x f_two_pi) f_two_pi) as (B & Rg & q & Q); [apply N|exact two_pi_binary64| |lra|].
  { split; [lra|]. apply Rlt_le_trans with (pw 4); [|apply pw_le; lia]. rewrite pw_IZR by lia. change (IZR (2 ^ 4)) with 16. lra. }
  fold (f_domain_longitude x) in *. split; [exact B|]. split; [exact Rg|]. split; [lra|]. rewrite Q in Rg.
  assert (Hq : (0 <= q <= 2)%Z).
  { split; apply Z.lt_succ_r, lt_IZR; rewrite ?succ_IZR; nra. }
  exists (1 - q)%Z. split; [lia|]. rewrite Q, minus_IZR.
  assert (q = 0 \/ q = 1 \/ q = 2)%Z as [-> | [-> | ->]] by lia; revert E; cbn [pow] in *; unfold Rabs; repeat destruct (Rcase_abs _); lra.
Qed.
Print Assumptions C111_domain.

(** The hemispheres: an eastern longitude stays where it is, a western one goes up by a turn. *)
Theorem C111_eastern :
  forall x : spec_float, is_binary64 x -> 0 <= value x <= 4 ->
  value (f_domain_longitude x) = value (f_add x f_two_pi) - value f_two_pi /\
  Rabs (value (f_domain_longitude x) - value x) <= 1 / 2 ^ 49.
Proof.
  intros x Bx R. destruct (shifted_sum x Bx) as (N & E & S); [lra|]. pose proof two_pi_value as V.
  assert (W : 6.28 < value f_two_pi < 6.29) by lra.
  destruct (remainder_value (f_add x f_two_pi) f_two_pi) as (B & Rg & q & Q); [apply N|exact two_pi_binary64| |lra|].
  { split; [lra|]. apply Rlt_le_trans with (pw 4); [|apply pw_le; lia]. rewrite pw_IZR by lia. change (IZR (2 ^ 4)) with 16. lra. }
  fold (f_domain_longitude x) in *. rewrite Q in Rg.
  assert (L : value f_two_pi <= value (f_add x f_two_pi)). { apply nearest_ge with (1 := N); [exact two_pi_binary64|lra]. }
  assert (U : value (f_add x f_two_pi) < 2 * value f_two_pi). { revert E. cbn [pow]. unfold Rabs. destruct (Rcase_abs _); lra. }
  assert (q = 1)%Z as ->. { assert (0 < q /\ q < 2)%Z; [|lia]. split; apply lt_IZR; nra. }
  rewrite Q. split; [lra|]. revert E. cbn [pow]. unfold Rabs. repeat destruct (Rcase_abs _); lra.
Qed.
Print Assumptions C111_eastern.

Theorem C111_western :
  forall x : spec_float, is_binary64 x -> - 4 <= value x <= - (1 / 2 ^ 50) ->
  f_domain_longitude x = f_add x f_two_pi /\
  Rabs (value (f_domain_longitude x) - (value x + 2 * PI)) <= 1 / 2 ^ 49.
Proof.
  intros x Bx R. assert (0 < 1 / 2 ^ 50) by (cbn [pow]; lra). destruct (shifted_sum x Bx) as (N & E & S); [lra|]. pose proof two_pi_value as V. pose proof two_pi_close as C.
  assert (W : 6.28 < value f_two_pi < 6.29) by lra.
  destruct (remainder_value (f_add x f_two_pi) f_two_pi) as (B & Rg & q & Q); [apply N|exact two_pi_binary64| |lra|].
  { split; [lra|]. apply Rlt_le_trans with (pw 4); [|apply pw_le; lia]. rewrite pw_IZR by lia. change (IZR (2 ^ 4)) with 16. lra. }
  fold (f_domain_longitude x) in *. rewrite Q in Rg.
  assert (U : value (f_add x f_two_pi) <= value f_two_pi - 1 / 2 ^ 50).
  { destruct (representable 7074237752028439 (-50)) as (g & Bg & Vg); [lia|lia|].
    assert (Vg' : value g = value f_two_pi - 1 / 2 ^ 50). { rewrite Vg, V. change (pw (-50)) with (/ 2 ^ 50). cbn [pow]. lra. }
    rewrite <- Vg'. apply nearest_le with (1 := N); [exact Bg|lra]. }
  assert (q = 0)%Z as ->. { assert (-1 < q /\ q < 1)%Z; [|lia]. split; apply lt_IZR; nra. }
  assert (V1 : value (f_domain_longitude x) = value (f_add x f_two_pi)) by lra.
  split.
  - apply same_value; [exact B|apply N|exact V1|]. rewrite V1. revert E. cbn [pow]. unfold Rabs. destruct (Rcase_abs _); lra.
  - rewrite V1. revert E. cbn [pow] in *. unfold Rabs. repeat destruct (Rcase_abs _); lra.
Qed.
Print Assumptions C111_western.

(** Eastern longitudes keep their order. *)
Theorem C111_order :
  forall x y : spec_float, is_binary64 x -> is_binary64 y -> 0 <= value x -> value x <= value y -> value y <= 4 ->
  value (f_domain_longitude x) <= value (f_domain_longitude y).
Proof.
  intros x y Bx By A0 A1 A2. destruct (C111_eastern x Bx ltac:(lra)) as [-> _]. destruct (C111_eastern y By ltac:(lra)) as [-> _].
  destruct (shifted_sum x Bx ltac:(lra)) as [Nx _]. destruct (shifted_sum y By ltac:(lra)) as [Ny _].
  pose proof (nearest_monotone _ _ _ _ Nx Ny ltac:(lra)). lra.
Qed.
Print Assumptions C111_order.

(** Numbers of at least 4 are multiples of 2^-50, as 2 pi is. *)
Lemma large_grid x : is_binary64 x -> 4 <= Rabs (value x) -> exists N : Z, value x = IZR N * pw (-50).
Proof.
  intros Bx L. destruct (binary64_form x Bx) as (N & k & V & HN & _).
  assert (K : (-50 <= k)%Z).
  { assert (2 < 53 + k)%Z; [|lia]. apply pw_lt_inv. apply Rle_lt_trans with (Rabs (value x)).
    - rewrite pw_IZR by lia. exact L.
    - rewrite V, Rabs_mult, (Rabs_right (pw k)) by (pose proof (pw_pos k); lra). rewrite pw_add, (pw_IZR 53), <- abs_IZR by lia.
      apply Rmult_lt_compat_r; [apply pw_pos|]. apply IZR_lt. exact HN. }
  exists (N * 2 ^ (k + 50))%Z. rewrite mult_IZR, <- pw_IZR, Rmult_assoc, <- pw_add by lia. rewrite V. do 2 f_equal. lia.
Qed.

(** Any longitude at all, however many turns away: the result is in the domain, and only the
    addition of the turn is rounded. *)
Theorem C111_any_longitude :
  forall x : spec_float, is_binary64 x -> Rabs (value x) <= 2 ^ 800 ->
  let r := f_domain_longitude x in
  is_binary64 r /\ 0 <= value r < value f_two_pi /\
  exists k : Z, Rabs (value r - (value x + IZR k * value f_two_pi)) <= Rabs (value x + value f_two_pi) / 2 ^ 53.
Proof.
  intros x Bx R. cbv zeta. pose proof two_pi_value as V. assert (W : 6.28 < value f_two_pi < 6.29) by lra.
  assert (R2 : Rabs (value x + value f_two_pi) <= pw 801).
  { apply Rle_trans with (1 := Rabs_triang _ _). rewrite (Rabs_right (value f_two_pi)) by lra. change 801%Z with (1 + 800)%Z. rewrite pw_add.
    replace (2 ^ 800) with (pw 800) in R by (rewrite (pow_powerRZ 2 800); reflexivity).
    assert (pw 3 <= pw 800) by (apply pw_le; lia). rewrite (pw_IZR 3) in H by lia. change (IZR (2 ^ 3)) with 8 in H. rewrite (pw_IZR 1) by lia. change (IZR (2 ^ 1)) with 2. lra. }
  assert (F : finite (f_add x f_two_pi)).
  { apply add_finite; [apply Bx|apply two_pi_binary64|]. apply Rle_lt_trans with (1 := R2). apply pw_lt. lia. }
  pose proof (add_nearest _ _ Bx two_pi_binary64 F) as N. pose proof (add_rounded _ _ (binary64_proper _ Bx) (binary64_proper _ two_pi_binary64) F) as [P _].
  change (SFadd prec emax x f_two_pi) with (f_add x f_two_pi) in *.
  assert (E : Rabs (value (f_add x f_two_pi) - (value x + value f_two_pi)) <= Rabs (value x + value f_two_pi) / 2 ^ 53).
  { replace (2 ^ 53) with 9007199254740992 by (cbn [pow]; lra). apply rounded_error; [exact P|lra]. }
  assert (S : Rabs (value (f_add x f_two_pi)) < pw 900).
  { apply Rle_lt_trans with (pw 801); [|apply pw_lt; lia]. apply abs_nearest_le with (1 := N); [lia|exact R2]. }
  apply Rabs_def2 in S. unfold f_domain_longitude.
  destruct (Rle_or_lt 0 (value (f_add x f_two_pi))) as [C|C].
  - destruct (remainder_value (f_add x f_two_pi) f_two_pi) as (B & Rg & q & Q); [apply N|exact two_pi_binary64|lra|lra|].
    split; [exact B|]. split; [exact Rg|]. exists (1 - q)%Z. rewrite Q, minus_IZR.
    replace (value (f_add x f_two_pi) - IZR q * value f_two_pi - (value x + (1 - IZR q) * value f_two_pi)) with (value (f_add x f_two_pi) - (value x + value f_two_pi)) by ring. exact E.
  - assert (X : value x + value f_two_pi < 0).
    { destruct (Rle_or_lt 0 (value x + value f_two_pi)) as [D|D]; [|exact D]. pose proof (nearest_ge _ _ _ N zero_binary64 D). cbn [value] in H. lra. }
    destruct (large_grid x Bx) as [Nx Vx]; [rewrite Rabs_left by lra; lra|].
    assert (T : value f_two_pi = IZR 7074237752028440 * pw (-50)). { rewrite two_pi_float, value_sign. cbn [sign]. ring. }
    assert (G : exists Ns : Z, value (f_add x f_two_pi) = IZR Ns * pw (-50)).
    { destruct (Rle_or_lt (pw 3) (Rabs (value x + value f_two_pi))) as [D|D].
      - apply large_grid; [apply N|]. pose proof (abs_nearest_ge _ _ 3 N ltac:(lia) D) as H. rewrite pw_IZR in H by lia. change (IZR (2 ^ 3)) with 8 in H. lra.
      - exists (Nx + 7074237752028440)%Z. destruct (representable (Nx + 7074237752028440) (-50)) as (g & Bg & Vg); [|lia|].
        + apply lt_IZR. rewrite abs_IZR. apply Rmult_lt_reg_r with (1 := pw_pos (-50)). rewrite <- (Rabs_right (pw (-50))) at 1 by (pose proof (pw_pos (-50)); lra).
          rewrite <- Rabs_mult, plus_IZR, Rmult_plus_distr_r, <- Vx, <- T, <- pw_IZR, <- pw_add by lia. exact D.
        + rewrite <- Vg. apply (nearest_exact _ _ g); [|exact Bg|reflexivity]. rewrite Vg, plus_IZR, Rmult_plus_distr_r, <- Vx, <- T. exact N. }
    destruct G as [Ns Gs].
    destruct (fmod_negative (f_add x f_two_pi) f_two_pi) as (B & Rg & q & Q); [apply N|exact two_pi_binary64|lra|lra|].
    assert (K : forall y : spec_float, value y = value (f_fmod (f_add x f_two_pi) f_two_pi) + value f_two_pi ->
      exists k : Z, Rabs (value y - (value x + IZR k * value f_two_pi)) <= Rabs (value x + value f_two_pi) / 2 ^ 53).
    { intros y Y. exists (q + 2)%Z. rewrite Y, Q, plus_IZR.
      replace (value (f_add x f_two_pi) + IZR q * value f_two_pi + value f_two_pi - (value x + (IZR q + 2) * value f_two_pi)) with (value (f_add x f_two_pi) - (value x + value f_two_pi)) by ring. exact E. }
    assert (K0 : value (f_fmod (f_add x f_two_pi) f_two_pi) = 0 -> exists k : Z, Rabs (0 - (value x + IZR k * value f_two_pi)) <= Rabs (value x + value f_two_pi) / 2 ^ 53).
    { intros Z0. exists (q + 1)%Z. rewrite plus_IZR.
      replace (0 - (value x + (IZR q + 1) * value f_two_pi)) with (value (f_add x f_two_pi) - (value x + value f_two_pi)) by lra. exact E. }
    assert (M : exists Nm : Z, value (f_fmod (f_add x f_two_pi) f_two_pi) = IZR Nm * pw (-50)).
    { exists (Ns + q * 7074237752028440)%Z. rewrite Q, plus_IZR, mult_IZR, Gs, T. ring. }
    destruct M as [Nm M]. unfold f_remainder. assert (Sb : f_sign f_two_pi = false) by now rewrite two_pi_float. rewrite Sb.
    destruct (f_fmod (f_add x f_two_pi) f_two_pi) as [s|s| |s m e].
    + split; [split; [exact I|reflexivity]|]. cbn [value]. split; [lra|]. now apply K0.
    + destruct B as [[] _].
    + destruct B as [[] _].
    + assert (s = true) as ->. { destruct s; [reflexivity|]. rewrite value_sign in Rg. pose proof (pos_IZR m). pose proof (pw_pos e). cbn [sign] in Rg. assert (0 < IZR (Zpos m) * pw e) by nra. lra. }
      cbn [f_sign Bool.eqb].
      assert (Z0 : value (S754_finite true m e) < 0). { rewrite value_sign. pose proof (pos_IZR m). pose proof (pw_pos e). cbn [sign]. assert (0 < IZR (Zpos m) * pw e) by nra. lra. }
      set (fm := S754_finite true m e) in *.
      assert (F2 : finite (f_add fm f_two_pi)).
      { apply add_finite; [apply B|apply two_pi_binary64|]. apply Rle_lt_trans with (pw 3); [|apply pw_lt; lia]. rewrite pw_IZR by lia. change (IZR (2 ^ 3)) with 8. apply Rabs_le. lra. }
      pose proof (add_nearest _ _ B two_pi_binary64 F2) as N2. change (SFadd prec emax fm f_two_pi) with (f_add fm f_two_pi) in *.
      destruct (representable (Nm + 7074237752028440) (-50)) as (g & Bg & Vg); [|lia|].
      { assert (-7074237752028440 < Nm /\ Nm < 0)%Z; [|lia]. rewrite M in Rg, Z0. rewrite T in Rg. pose proof (pw_pos (-50)). split; apply lt_IZR; nra. }
      assert (V2 : value (f_add fm f_two_pi) = value fm + value f_two_pi).
      { apply (nearest_exact _ _ g N2 Bg). rewrite Vg, plus_IZR, M, T. ring. }
      split; [apply N2|]. split; [rewrite V2; lra|]. now apply K.
Qed.
Print Assumptions C111_any_longitude.

(** An infinity and not a number both give not a number; nothing is raised. *)
Theorem C111_not_finite :
  forall x : spec_float, ~ finite x -> f_domain_longitude x = S754_nan.
Proof. intros [s|[]| |s m e] N; try reflexivity; destruct (N I). Qed.
Print Assumptions C111_not_finite.

(** Over the reals a longitude that is already in the domain is kept (C25).  Here it is not: 0.1
    loses its last bits. *)
Definition tenth : spec_float := S754_finite false 7205759403792794 (-56).
Theorem C111_kept_refuted :
  ~ (forall x : spec_float, is_binary64 x -> 0 <= value x < value f_two_pi -> f_domain_longitude x = x).
Proof.
  intros H. assert (f_domain_longitude tenth = tenth) as D.
  { apply H; [now split|]. rewrite two_pi_value. unfold tenth. rewrite value_sign. cbn [sign]. change (pw (-56)) with (/ 2 ^ 56). cbn [pow]. lra. }
  vm_compute in D. discriminate D.
Qed.
Print Assumptions C111_kept_refuted.

(** 0.1, -0.25, a longitude 1e-17 west of Greenwich, and one of the 0 to 2 pi convention. *)
Definition west : spec_float := S754_finite true 4503599627370496 (-54).
Definition hair_west : spec_float := S754_finite true 6490371073168535 (-109).
Definition three_halves_pi : spec_float := S754_finite false 5305678314021330 (-50).
Example eastern_non_vacuous :
  is_binary64 tenth /\ 0 <= value tenth <= 4 /\ f_domain_longitude tenth = S754_finite false 7205759403792768 (-56).
Proof. split; [now split|]. split; [|now vm_compute]. unfold tenth. rewrite value_sign. cbn [sign]. change (pw (-56)) with (/ 2 ^ 56). cbn [pow]. lra. Qed.
Example western_non_vacuous :
  is_binary64 west /\ value west = - (1 / 4) /\ - 4 <= value west <= - (1 / 2 ^ 50) /\ f_domain_longitude west = S754_finite false 6792762775317784 (-50).
Proof.
  split; [now split|]. assert (value west = - (1 / 4)) as V. { unfold west. rewrite value_sign. cbn [sign]. change (pw (-54)) with (/ 2 ^ 54). cbn [pow]. lra. }
  split; [exact V|]. split; [rewrite V; cbn [pow]; lra|now vm_compute].
Qed.
Example domain_cases : f_domain_longitude hair_west = S754_zero false /\ f_domain_longitude three_halves_pi = three_halves_pi /\ f_domain_longitude f_two_pi = S754_zero false.
Proof. now vm_compute. Qed.
(** Five turns west: -31.4. *)
Definition far_west : spec_float := S754_finite true 8838314268714598 (-48).
Example any_longitude_non_vacuous :
  is_binary64 far_west /\ Rabs (value far_west) <= 2 ^ 800 /\ f_add far_west f_two_pi = S754_finite true 7069754830707488 (-48) /\ f_domain_longitude far_west = S754_finite false 4590511432654848 (-58).
Proof.
  split; [now split|]. split; [|split; now vm_compute]. apply Rle_trans with (2 ^ 10); [|apply Rle_pow; [lra|lia]].
  unfold far_west. rewrite value_sign. cbn [sign]. change (pw (-48)) with (/ 2 ^ 48). cbn [pow]. apply Rabs_le. lra.
Qed.
Example not_finite_non_vacuous : ~ finite (S754_infinity true) /\ ~ finite S754_nan.
Proof. split; intros []. Qed.
