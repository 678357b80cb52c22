(** Lemmas about the binary64 tile arithmetic. *)
Require Import ZArith Reals Lra Lia SpecFloat Bool.
Require Import Verif.Base Verif.BaseFacts Verif.CoordFloatModel Verif.FloatModel Verif.FloatSpec Verif.FloatProofs Verif.FloatNearest Verif.TileFloatModel Verif.TileFloatSpec.
Local Open Scope R_scope.
Local Notation pw := (powerRZ 2).

Lemma pos_IZR p : 0 < IZR (Zpos p).
Proof. apply IZR_lt. reflexivity. Qed.
Lemma circ_float : f_circumference = S754_finite false 5378777689100435 (-27).
Proof. vm_compute. reflexivity. Qed.
Lemma shift_float : f_origin_shift = S754_finite false 5378777689100435 (-28).
Proof. vm_compute. reflexivity. Qed.
Definition C : R := value f_circumference.
Lemma C_value : C = 5378777689100435 / 134217728.
Proof. unfold C. rewrite circ_float, value_sign. cbn [sign]. change (pw (-27)) with (/ (2 ^ 27)). replace (2 ^ 27) with 134217728 by ring. lra. Qed.
Lemma C_bounds : Rabs (C - 2 * PI * 6378137) <= 3 / 1000000000.
Proof. rewrite C_value. pose proof pi_bounds as B. apply Rabs_le. lra. Qed.
Lemma shift_value : value f_origin_shift = C / 2.
Proof. rewrite C_value, shift_float, value_sign. cbn [sign]. change (pw (-28)) with (/ (2 ^ 28)). replace (2 ^ 28) with 268435456 by ring. lra. Qed.
Lemma circ_binary64 : is_binary64 f_circumference.
Proof. rewrite circ_float. split; [exact I|vm_compute; reflexivity]. Qed.
Lemma shift_binary64 : is_binary64 f_origin_shift.
Proof. rewrite shift_float. split; [exact I|vm_compute; reflexivity]. Qed.

Lemma ceil_value x : finite x -> f_ceil x = Some (Rceil (value x)).
Proof.
  intros F. assert (E : f_ceil x = option_map Z.opp (f_floor (SFopp x))).
  { destruct x as [s| | |s m e]; try contradiction; [reflexivity|]. cbn [f_ceil SFopp f_floor option_map]. f_equal.
    destruct (0 <=? e)%Z; destruct s; cbn [negb]; change (Z.neg m) with (- Z.pos m)%Z; rewrite ?Z.mul_opp_l, ?Z.opp_involutive; reflexivity. }
  rewrite E, floor_value by (destruct x; try contradiction; exact I). cbn [option_map]. f_equal.
  replace (value (SFopp x)) with (- value x); [reflexivity|]. destruct x as [s| | |s m e]; try contradiction; cbn [SFopp]; [cbn [value]; ring|].
  rewrite !value_sign. destruct s; cbn [negb sign]; ring.
Qed.

(** *** Powers of two *)
Lemma of_Z_nearest n : Rabs (IZR n) < pw 900 -> nearest (IZR n) (f_of_Z n).
Proof.
  intros B. unfold f_of_Z. replace (IZR n) with (IZR n * pw 0) by (cbn [powerRZ]; ring). apply normalize_nearest, normalize_finite.
  cbn [powerRZ]. now rewrite Rmult_1_r.
Qed.
Lemma of_pow2 j : (0 <= j < 900)%Z -> is_binary64 (f_of_Z (2 ^ j)) /\ value (f_of_Z (2 ^ j)) = pw j.
Proof.
  intros J. assert (E : pw j = IZR (2 ^ j)) by (apply pw_IZR; lia).
  assert (N : nearest (pw j) (f_of_Z (2 ^ j))).
  { rewrite E. apply of_Z_nearest. rewrite <- E, Rabs_pos_eq by apply Rlt_le, pw_pos. apply pw_lt. lia. }
  split; [apply N|]. destruct (representable 1 j) as (g & B & V); [reflexivity|lia|]. apply (nearest_exact _ _ g N B). rewrite V. ring.
Qed.
Lemma normal_digits s m e : is_binary64 (S754_finite s m e) -> pw (-1021) <= Rabs (value (S754_finite s m e)) -> Zpos (digits2_pos m) = 53%Z.
Proof.
  intros B L. pose proof (valid_mantissa _ _ _ B) as (M & E & V). rewrite fexp_val in V.
  pose proof (digits_le (Zpos m) 53 ltac:(lia) ltac:(lia)) as D. cbn [Zdigits2] in D.
  rewrite value_sign, Rmult_assoc, abs_sign in L by (apply Rmult_le_pos; [apply Rlt_le, pos_IZR|apply Rlt_le, pw_pos]).
  assert (U : IZR (Zpos m) * pw e < pw (Zpos (digits2_pos m) + e)).
  { rewrite pw_add. apply Rmult_lt_compat_r; [apply pw_pos|]. rewrite pw_IZR by lia. apply IZR_lt. apply digits_pos. }
  assert (-1021 < Zpos (digits2_pos m) + e)%Z by (apply pw_lt_inv; lra). lia.
Qed.
Lemma scale_binary64 k x : is_binary64 x -> value x = 0 \/ (pw (-1021) <= Rabs (value x) /\ pw (-1021) <= Rabs (value x) * pw k < pw 900) -> is_binary64 (scale k x).
Proof.
  intros B H. destruct x as [s| | |s m e]; try (destruct B; contradiction); [exact B|].
  assert (P : 0 < IZR (Zpos m) * pw e) by (apply Rmult_lt_0_compat; [apply pos_IZR|apply pw_pos]).
  destruct H as [H|[H H']]; [rewrite value_sign in H; destruct s; cbn [sign] in H; lra|].
  pose proof (normal_digits s m e B H) as D. rewrite value_sign, Rmult_assoc, abs_sign in H' by lra. rewrite Rmult_assoc, <- pw_add in H'.
  pose proof (digits_pos m) as Dm. rewrite D in Dm.
  assert (L1 : (-1074 <= e + k)%Z).
  { enough (-1021 < 53 + (e + k))%Z by lia. apply pw_lt_inv. apply Rle_lt_trans with (1 := proj1 H'). rewrite (pw_add 53). apply Rmult_lt_compat_r; [apply pw_pos|].
    rewrite pw_IZR by lia. apply IZR_lt. apply Dm. }
  assert (L2 : (e + k <= 971)%Z).
  { enough (52 + (e + k) < 900)%Z by lia. apply pw_lt_inv. apply Rle_lt_trans with (2 := proj2 H'). rewrite (pw_add 52). apply Rmult_le_compat_r; [apply Rlt_le, pw_pos|].
    rewrite pw_IZR by lia. apply IZR_le. apply Dm. }
  cbn [scale]. apply valid_of; [|exact L2]. rewrite D, fexp_val. lia.
Qed.
(** Dividing by a power of two is exact unless the result is subnormal. *)
Lemma div_pow2 x j : is_binary64 x -> (0 <= j < 900)%Z -> value x <> 0 -> pw (-1021) <= Rabs (value x) * pw (- j) -> Rabs (value x) < pw 900 ->
  f_div x (f_of_Z (2 ^ j)) = scale (- j) x.
Proof.
  intros B J Nx L U. destruct (of_pow2 j J) as [Bj Vj]. pose proof (pw_pos j) as Pj. pose proof (pw_pos (- j)) as Pj'.
  assert (I1 : pw (- j) <= 1) by (change 1 with (pw 0); apply pw_le; lia). pose proof (Rabs_pos (value x)) as Ax.
  assert (Bs : is_binary64 (scale (- j) x)).
  { apply scale_binary64; [exact B|right]. split; [|split; [exact L|]]; nra. }
  assert (E : value x / value (f_of_Z (2 ^ j)) = value (scale (- j) x)).
  { rewrite Vj, scale_value. apply Rmult_eq_reg_r with (pw j); [|lra]. rewrite Rmult_assoc, pw_cancel. field. lra. }
  assert (F : finite (f_div x (f_of_Z (2 ^ j)))).
  { apply div_finite; [apply B|apply Bj|rewrite Vj; lra|]. rewrite E, scale_value, Rabs_mult, (Rabs_pos_eq (pw (- j))) by lra. nra. }
  assert (N : nearest (value (scale (- j) x)) (f_div x (f_of_Z (2 ^ j)))).
  { rewrite <- E. apply div_nearest; auto. rewrite Vj. lra. }
  apply same_value; [apply N|exact Bs|exact (nearest_exact _ _ _ N Bs eq_refl)|].
  rewrite (nearest_exact _ _ _ N Bs eq_refl), scale_value. intros Q. apply Rmult_integral in Q. destruct Q; [contradiction|lra].
Qed.

(** *** The resolution *)
Lemma C_range : pw 25 < C < pw 26.
Proof. rewrite C_value, !pw_IZR by lia. change (2 ^ 25)%Z with 33554432%Z. change (2 ^ 26)%Z with 67108864%Z. lra. Qed.
Lemma C_abs : Rabs C = C.
Proof. apply Rabs_pos_eq. rewrite C_value. lra. Qed.
Lemma C_scaled j : (-200 <= j <= 800)%Z -> pw (-1021) <= C * pw (- j) < pw 900.
Proof.
  intros J. pose proof C_range. pose proof (pw_pos (- j)). split.
  - apply Rle_trans with (pw 25 * pw (- j)); [rewrite <- pw_add; apply pw_le; lia|apply Rmult_le_compat_r; lra].
  - apply Rlt_le_trans with (pw 26 * pw (- j)); [apply Rmult_lt_compat_r; lra|rewrite <- pw_add; apply pw_le; lia].
Qed.
Lemma resolution_scaled p z : (0 <= p <= 100)%Z -> (0 <= z <= 600)%Z -> f_resolution (2 ^ p) z = scale (- (p + z)) f_circumference.
Proof.
  intros P Z. unfold f_resolution, f_initial_resolution. fold C in *.
  assert (E1 : f_div f_circumference (f_of_Z (2 ^ p)) = scale (- p) f_circumference).
  { apply div_pow2; [exact circ_binary64|lia| | |]; fold C; rewrite ?C_abs.
    - pose proof C_range. pose proof (pw_pos 25). lra.
    - apply C_scaled; lia.
    - pose proof (C_scaled 0 ltac:(lia)) as Q. change (pw (- 0)) with 1 in Q. lra. }
  rewrite E1, div_pow2; [|apply scale_binary64; [exact circ_binary64|right]|lia| | |]; rewrite ?scale_value; fold C; rewrite ?Rabs_mult, ?(Rabs_pos_eq (pw (- p))), ?C_abs by apply Rlt_le, pw_pos.
  - rewrite circ_float. cbn [scale]. f_equal. lia.
  - split; [|apply C_scaled; lia]. pose proof (C_scaled 0 ltac:(lia)) as Q. change (pw (- 0)) with 1 in Q. lra.
  - pose proof C_range. pose proof (pw_pos 25). pose proof (pw_pos (- p)). apply Rgt_not_eq, Rmult_lt_0_compat; lra.
  - rewrite Rmult_assoc, <- pw_add. replace (- p + - z)%Z with (- (p + z))%Z by lia. apply C_scaled; lia.
  - apply C_scaled; lia.
Qed.

(** *** The fraction of the world west (south) of a location *)
Definition shifted_x (x : spec_float) : spec_float := f_add x f_origin_shift.
Definition fraction (x : spec_float) : spec_float := f_div (shifted_x x) f_circumference.

Lemma shifted_nearest x : in_range x -> nearest (value x + C / 2) (shifted_x x).
Proof.
  intros [B R]. rewrite <- shift_value. apply add_nearest; [exact B|exact shift_binary64|]. apply add_finite; [apply B|apply shift_binary64|].
  rewrite shift_value. apply Rle_lt_trans with (1 := Rabs_triang _ _). pose proof C_range as Q.
  assert (A : Rabs (C / 2) < pw 26) by (pose proof (pw_pos 25); rewrite Rabs_pos_eq; lra).
  apply Rlt_trans with (pw 100 + pw 100); [apply Rplus_le_lt_compat; [exact R|apply Rlt_trans with (1 := A), pw_lt; lia]|].
  replace (pw 100 + pw 100) with (pw (100 + 1)) by (rewrite pw_add; cbn [powerRZ]; change (2 ^ Pos.to_nat 1) with (2 * 1); ring). apply pw_lt. lia.
Qed.
Lemma abs_nearest_ge x f k : nearest x f -> (-1074 <= k <= 971)%Z -> pw k <= Rabs x -> pw k <= Rabs (value f).
Proof.
  intros N K H. pose proof (pw_pos k) as P. unfold Rabs in H. destruct Rcase_abs in H.
  - destruct (representable (-1) k) as (g & B & V); [reflexivity|exact K|].
    assert (value f <= value g) by (apply (nearest_le x f g N B); lra). rewrite Rabs_left1; lra.
  - destruct (representable 1 k) as (g & B & V); [reflexivity|exact K|].
    assert (value g <= value f) by (apply (nearest_ge x f g N B); lra). rewrite Rabs_pos_eq; lra.
Qed.
Lemma abs_nearest_le x f k : nearest x f -> (-1074 <= k <= 971)%Z -> Rabs x <= pw k -> Rabs (value f) <= pw k.
Proof.
  intros N K H. pose proof (pw_pos k) as P. apply abs_interval in H.
  destruct (representable (-1) k) as (g & B & V); [reflexivity|exact K|]. destruct (representable 1 k) as (g' & B' & V'); [reflexivity|exact K|].
  assert (value f <= value g') by (apply (nearest_le x f g' N B'); lra). assert (value g <= value f) by (apply (nearest_ge x f g N B); lra).
  apply Rabs_le. lra.
Qed.
(** The exact sum is zero or not small. *)
Lemma sum_far x : in_range x -> value x + C / 2 = 0 \/ pw (-29) <= Rabs (value x + C / 2).
Proof.
  intros H. destruct (Rle_lt_dec (pw (-29)) (Rabs (value x + C / 2))) as [L|L]; [now right|left].
  destruct H as [B R]. destruct (binary64_form x B) as (M & k & E & M53 & K).
  assert (Bx : pw 23 < Rabs (value x)).
  { assert (Q : value x < - pw 23); [|rewrite Rabs_left; pose proof (pw_pos 23); lra]. unfold Rabs in L. pose proof C_range as CR.
    replace 25%Z with (23 + 2)%Z in CR by lia. rewrite pw_add in CR. change (pw 2) with (2 * (2 * 1)) in CR. assert (pw (-29) <= pw 23) by (apply pw_le; lia).
    destruct Rcase_abs in L; pose proof (pw_pos 23); lra. }
  assert (K29 : (-29 <= k)%Z).
  { enough (23 < 53 + k)%Z by lia. apply pw_lt_inv. apply Rlt_trans with (1 := Bx). rewrite E, Rabs_mult, (Rabs_pos_eq (pw k)), pw_add by apply Rlt_le, pw_pos.
    apply Rmult_lt_compat_r; [apply pw_pos|]. rewrite <- abs_IZR, pw_IZR by lia. apply IZR_lt; exact M53. }
  assert (S : value x + C / 2 = IZR (M * 2 ^ (k + 29) + 5378777689100435 * 2) * pw (-29)).
  { rewrite plus_IZR, !mult_IZR, <- pw_IZR by lia. rewrite C_value, E. replace k with ((k + 29) + -29)%Z at 1 by lia. rewrite pw_add.
    change (pw (-29)) with (/ (2 ^ 29)). replace (2 ^ 29) with 536870912 by ring. lra. }
  rewrite S in L |- *. set (n := (M * 2 ^ (k + 29) + 5378777689100435 * 2)%Z) in *. pose proof (pw_pos (-29)) as P.
  rewrite Rabs_mult, (Rabs_pos_eq (pw (-29))), <- abs_IZR in L by lra.
  assert (L' : IZR (Z.abs n) < 1) by (apply Rmult_lt_reg_r with (pw (-29)); lra). apply lt_IZR in L'. assert (n = 0)%Z by lia. rewrite H. ring.
Qed.
Lemma zero_binary64 : is_binary64 (S754_zero false).
Proof. split; [exact I|reflexivity]. Qed.
Lemma shifted_far x : in_range x -> value (shifted_x x) = 0 \/ pw (-29) <= Rabs (value (shifted_x x)).
Proof.
  intros H. pose proof (shifted_nearest x H) as N. destruct (sum_far x H) as [E|L].
  - left. rewrite E in N. exact (nearest_exact _ _ _ N zero_binary64 eq_refl).
  - right. apply (abs_nearest_ge _ _ _ N); [lia|exact L].
Qed.
(** The sum is zero only if it is exactly zero. *)
Lemma sum_zero x : in_range x -> value (shifted_x x) = 0 -> value x + C / 2 = 0.
Proof.
  intros H Z. destruct (sum_far x H) as [E|L]; [exact E|exfalso].
  assert (Q : pw (-29) <= Rabs (value (shifted_x x))) by (apply (abs_nearest_ge _ _ _ (shifted_nearest x H)); [lia|exact L]). rewrite Z, Rabs_R0 in Q. pose proof (pw_pos (-29)). lra.
Qed.
Lemma shifted_abs x : in_range x -> Rabs (value (shifted_x x)) <= pw 101.
Proof.
  intros H. apply (abs_nearest_le _ _ _ (shifted_nearest x H)); [lia|]. apply Rle_trans with (1 := Rabs_triang _ _). pose proof C_range as Q.
  assert (A : Rabs (C / 2) < pw 26) by (pose proof (pw_pos 25); rewrite Rabs_pos_eq; lra).
  replace (pw 101) with (pw 100 + pw 100) by (replace 101%Z with (100 + 1)%Z by lia; rewrite pw_add; change (pw 1) with (2 * 1); ring).
  apply Rplus_le_compat; [apply H|]. apply Rlt_le, Rlt_trans with (1 := A), pw_lt. lia.
Qed.
Lemma quotient_range x : in_range x -> value (shifted_x x) = 0 \/ pw (-55) <= Rabs (value (shifted_x x) / C) <= pw 76.
Proof.
  intros H. destruct (shifted_far x H) as [E|L]; [now left|right]. pose proof (shifted_abs x H) as U. pose proof C_range as CR. pose proof (pw_pos 25).
  unfold Rdiv. rewrite Rabs_mult, (Rabs_pos_eq (/ C)) by (apply Rlt_le, Rinv_0_lt_compat; lra). set (a := Rabs (value (shifted_x x))) in *. split.
  - apply Rmult_le_reg_r with C; [lra|]. rewrite Rmult_assoc, Rinv_l, Rmult_1_r by lra. apply Rle_trans with (pw (-55) * pw 26); [apply Rmult_le_compat_l; [apply Rlt_le, pw_pos|lra]|].
    rewrite <- pw_add. exact L.
  - apply Rmult_le_reg_r with C; [lra|]. rewrite Rmult_assoc, Rinv_l, Rmult_1_r by lra. apply Rle_trans with (pw 76 * pw 25); [|apply Rmult_le_compat_l; [apply Rlt_le, pw_pos|lra]].
    rewrite <- pw_add. exact U.
Qed.
Lemma C_nonzero : C <> 0.
Proof. pose proof C_range. pose proof (pw_pos 25). lra. Qed.
Lemma fraction_nearest x : in_range x -> nearest (value (shifted_x x) / C) (fraction x).
Proof.
  intros H. pose proof (shifted_nearest x H) as [B _]. apply div_nearest; [exact B|exact circ_binary64|exact C_nonzero|].
  apply div_finite; [apply B|apply circ_binary64|exact C_nonzero|]. fold C. destruct (quotient_range x H) as [->|Q].
  - unfold Rdiv. rewrite Rmult_0_l, Rabs_R0. apply pw_pos.
  - apply Rle_lt_trans with (1 := proj2 Q). apply pw_lt. lia.
Qed.
Lemma fraction_range x : in_range x -> value (fraction x) = 0 \/ pw (-55) <= Rabs (value (fraction x)) <= pw 76.
Proof.
  intros H. pose proof (fraction_nearest x H) as N. destruct (quotient_range x H) as [E|Q].
  - left. rewrite E in N. unfold Rdiv in N. rewrite Rmult_0_l in N. apply (nearest_exact _ _ (S754_zero false) N); [split; [exact I|reflexivity]|reflexivity].
  - right. split; [apply (abs_nearest_ge _ _ _ N); [lia|apply Q]|apply (abs_nearest_le _ _ _ N); [lia|apply Q]].
Qed.
Lemma scaled_between a k : pw (-55) <= a <= pw 76 -> (-900 <= k <= 800)%Z -> pw (-1021) <= a * pw k < pw 900.
Proof.
  intros A K. pose proof (pw_pos k). split.
  - apply Rle_trans with (pw (-55) * pw k); [rewrite <- pw_add; apply pw_le; lia|apply Rmult_le_compat_r; lra].
  - apply Rle_lt_trans with (pw 76 * pw k); [apply Rmult_le_compat_r; lra|rewrite <- pw_add; apply pw_lt; lia].
Qed.
Lemma pixels_scaled p z x : in_range x -> (0 <= p <= 100)%Z -> (0 <= z <= 600)%Z -> f_to_pixels (2 ^ p) z x = scale (p + z) (fraction x).
Proof.
  intros H P Z. unfold f_to_pixels. rewrite resolution_scaled by assumption. fold (shifted_x x). unfold fraction, f_div. apply div_scale.
  - apply (proj1 (shifted_nearest x H)).
  - apply circ_binary64.
  - exact C_nonzero.
  - fold C. destruct (quotient_range x H) as [E|Q]; [now left|right]. split; [|apply scaled_between; [exact Q|lia]].
    pose proof (scaled_between _ 0 Q ltac:(lia)) as S. change (pw 0) with 1 in S. lra.
Qed.
(** The index on either axis, for tile sizes that are powers of two. *)
Lemma index_value p z x : in_range x -> (0 <= p <= 100)%Z -> (0 <= z <= 600)%Z ->
  f_to_tile (2 ^ p) (f_to_pixels (2 ^ p) z x) = Some (Rceil (value (fraction x) * pw z) - 1)%Z.
Proof.
  intros H P Z. rewrite pixels_scaled by assumption. unfold f_to_tile. pose proof (fraction_nearest x H) as [B _].
  destruct (of_pow2 p ltac:(lia)) as [Bp Vp]. pose proof (pw_pos p).
  destruct (fraction_range x H) as [E|R].
  - assert (Fz : exists s, fraction x = S754_zero s).
    { destruct (fraction x) as [s| | |s m e]; try (destruct B; contradiction); [now exists s|]. exfalso. rewrite value_sign in E.
      pose proof (pw_pos e). pose proof (pos_IZR m). assert (0 < IZR (Z.pos m) * pw e) by (apply Rmult_lt_0_compat; assumption). destruct s; cbn [sign] in E; lra. }
    destruct Fz as [s Fz]. rewrite E, Fz. cbn [scale]. rewrite Rmult_0_l.
    assert (D : exists s', f_div (S754_zero s) (f_of_Z (2 ^ p)) = S754_zero s').
    { destruct (f_of_Z (2 ^ p)) as [s'| | |s' m e]; try (destruct Bp; contradiction); [cbn [value] in Vp; lra|]. exists (xorb s s'). reflexivity. }
    destruct D as [s' ->]. rewrite ceil_value by exact I. cbn [value option_map]. reflexivity.
  - assert (N0 : value (fraction x) <> 0). { intros Q. rewrite Q, Rabs_R0 in R. pose proof (pw_pos (-55)). lra. }
    pose proof (pw_pos (p + z)).
    rewrite div_pow2; [|apply scale_binary64; [exact B|right]|lia| | |]; rewrite ?scale_value, ?Rabs_mult, ?(Rabs_pos_eq (pw (p + z))) by apply Rlt_le, pw_pos.
    + rewrite ceil_value.
      * cbn [option_map]. do 3 f_equal. rewrite !scale_value, Rmult_assoc, <- pw_add. do 2 f_equal. lia.
      * destruct (fraction x); try (destruct B; contradiction); exact I.
    + split; [|apply scaled_between; [exact R|lia]]. pose proof (scaled_between _ 0 R ltac:(lia)) as S. change (pw 0) with 1 in S. lra.
    + intros Q. apply Rmult_integral in Q. destruct Q; [contradiction|lra].
    + rewrite Rmult_assoc, <- pw_add. apply scaled_between; [exact R|lia].
    + apply scaled_between; [exact R|lia].
Qed.

(** *** Errors *)
Lemma metres_range x : metres x -> in_range x.
Proof. intros [B R]. split; [exact B|]. apply Rle_trans with (1 := R). replace 33554432 with (pw 25) by (rewrite pw_IZR by lia; reflexivity). apply pw_le. lia. Qed.
Lemma pw53 : pw (-53) = / 9007199254740992.
Proof. change (pw (-53)) with (/ (2 ^ 53)). replace (2 ^ 53) with 9007199254740992 by ring. reflexivity. Qed.
Lemma rounded_error x r a : rounded x r -> Rabs x <= a -> Rabs (r - x) <= a * / 9007199254740992.
Proof.
  intros (d & D & E) A. rewrite pw53 in D. replace (r - x) with (x * d) by (rewrite E; ring). rewrite Rabs_mult.
  apply Rmult_le_compat; auto; apply Rabs_pos.
Qed.
Lemma C_numeric : 40075016 < C < 40075017.
Proof. rewrite C_value. lra. Qed.
Lemma fraction_error x : metres x -> Rabs (value (fraction x) * (2 * PI * 6378137) - (value x + PI * 6378137)) <= 2 / 100000000.
Proof.
  intros M. pose proof (metres_range x M) as H. destruct M as [B R]. pose proof (shifted_nearest x H) as [Bs _]. pose proof C_numeric as CN. pose proof C_bounds as CB.
  destruct (add_rounded x f_origin_shift (binary64_proper x B) (binary64_proper _ shift_binary64) ltac:(apply Bs)) as [R1 _].
  fold f_add in R1. change (f_add x f_origin_shift) with (shifted_x x) in R1. rewrite shift_value in R1. set (S := value (shifted_x x)) in *.
  assert (A1 : Rabs (value x + C / 2) <= 53591941) by (apply abs_interval in R; apply Rabs_le; lra).
  pose proof (rounded_error _ _ _ R1 A1) as E1.
  assert (Nq : normal (S / C)).
  { destruct (quotient_range x H) as [E|Q]; [left; unfold S; rewrite E; unfold Rdiv; ring|right]. unfold smallest_normal.
    apply Rle_trans with (2 := proj1 Q). apply pw_le. lia. }
  pose proof (fraction_nearest x H) as [Bf _].
  destruct (div_rounded (shifted_x x) f_circumference ltac:(apply Bf) ltac:(apply Bs) ltac:(apply circ_binary64) C_nonzero Nq) as [R2 _].
  change (SFdiv prec emax (shifted_x x) f_circumference) with (fraction x) in R2. fold C S in R2.
  set (u := value (fraction x)) in *.
  assert (AS : Rabs S <= 53591942).
  { replace S with ((value x + C / 2) + (S - (value x + C / 2))) by ring. apply Rle_trans with (1 := Rabs_triang _ _). lra. }
  assert (Aq : Rabs (S / C) <= 2).
  { unfold Rdiv. rewrite Rabs_mult, (Rabs_pos_eq (/ C)) by (apply Rlt_le, Rinv_0_lt_compat; lra).
    apply Rmult_le_reg_r with C; [lra|]. rewrite Rmult_assoc, Rinv_l by lra. lra. }
  assert (E2 : Rabs (u * C - S) <= 53591942 * / 9007199254740992).
  { destruct R2 as (d & D & E). rewrite pw53 in D. replace (u * C - S) with (S * d) by (rewrite E; field; lra). rewrite Rabs_mult.
    apply Rmult_le_compat; auto; apply Rabs_pos. }
  assert (Au : Rabs u <= 3).
  { apply Rmult_le_reg_r with C; [lra|]. rewrite <- (Rabs_pos_eq C) at 1 by lra. rewrite <- Rabs_mult.
    replace (u * C) with ((u * C - S) + S) by ring. apply Rle_trans with (1 := Rabs_triang _ _). lra. }
  replace (u * (2 * PI * 6378137) - (value x + PI * 6378137)) with
    ((u * C - S) + (S - (value x + C / 2)) + (/ 2 - u) * (C - 2 * PI * 6378137)) by field.
  assert (E3 : Rabs ((/ 2 - u) * (C - 2 * PI * 6378137)) <= 7 / 2 * Rabs (C - 2 * PI * 6378137)).
  { rewrite Rabs_mult. apply Rmult_le_compat_r; [apply Rabs_pos|]. apply abs_interval in Au. apply Rabs_le. lra. }
  apply abs_interval in E1, E2, E3, CB. assert (CB' : Rabs (C - 2 * PI * 6378137) <= 17 / 10000000000) by (rewrite C_value; pose proof pi_bounds; apply Rabs_le; lra).
  apply Rabs_le. lra.
Qed.
Lemma resolution_value p z : (0 <= p <= 100)%Z -> (0 <= z <= 600)%Z -> value (f_resolution (2 ^ p) z) = C * pw (- (p + z)) /\ is_binary64 (f_resolution (2 ^ p) z).
Proof.
  intros P Z. rewrite resolution_scaled by assumption. split; [apply scale_value|]. apply scale_binary64; [exact circ_binary64|right]. fold C. rewrite C_abs.
  split; [|apply C_scaled; lia]. pose proof (C_scaled 0 ltac:(lia)) as Q. change (pw (- 0)) with 1 in Q. lra.
Qed.
Definition edge_product (p z k : Z) : spec_float := f_mul (f_of_Z (k * 2 ^ p)) (f_resolution (2 ^ p) z).
Lemma count_float p z k : (0 <= p <= 100)%Z -> (0 <= z <= 600)%Z -> (0 <= k <= 2 ^ z)%Z ->
  nearest (IZR k * pw p) (f_of_Z (k * 2 ^ p)) /\ rounded (IZR k * pw p) (value (f_of_Z (k * 2 ^ p))).
Proof.
  intros P Z K. assert (E : IZR (k * 2 ^ p) = IZR k * pw p) by (rewrite mult_IZR, pw_IZR by lia; reflexivity).
  assert (A : Rabs (IZR (k * 2 ^ p)) < pw 900).
  { rewrite E. pose proof (pw_pos p). assert (0 <= IZR k) by (apply IZR_le; lia). rewrite Rabs_pos_eq by (apply Rmult_le_pos; lra).
    apply Rle_lt_trans with (pw z * pw p); [apply Rmult_le_compat_r; [lra|]; rewrite pw_IZR by lia; apply IZR_le; lia|]. rewrite <- pw_add. apply pw_lt. lia. }
  pose proof (of_Z_nearest _ A) as N. rewrite E in N. split; [exact N|].
  destruct (normalize_rounded (k * 2 ^ p) 0 false ltac:(lia)) as [R _]; [apply N|]. change (pw 0) with 1 in R. rewrite Rmult_1_r, E in R. exact R.
Qed.
Lemma product_float p z k : (0 <= p <= 100)%Z -> (0 <= z <= 600)%Z -> (0 <= k <= 2 ^ z)%Z ->
  is_binary64 (edge_product p z k) /\ nearest (value (f_of_Z (k * 2 ^ p)) * (C * pw (- (p + z)))) (edge_product p z k) /\
  Rabs (value (edge_product p z k) - IZR k * pw (- z) * C) <= 10 / 1000000000.
Proof.
  intros P Z K. destruct (count_float p z k P Z K) as [N Rc]. destruct (resolution_value p z P Z) as [Rv Br]. pose proof C_numeric as CN.
  set (c := value (f_of_Z (k * 2 ^ p))) in *. set (w := IZR k * pw (- z)).
  assert (W : 0 <= w <= 1).
  { unfold w. pose proof (pw_pos (- z)). assert (0 <= IZR k) by (apply IZR_le; lia). split; [apply Rmult_le_pos; lra|].
    rewrite <- (pw_cancel z). rewrite (Rmult_comm (pw (- z))). apply Rmult_le_compat_r; [lra|]. rewrite pw_IZR by lia. apply IZR_le. lia. }
  destruct Rc as (d & D & Ec). rewrite pw53 in D.
  assert (Ep : c * (C * pw (- (p + z))) = w * C * (1 + d)).
  { rewrite Ec. unfold w. replace (- (p + z))%Z with (- p + - z)%Z by lia. rewrite pw_add.
    replace (IZR k * pw p * (1 + d) * (C * (pw (- p) * pw (- z)))) with (IZR k * (1 + d) * C * pw (- z) * (pw (- p) * pw p)) by ring. rewrite pw_cancel. ring. }
  assert (WC : 0 <= w * C <= 40075017) by (split; [apply Rmult_le_pos; lra|apply Rle_trans with (1 * C); [apply Rmult_le_compat_r; lra|lra]]).
  assert (D' := abs_interval _ _ D).
  assert (Ap : Rabs (w * C * (1 + d)) <= 40075018).
  { rewrite Rabs_mult, (Rabs_pos_eq (w * C)), (Rabs_pos_eq (1 + d)) by lra. nra. }
  assert (F : finite (edge_product p z k)).
  { unfold edge_product. apply mul_finite; [apply N|apply Br|]. rewrite Rv. fold c. rewrite Ep. apply Rle_lt_trans with (1 := Ap).
    apply Rlt_trans with (pw 26); [rewrite pw_IZR by lia; change (2 ^ 26)%Z with 67108864%Z; lra|apply pw_lt; lia]. }
  assert (Nm : nearest (c * (C * pw (- (p + z)))) (edge_product p z k)).
  { rewrite <- Rv. unfold c. apply mul_nearest; [apply N|exact Br|exact F]. }
  split; [apply Nm|]. split; [exact Nm|].
  assert (Rm : rounded (w * C * (1 + d)) (value (edge_product p z k))).
  { rewrite <- Ep, <- Rv. apply mul_rounded; [exact F|apply N|apply Br|]. fold c. rewrite Rv, Ep.
    destruct (Z.eq_dec k 0) as [->|Nk]; [left; unfold w; rewrite !Rmult_0_l; reflexivity|right]. unfold smallest_normal.
    rewrite Rabs_mult, (Rabs_pos_eq (w * C)), (Rabs_pos_eq (1 + d)) by lra.
    assert (Hw : pw (- z) <= w). { unfold w. pose proof (pw_pos (- z)). assert (1 <= IZR k) by (apply IZR_le; lia). rewrite <- (Rmult_1_l (pw (- z))) at 1. apply Rmult_le_compat_r; lra. }
    apply Rle_trans with (pw (- z) * 1); [rewrite Rmult_1_r; apply pw_le; lia|]. rewrite Rmult_assoc. apply Rmult_le_compat; [apply Rlt_le, pw_pos|lra|exact Hw|nra]. }
  pose proof (rounded_error _ _ _ Rm Ap) as E2. fold w. apply abs_interval in E2.
  assert (E1 : Rabs (w * C * d) <= 40075017 * / 9007199254740992).
  { rewrite Rabs_mult, (Rabs_pos_eq (w * C)) by lra. apply Rmult_le_compat; [lra|apply Rabs_pos|lra|exact D]. }
  apply abs_interval in E1. apply Rabs_le. lra.
Qed.
Lemma edge_float p z k : (0 <= p <= 100)%Z -> (0 <= z <= 600)%Z -> (0 <= k <= 2 ^ z)%Z ->
  nearest (value (edge_product p z k) - C / 2) (f_to_meters (2 ^ p) z (k * 2 ^ p)) /\
  Rabs (value (f_to_meters (2 ^ p) z (k * 2 ^ p)) - (IZR k * pw (- z) * C - C / 2)) <= 15 / 1000000000.
Proof.
  intros P Z K. destruct (product_float p z k P Z K) as (Be & _ & E). pose proof C_numeric as CN. unfold f_to_meters. fold (edge_product p z k).
  set (w := IZR k * pw (- z)) in *.
  assert (W : 0 <= w <= 1).
  { unfold w. pose proof (pw_pos (- z)). assert (0 <= IZR k) by (apply IZR_le; lia). split; [apply Rmult_le_pos; lra|].
    rewrite <- (pw_cancel z). rewrite (Rmult_comm (pw (- z))). apply Rmult_le_compat_r; [lra|]. rewrite pw_IZR by lia. apply IZR_le. lia. }
  assert (WC : 0 <= w * C <= C) by nra. apply abs_interval in E.
  assert (A : Rabs (value (edge_product p z k) - C / 2) <= 20037510) by (apply Rabs_le; lra).
  assert (F : finite (f_sub (edge_product p z k) f_origin_shift)).
  { apply sub_finite; [apply Be|apply shift_binary64|]. rewrite shift_value. apply Rle_lt_trans with (1 := A).
    apply Rlt_trans with (pw 26); [rewrite pw_IZR by lia; change (2 ^ 26)%Z with 67108864%Z; lra|apply pw_lt; lia]. }
  split; [rewrite <- shift_value; apply sub_nearest; [exact Be|exact shift_binary64|exact F]|].
  destruct (sub_rounded _ _ (binary64_proper _ Be) (binary64_proper _ shift_binary64) F) as [R _]. rewrite shift_value in R.
  pose proof (rounded_error _ _ _ R A) as E2. apply abs_interval in E2. change (SFsub prec emax (edge_product p z k) f_origin_shift) with (f_sub (edge_product p z k) f_origin_shift) in E2.
  apply Rabs_le. lra.
Qed.
