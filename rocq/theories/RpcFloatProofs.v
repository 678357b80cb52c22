(** Proofs about formulas in binary64, underflow included. *)
Require Import ZArith Reals List Lra Lia SpecFloat.
Require Import Verif.Base Verif.BaseFacts Verif.CoordModel Verif.CoordFloatModel Verif.RpcModel
  Verif.RoundModel Verif.RoundSpec Verif.RoundProofs Verif.FloatModel Verif.FloatSpec Verif.FloatProofs Verif.FloatNearest
  Verif.RpcFloatModel Verif.RpcFloatSpec.
Import ListNotations.
Local Open Scope R_scope.

(** *** Single operations *)
Definition tiny : R := pw (-1074).
Lemma tiny_pos : 0 < tiny.
Proof. apply pw_pos. Qed.

Lemma nearest_subnormal x f : nearest x f -> Rabs x < smallest_normal -> Rabs (value f - x) <= tiny.
Proof.
  intros [B N] S. set (n := Rfloor (x * pw 1074)).
  assert (E : pw 1074 * tiny = 1) by (unfold tiny; rewrite <- pw_add; reflexivity). pose proof tiny_pos as T.
  destruct (Rfloor_spec (x * pw 1074)) as [L U]. fold n in L, U.
  assert (X : x = x * pw 1074 * tiny) by (rewrite Rmult_assoc, E; ring).
  assert (Q : Rabs (x * pw 1074) < pw 52).
  { rewrite Rabs_mult, (Rabs_pos_eq (pw 1074)) by apply Rlt_le, pw_pos. unfold smallest_normal in S.
    apply Rlt_le_trans with (pw (-1022) * pw 1074); [apply Rmult_lt_compat_r; [apply pw_pos|exact S]|]. rewrite <- pw_add. apply Rle_refl. }
  destruct (representable n (-1074)) as (g & Bg & Vg); [|lia|].
  { apply Rabs_def2 in Q. rewrite (pw_IZR 52) in Q by lia. destruct Q as [Q1 Q2].
    assert (- 2 ^ 52 - 1 < n)%Z. { apply lt_IZR. rewrite minus_IZR, opp_IZR. lra. }
    assert (n < 2 ^ 52)%Z. { apply lt_IZR. lra. }
    lia. }
  apply Rle_trans with (1 := proj1 (N g Bg)). rewrite Vg. fold tiny. rewrite X at 1. rewrite <- Rmult_minus_distr_r, Rabs_mult, (Rabs_pos_eq tiny) by lra.
  rewrite <- (Rmult_1_l tiny) at 2. apply Rmult_le_compat_r; [lra|]. apply Rabs_le. lra.
Qed.

Lemma rounded_abs x r : FloatSpec.rounded x r -> Rabs (r - x) <= binary64 * Rabs x + tiny.
Proof.
  intros (d & D & ->). rewrite binary64_pw in D. replace (x * (1 + d) - x) with (d * x) by ring. rewrite Rabs_mult. pose proof tiny_pos. pose proof (Rabs_pos x). nra.
Qed.
Lemma binary64_pos : 0 < binary64.
Proof. rewrite <- binary64_pw. apply pw_pos. Qed.
Lemma subnormal_abs x f : nearest x f -> Rabs x < smallest_normal -> Rabs (value f - x) <= binary64 * Rabs x + tiny.
Proof. intros N S. pose proof (nearest_subnormal x f N S). pose proof binary64_pos. pose proof (Rabs_pos x). nra. Qed.

Lemma mul_abs x y : is_binary64 x -> is_binary64 y -> Rabs (value x * value y) < pw 900 ->
  is_binary64 (f_mul x y) /\ Rabs (value (f_mul x y) - value x * value y) <= binary64 * Rabs (value x * value y) + tiny.
Proof.
  intros X Y B. assert (F : finite (f_mul x y)) by (apply mul_finite; [apply X|apply Y|exact B]).
  pose proof (mul_nearest x y X Y F) as N. split; [apply N|].
  destruct (Rlt_le_dec (Rabs (value x * value y)) smallest_normal) as [S|S]; [now apply subnormal_abs|].
  apply rounded_abs, mul_rounded; [exact F|apply X|apply Y|now right].
Qed.
Lemma div_abs x y : is_binary64 x -> is_binary64 y -> value y <> 0 -> Rabs (value x / value y) < pw 900 ->
  is_binary64 (f_div x y) /\ Rabs (value (f_div x y) - value x / value y) <= binary64 * Rabs (value x / value y) + tiny.
Proof.
  intros X Y Z B. assert (F : finite (f_div x y)) by (apply div_finite; [apply X|apply Y|exact Z|exact B]).
  pose proof (div_nearest x y X Y Z F) as N. split; [apply N|].
  destruct (Rlt_le_dec (Rabs (value x / value y)) smallest_normal) as [S|S]; [now apply subnormal_abs|].
  apply rounded_abs, div_rounded; [exact F|apply X|apply Y|exact Z|now right].
Qed.
Lemma add_abs x y : is_binary64 x -> is_binary64 y -> Rabs (value x + value y) < pw 900 ->
  is_binary64 (f_add x y) /\ Rabs (value (f_add x y) - (value x + value y)) <= binary64 * Rabs (value x + value y) + tiny.
Proof.
  intros X Y B. assert (F : finite (f_add x y)) by (apply add_finite; [apply X|apply Y|exact B]).
  pose proof (add_nearest x y X Y F) as N. split; [apply N|]. apply rounded_abs, add_rounded; auto using binary64_proper.
Qed.
Lemma sub_abs x y : is_binary64 x -> is_binary64 y -> Rabs (value x - value y) < pw 900 ->
  is_binary64 (f_sub x y) /\ Rabs (value (f_sub x y) - (value x - value y)) <= binary64 * Rabs (value x - value y) + tiny.
Proof.
  intros X Y B. assert (F : finite (f_sub x y)) by (apply sub_finite; [apply X|apply Y|exact B]).
  pose proof (sub_nearest x y X Y F) as N. split; [apply N|]. apply rounded_abs, sub_rounded; auto using binary64_proper.
Qed.

(** *** Formulas *)
Inductive fexpr := FNum (f : spec_float) | FAdd (a b : fexpr) | FSub (a b : fexpr) | FMul (a b : fexpr) | FDiv (a : fexpr) (s : spec_float).
Fixpoint feval (e : fexpr) : spec_float :=
  match e with
  | FNum f => f
  | FAdd a b => f_add (feval a) (feval b)
  | FSub a b => f_sub (feval a) (feval b)
  | FMul a b => f_mul (feval a) (feval b)
  | FDiv a s => f_div (feval a) s
  end.
Fixpoint shape (e : fexpr) : expr :=
  match e with
  | FNum f => Num (value f)
  | FAdd a b => Add (shape a) (shape b)
  | FSub a b => Sub (shape a) (shape b)
  | FMul a b => Mul (shape a) (shape b)
  | FDiv a s => Div (shape a) (Num (value s))
  end.
(** Binary64 leaves, divisors from 2^-100 on, and no part beyond 2^100. *)
Fixpoint moderate (e : fexpr) : Prop :=
  magnitude (shape e) <= pw 100 /\
  match e with
  | FNum f => is_binary64 f
  | FAdd a b | FSub a b | FMul a b => moderate a /\ moderate b
  | FDiv a s => moderate a /\ is_binary64 s /\ pw (-100) <= Rabs (value s)
  end.
(** The absolute error, as an exponent of two, that underflow causes. *)
Fixpoint dust (e : fexpr) : Z :=
  match e with
  | FNum _ => -1074
  | FAdd a b | FSub a b => Z.max (dust a) (dust b) + 3
  | FMul a b => Z.max (dust a) (dust b) + 105
  | FDiv a _ => dust a + 102
  end.

Lemma dust_tiny e : (-1074 <= dust e)%Z.
Proof. induction e; cbn [dust]; lia. Qed.
Lemma moderate_magnitude e : moderate e -> magnitude (shape e) <= pw 100.
Proof. destruct e; cbn [moderate]; tauto. Qed.
Lemma moderate_polynomial e : moderate e -> polynomial (shape e).
Proof.
  induction e; cbn [moderate shape polynomial]; intros M; [exact I|tauto|tauto|tauto|].
  destruct M as (_ & Ma & _ & S). split; [tauto|]. intros Z. rewrite Z, Rabs_R0 in S. pose proof (pw_pos (-100)). lra.
Qed.

Lemma rounded_dust u r y Y M A d t : 0 <= u -> 1 <= A -> Rabs (r - y) <= u * Rabs y + t -> Rabs (y - Y) <= (A - 1) * M + d -> Rabs Y <= M ->
  Rabs (r - Y) <= ((1 + u) * A - 1) * M + (1 + u) * d + t.
Proof.
  intros Hu HA Hr Hy HY. replace (r - Y) with ((r - y) + (y - Y)) by ring. apply Rle_trans with (1 := Rabs_triang _ _).
  assert (Ay : Rabs y <= Rabs (y - Y) + Rabs Y) by (replace y with ((y - Y) + Y) at 1 by ring; apply Rabs_triang).
  pose proof (Rabs_pos (y - Y)). pose proof (Rabs_pos Y). nra.
Qed.
Lemma product_dust x X MX A da y Y MY B db : 1 <= A -> 1 <= B -> 0 <= da -> 0 <= db ->
  Rabs (x - X) <= (A - 1) * MX + da -> Rabs X <= MX -> Rabs (y - Y) <= (B - 1) * MY + db -> Rabs Y <= MY ->
  Rabs (x * y - X * Y) <= (A * B - 1) * (MX * MY) + (da * (B * MY) + db * (A * MX) + da * db).
Proof.
  intros HA HB D1 D2 Hx HX Hy HY. replace (x * y - X * Y) with ((x - X) * (y - Y) + (x - X) * Y + X * (y - Y)) by ring.
  eapply Rle_trans; [apply Rabs_triang|]. eapply Rle_trans; [apply Rplus_le_compat_r, Rabs_triang|]. rewrite !Rabs_mult.
  assert (H1 : Rabs (x - X) * Rabs (y - Y) <= ((A - 1) * MX + da) * ((B - 1) * MY + db)) by (apply Rmult_le_compat; auto using Rabs_pos).
  assert (H2 : Rabs (x - X) * Rabs Y <= ((A - 1) * MX + da) * MY) by (apply Rmult_le_compat; auto using Rabs_pos).
  assert (H3 : Rabs X * Rabs (y - Y) <= MX * ((B - 1) * MY + db)) by (apply Rmult_le_compat; auto using Rabs_pos).
  nra.
Qed.
Lemma value_dust x X M A d : Rabs (x - X) <= (A - 1) * M + d -> Rabs X <= M -> Rabs x <= A * M + d.
Proof. intros H HX. replace x with ((x - X) + X) at 1 by ring. apply Rle_trans with (1 := Rabs_triang _ _). lra. Qed.

Lemma feval_error e : moderate e -> (dust e <= 0)%Z -> (roundings (shape e) <= 256)%nat ->
  is_binary64 (feval e) /\
  Rabs (value (feval e) - exact (shape e)) <= growth binary64 (roundings (shape e)) * magnitude (shape e) + pw (dust e).
Proof.
  pose proof binary64_pos as U0. assert (U1 : binary64 <= / 4) by (rewrite <- binary64_pw; apply Rle_trans with (pw (-2)); [apply pw_le; lia|change (pw (-2)) with (/ 2 ^ 2); lra]).
  pose proof tiny_pos as T0.
  assert (Q1 : 1 <= pw 100) by (change 1 with (pw 0); apply pw_le; lia).
  assert (Big : forall e d, moderate e -> (d <= 0)%Z -> (roundings (shape e) <= 256)%nat ->
    Rabs (value (feval e) - exact (shape e)) <= growth binary64 (roundings (shape e)) * magnitude (shape e) + pw d ->
    Rabs (value (feval e)) <= pw 102).
  { intros e' d Me D0 R0 H. unfold growth in H. pose proof (value_dust _ _ _ _ _ H (exact_le_magnitude _)) as H'. clear H. rename H' into H.
    pose proof (small_growth _ R0) as G. unfold growth in G. pose proof (moderate_magnitude _ Me). pose proof (magnitude_nonneg (shape e')).
    assert (pw d <= 1) by (change 1 with (pw 0); apply pw_le; lia). replace (pw 102) with (4 * pw 100) by (change 102%Z with (2 + 100)%Z; rewrite pw_add; change (pw 2) with (2 ^ 2); ring).
    set (q := pw 100) in *. set (A := (1 + binary64) ^ roundings (shape e')) in *. set (M := magnitude (shape e')) in *.
    assert (A <= 2) by lra. nra. }
  unfold growth in *. induction e as [f|a IHa b IHb|a IHa b IHb|a IHa b IHb|a IHa s]; cbn [moderate]; intros M D K.
  - cbn [feval shape exact magnitude roundings dust pow]. split; [tauto|]. rewrite Rminus_diag_eq, Rabs_R0 by reflexivity. pose proof (pw_pos (-1074)). lra.
  - destruct M as (M0 & Ma & Mb). cbn [dust] in D. cbn [shape roundings] in K. destruct IHa as [Ba Ea]; [exact Ma|lia|lia|]. destruct IHb as [Bb Eb]; [exact Mb|lia|lia|].
    pose proof (Big a (dust a) Ma ltac:(lia) ltac:(lia) Ea) as Xa. pose proof (Big b (dust b) Mb ltac:(lia) ltac:(lia) Eb) as Xb.
    destruct (add_abs (feval a) (feval b) Ba Bb) as [B E].
    { apply Rle_lt_trans with (1 := Rabs_triang _ _). apply Rle_lt_trans with (pw 102 + pw 102); [lra|]. apply Rlt_trans with (pw 104); [|apply pw_lt; lia].
      replace (pw 104) with (4 * pw 102) by (change 104%Z with (2 + 102)%Z; rewrite pw_add; change (pw 2) with (2 ^ 2); ring). pose proof (pw_pos 102). lra. }
    split; [exact B|]. cbn [feval shape exact roundings]. pose proof (pw_le _ _ (Z.le_max_l (dust a) (dust b))) as La. pose proof (pw_le _ _ (Z.le_max_r (dust a) (dust b))) as Lb.
    cbn [dust]. pose proof (dust_tiny a) as Ta. rewrite pw_add. assert (Lt : tiny <= pw (Z.max (dust a) (dust b))) by (apply pw_le; lia).
    change (pw 3) with (2 ^ 3). set (D' := pw (Z.max (dust a) (dust b))) in *. clearbody D'.
    assert (G : Rabs (value (f_add (feval a) (feval b)) - (exact (shape a) + exact (shape b)))
      <= ((1 + binary64) ^ S (Nat.max (roundings (shape a)) (roundings (shape b))) - 1) * (magnitude (shape a) + magnitude (shape b)) + D' * 2 ^ 3).
    { cbn [pow]. pose proof (grow_ge binary64 (Nat.max (roundings (shape a)) (roundings (shape b))) ltac:(lra)) as GA.
      eapply Rle_trans; [apply (rounded_dust binary64 _ _ _ (magnitude (shape a) + magnitude (shape b)) _ (D' + D') tiny ltac:(lra) GA E)|].
      - replace (value (feval a) + value (feval b) - (exact (shape a) + exact (shape b))) with ((value (feval a) - exact (shape a)) + (value (feval b) - exact (shape b))) by ring.
        eapply Rle_trans; [apply Rabs_triang|]. pose proof (grow_mono binary64 (roundings (shape a)) (Nat.max (roundings (shape a)) (roundings (shape b))) ltac:(lra) ltac:(lia)).
        pose proof (grow_mono binary64 (roundings (shape b)) (Nat.max (roundings (shape a)) (roundings (shape b))) ltac:(lra) ltac:(lia)).
        pose proof (magnitude_nonneg (shape a)). pose proof (magnitude_nonneg (shape b)). nra.
      - eapply Rle_trans; [apply Rabs_triang|]. pose proof (exact_le_magnitude (shape a)). pose proof (exact_le_magnitude (shape b)). lra.
      - rewrite !Rplus_assoc. apply Rplus_le_compat_l. assert (0 <= D') by lra. nra. }
    destruct a as [x|?|?|?|?], b as [y|?|?|?|?]; try exact G. clear G. cbn [shape magnitude exact roundings Nat.max feval pow].
    eapply Rle_trans; [exact E|]. cbn [feval]. pose proof (Rabs_pos (value x + value y)). nra.
  - destruct M as (M0 & Ma & Mb). cbn [dust] in D. cbn [shape roundings] in K. destruct IHa as [Ba Ea]; [exact Ma|lia|lia|]. destruct IHb as [Bb Eb]; [exact Mb|lia|lia|].
    pose proof (Big a (dust a) Ma ltac:(lia) ltac:(lia) Ea) as Xa. pose proof (Big b (dust b) Mb ltac:(lia) ltac:(lia) Eb) as Xb.
    destruct (sub_abs (feval a) (feval b) Ba Bb) as [B E].
    { unfold Rminus. apply Rle_lt_trans with (1 := Rabs_triang _ _). rewrite Rabs_Ropp. apply Rle_lt_trans with (pw 102 + pw 102); [lra|]. apply Rlt_trans with (pw 104); [|apply pw_lt; lia].
      replace (pw 104) with (4 * pw 102) by (change 104%Z with (2 + 102)%Z; rewrite pw_add; change (pw 2) with (2 ^ 2); ring). pose proof (pw_pos 102). lra. }
    split; [exact B|]. cbn [feval shape exact roundings]. pose proof (pw_le _ _ (Z.le_max_l (dust a) (dust b))) as La. pose proof (pw_le _ _ (Z.le_max_r (dust a) (dust b))) as Lb.
    cbn [dust]. pose proof (dust_tiny a) as Ta. rewrite pw_add. assert (Lt : tiny <= pw (Z.max (dust a) (dust b))) by (apply pw_le; lia).
    change (pw 3) with (2 ^ 3). set (D' := pw (Z.max (dust a) (dust b))) in *. clearbody D'.
    assert (G : Rabs (value (f_sub (feval a) (feval b)) - (exact (shape a) - exact (shape b)))
      <= ((1 + binary64) ^ S (Nat.max (roundings (shape a)) (roundings (shape b))) - 1) * (magnitude (shape a) + magnitude (shape b)) + D' * 2 ^ 3).
    { cbn [pow]. pose proof (grow_ge binary64 (Nat.max (roundings (shape a)) (roundings (shape b))) ltac:(lra)) as GA.
      eapply Rle_trans; [apply (rounded_dust binary64 _ _ _ (magnitude (shape a) + magnitude (shape b)) _ (D' + D') tiny ltac:(lra) GA E)|].
      - replace (value (feval a) - value (feval b) - (exact (shape a) - exact (shape b))) with ((value (feval a) - exact (shape a)) + - (value (feval b) - exact (shape b))) by ring.
        eapply Rle_trans; [apply Rabs_triang|]. rewrite Rabs_Ropp. pose proof (grow_mono binary64 (roundings (shape a)) (Nat.max (roundings (shape a)) (roundings (shape b))) ltac:(lra) ltac:(lia)).
        pose proof (grow_mono binary64 (roundings (shape b)) (Nat.max (roundings (shape a)) (roundings (shape b))) ltac:(lra) ltac:(lia)).
        pose proof (magnitude_nonneg (shape a)). pose proof (magnitude_nonneg (shape b)). nra.
      - unfold Rminus. eapply Rle_trans; [apply Rabs_triang|]. rewrite Rabs_Ropp. pose proof (exact_le_magnitude (shape a)). pose proof (exact_le_magnitude (shape b)). lra.
      - rewrite !Rplus_assoc. apply Rplus_le_compat_l. assert (0 <= D') by lra. nra. }
    destruct a as [x|?|?|?|?], b as [y|?|?|?|?]; try exact G. clear G. cbn [shape magnitude exact roundings Nat.max feval pow].
    eapply Rle_trans; [exact E|]. cbn [feval]. pose proof (Rabs_pos (value x - value y)). nra.
  - destruct M as (M0 & Ma & Mb). cbn [dust] in D. cbn [shape roundings] in K. destruct IHa as [Ba Ea]; [exact Ma|lia|lia|]. destruct IHb as [Bb Eb]; [exact Mb|lia|lia|].
    pose proof (Big a (dust a) Ma ltac:(lia) ltac:(lia) Ea) as Xa. pose proof (Big b (dust b) Mb ltac:(lia) ltac:(lia) Eb) as Xb.
    destruct (mul_abs (feval a) (feval b) Ba Bb) as [B E].
    { rewrite Rabs_mult. apply Rle_lt_trans with (pw 102 * pw 102); [apply Rmult_le_compat; auto using Rabs_pos|]. rewrite <- pw_add. apply pw_lt. lia. }
    split; [exact B|]. cbn [feval shape exact roundings magnitude]. pose proof (pw_le _ _ (Z.le_max_l (dust a) (dust b))) as La. pose proof (pw_le _ _ (Z.le_max_r (dust a) (dust b))) as Lb.
    cbn [dust]. pose proof (dust_tiny a) as Ta. rewrite pw_add. assert (Lt : tiny <= pw (Z.max (dust a) (dust b))) by (apply pw_le; lia).
    assert (L1 : pw (Z.max (dust a) (dust b)) <= 1) by (change 1 with (pw 0); apply pw_le; lia).
    replace (pw 105) with (32 * pw 100) by (change 105%Z with (5 + 100)%Z; rewrite pw_add; change (pw 5) with (2 ^ 5); ring).
    pose proof (moderate_magnitude _ Ma) as Qa. pose proof (moderate_magnitude _ Mb) as Qb.
    pose proof (small_growth (roundings (shape a)) ltac:(lia)) as Ga. pose proof (small_growth (roundings (shape b)) ltac:(lia)) as Gb. unfold growth in Ga, Gb.
    pose proof (grow_ge binary64 (roundings (shape a)) ltac:(lra)) as Ga1. pose proof (grow_ge binary64 (roundings (shape b)) ltac:(lra)) as Gb1.
    pose proof (pw_pos (dust a)) as Pa. pose proof (pw_pos (dust b)) as Pb. pose proof (magnitude_nonneg (shape a)) as Na. pose proof (magnitude_nonneg (shape b)) as Nb.
    cbn [pow]. rewrite pow_add.
    pose proof (product_dust _ _ _ _ _ _ _ _ _ _ Ga1 Gb1 (Rlt_le _ _ Pa) (Rlt_le _ _ Pb) Ea (exact_le_magnitude _) Eb (exact_le_magnitude _)) as P.
    set (A := (1 + binary64) ^ roundings (shape a)) in *. set (A' := (1 + binary64) ^ roundings (shape b)) in *.
    set (MA := magnitude (shape a)) in *. set (MB := magnitude (shape b)) in *. set (q := pw 100) in *. set (D' := pw (Z.max (dust a) (dust b))) in *.
    set (da := pw (dust a)) in *. set (db := pw (dust b)) in *.
    assert (HA : 1 <= A * A') by (clear - Ga1 Gb1; nra).
    eapply Rle_trans; [apply (rounded_dust binary64 _ _ _ (MA * MB) _ _ tiny ltac:(lra) HA E P)|].
    + rewrite Rabs_mult. apply Rmult_le_compat; [apply Rabs_pos|apply Rabs_pos|apply exact_le_magnitude|apply exact_le_magnitude].
    + rewrite !Rplus_assoc. apply Rplus_le_compat_l.
      assert (W1 : da * (A' * MB) <= D' * (2 * q)) by (apply Rmult_le_compat; try lra; [apply Rmult_le_pos; lra|apply Rmult_le_compat; lra]).
      assert (W2 : db * (A * MA) <= D' * (2 * q)) by (apply Rmult_le_compat; try lra; [apply Rmult_le_pos; lra|apply Rmult_le_compat; lra]).
      assert (W3 : da * db <= D' * 1) by (apply Rmult_le_compat; lra).
      clearbody A A' MA MB D' da db. clear - W1 W2 W3 U0 U1 Lt Q1 T0.
      assert (W : (1 + binary64) * (da * (A' * MB) + (db * (A * MA) + da * db)) <= 2 * (D' * (2 * q) + (D' * (2 * q) + D'))).
      { apply Rle_trans with ((1 + binary64) * (D' * (2 * q) + (D' * (2 * q) + D'))); [apply Rmult_le_compat_l; lra|]. apply Rmult_le_compat_r; [|lra]. nra. }
      nra.
  - destruct M as (M0 & Ma & Bs & Ms). cbn [dust] in D. cbn [shape roundings] in K. destruct IHa as [Ba Ea]; [exact Ma|lia|lia|].
    pose proof (Big a (dust a) Ma ltac:(lia) ltac:(lia) Ea) as Xa. pose proof (pw_pos (-100)) as P100.
    assert (Zs : value s <> 0) by (intros Z; rewrite Z, Rabs_R0 in Ms; lra).
    assert (Is : Rabs (/ value s) <= pw 100).
    { rewrite Rabs_inv. apply Rle_trans with (/ pw (-100)); [apply Rinv_le_contravar; [exact P100|exact Ms]|]. apply Req_le.
      apply Rmult_eq_reg_r with (pw (-100)); [|lra]. rewrite Rinv_l by lra. rewrite <- pw_add. reflexivity. }
    destruct (div_abs (feval a) s Ba Bs Zs) as [B E].
    { unfold Rdiv. rewrite Rabs_mult. apply Rle_lt_trans with (pw 102 * pw 100); [apply Rmult_le_compat; auto using Rabs_pos|]. rewrite <- pw_add. apply pw_lt. lia. }
    split; [exact B|]. cbn [feval shape exact roundings magnitude dust]. pose proof (dust_tiny a) as Ta. rewrite pw_add. assert (Lt : tiny <= pw (dust a)) by (apply pw_le; lia).
    replace (pw 102) with (4 * pw 100) in * by (change 102%Z with (2 + 100)%Z; rewrite pw_add; change (pw 2) with (2 ^ 2); ring).
    pose proof (grow_ge binary64 (roundings (shape a)) ltac:(lra)) as Ga1. cbn [pow].
    eapply Rle_trans; [apply (rounded_dust binary64 _ _ (exact (shape a) / value s) (magnitude (shape a) / Rabs (value s)) _ (pw (dust a) * pw 100) tiny ltac:(lra) Ga1 E)|].
    + unfold Rdiv. rewrite <- Rmult_minus_distr_r, Rabs_mult, <- Rabs_inv. apply Rle_trans with (((1 + binary64) ^ roundings (shape a) - 1) * magnitude (shape a) * Rabs (/ value s) + pw (dust a) * Rabs (/ value s)).
      * rewrite <- Rmult_plus_distr_r. apply Rmult_le_compat_r; [apply Rabs_pos|exact Ea].
      * rewrite Rmult_assoc. apply Rplus_le_compat_l, Rmult_le_compat_l; [apply Rlt_le, pw_pos|exact Is].
    + unfold Rdiv. rewrite Rabs_mult, Rabs_inv. apply Rmult_le_compat_r; [|apply exact_le_magnitude]. rewrite <- Rabs_inv. apply Rabs_pos.
    + rewrite !Rplus_assoc. apply Rplus_le_compat_l. pose proof (pw_pos (dust a)) as Pa. set (D' := pw (dust a)) in *. set (q := pw 100) in *. clearbody D'. clear - U0 U1 Lt Q1 Pa.
      assert (W : D' * 1 <= D' * q) by (apply Rmult_le_compat_l; lra). assert (V : binary64 * (D' * q) <= / 4 * (D' * q)) by (apply Rmult_le_compat_r; lra). nra.
Qed.

(** *** The polynomials *)
Definition f_terms (l p h : fexpr) : list (list fexpr) :=
  [[]; [l]; [p]; [h]; [l; p]; [l; h]; [p; h]; [l; l]; [p; p]; [h; h]; [l; p; h]; [l; l; l]; [l; p; p]; [l; h; h];
   [l; l; p]; [p; p; p]; [p; h; h]; [l; l; h]; [p; p; h]; [h; h; h]].
Definition f_formula (c : list spec_float) (l p h : fexpr) : fexpr :=
  fold_left (fun r ct => FAdd r (fold_left FMul (snd ct) (FNum (fst ct)))) (combine c (f_terms l p h)) (FNum f_zero).
Definition f_normalized (v o s : spec_float) : fexpr := FDiv (FSub (FNum v) (FNum o)) s.

Ltac exactly_twenty c H := do 20 (destruct c as [|? c]; [discriminate H|]); destruct c; [|discriminate H]; clear H.
Lemma f_formula_eval c l p h : length c = 20%nat -> f_rpc_evaluate c (feval l) (feval p) (feval h) = Ok (feval (f_formula c l p h)).
Proof.
  intros H. exactly_twenty c H. unfold f_rpc_evaluate, f_formula, f_terms.
  cbn [length Nat.ltb Nat.leb nth combine fold_left fst snd feval]. reflexivity.
Qed.

Lemma f_formula_shape c l p h : length c = 20%nat -> shape (f_formula c l p h) = rpc_formula (map value c) (shape l) (shape p) (shape h).
Proof. intros H. exactly_twenty c H. reflexivity. Qed.
Lemma f_formula_dust c v1 o1 s1 v2 o2 s2 v3 o3 s3 : length c = 20%nat ->
  (dust (f_formula c (f_normalized v1 o1 s1) (f_normalized v2 o2 s2) (f_normalized v3 o3 s3)) <= -500)%Z.
Proof. intros H. exactly_twenty c H. vm_compute. discriminate. Qed.

Lemma add_magnitude a b : magnitude (Add a b) <= magnitude a + magnitude b.
Proof. cbn [magnitude]. destruct a, b; try apply Rle_refl. cbn [magnitude]. apply Rabs_triang. Qed.
Lemma product_moderate fs : forall e x, 0 <= x -> x * 2 ^ length fs <= pw 100 -> moderate e -> magnitude (shape e) <= x ->
  Forall (fun f => moderate f /\ magnitude (shape f) <= 2) fs ->
  moderate (fold_left FMul fs e) /\ magnitude (shape (fold_left FMul fs e)) <= x * 2 ^ length fs.
Proof.
  induction fs as [|f fs IH]; intros e x X B M E F; cbn [fold_left length pow] in *; [split; [exact M|lra]|].
  apply Forall_cons_iff in F as [[Mf Ef] F]. pose proof (magnitude_nonneg (shape e)) as N1. pose proof (magnitude_nonneg (shape f)) as N2.
  assert (P : magnitude (shape e) * magnitude (shape f) <= x * 2) by (apply Rmult_le_compat; assumption).
  assert (W : 1 <= 2 ^ length fs) by (apply pow_R1_Rle; lra).
  destruct (IH (FMul e f) (x * 2)) as [A A']; auto.
  - lra.
  - lra.
  - cbn [moderate shape magnitude]. split; [nra|]. split; assumption.
  - split; [exact A|]. lra.
Qed.
Lemma sum_moderate (t : spec_float * list fexpr -> fexpr) ts y : 0 <= y -> forall acc x, 0 <= x -> x + INR (length ts) * y <= pw 100 -> moderate acc -> magnitude (shape acc) <= x ->
  Forall (fun ct => moderate (t ct) /\ magnitude (shape (t ct)) <= y) ts ->
  moderate (fold_left (fun r ct => FAdd r (t ct)) ts acc).
Proof.
  intros Y. induction ts as [|ct ts IH]; intros acc x X B M E F; cbn [fold_left]; [exact M|].
  apply Forall_cons_iff in F as [[Mf Ef] F]. cbn [length] in B. rewrite S_INR in B. pose proof (pos_INR (length ts)).
  pose proof (add_magnitude (shape acc) (shape (t ct))) as S.
  apply (IH _ (x + y)); auto; [lra|lra| |cbn [shape]; lra].
  cbn [moderate shape]. split; [nra|]. split; assumption.
Qed.
Lemma f_formula_moderate c l p h : length c = 20%nat -> Forall (fun f => is_binary64 f /\ Rabs (value f) <= 4) c ->
  (forall e, In e [l; p; h] -> moderate e /\ magnitude (shape e) <= 2) -> moderate (f_formula c l p h).
Proof.
  intros L C F. unfold f_formula. assert (Q : pw 100 >= 1024) by (apply Rle_ge; replace 1024 with (pw 10) by (change (pw 10) with (2 ^ 10); ring); apply pw_le; lia).
  apply (sum_moderate (fun ct => fold_left FMul (snd ct) (FNum (fst ct))) _ 32) with (x := 0); [lra|lra| | | |].
  - rewrite combine_length, L. change (Nat.min 20 (length (f_terms l p h))) with 20%nat. replace (INR 20) with 20 by (cbn; ring). lra.
  - split; [cbn [shape magnitude f_zero value]; rewrite Rabs_R0; lra|]. split; [exact I|reflexivity].
  - cbn. rewrite Rabs_R0. lra.
  - apply Forall_forall. intros [f fs] H. cbn [fst snd]. apply in_combine_l in H as Hf. apply in_combine_r in H as Hfs.
    assert (G : Forall (fun e => moderate e /\ magnitude (shape e) <= 2) fs /\ (length fs <= 3)%nat).
    { pose proof (F l (or_introl eq_refl)). pose proof (F p (or_intror (or_introl eq_refl))). pose proof (F h (or_intror (or_intror (or_introl eq_refl)))).
      cbn in Hfs. repeat destruct Hfs as [<-|Hfs]; try contradiction; (split; [repeat (apply Forall_cons; [assumption|]); apply Forall_nil|cbn; lia]). }
    destruct G as [G K]. rewrite Forall_forall in C. destruct (C f Hf) as [Bf Vf].
    assert (P8 : 2 ^ length fs <= 8) by (replace 8 with (2 ^ 3) by ring; apply Rle_pow; [lra|exact K]). assert (P1 : 1 <= 2 ^ length fs) by (apply pow_R1_Rle; lra).
    destruct (product_moderate fs (FNum f) 4) as [A A']; [lra|lra|split; [cbn [shape magnitude]; lra|exact Bf]|exact Vf|exact G|]. split; [exact A|]. lra.
Qed.

(** Sums of coefficients bound the polynomials. *)
Lemma weight c l p h s : (20 <= length c)%nat -> 0 <= l <= 1.01 -> 0 <= p <= 1.01 -> 0 <= h <= 1.01 -> Forall (fun x => 0 <= x) c ->
  rpc_evaluate c l p h = Ok s -> 0 <= s - hd 0 c <= 1.04 * (fold_right Rplus 0 (tl c)).
Proof.
  intros L Hl Hp Hh C E.
  assert (T : forall c a, 0 <= c -> 0 <= a <= 1.04 -> 0 <= c * a <= 1.04 * c) by (intros; nra).
  assert (M1 : 0 <= l <= 1.04 /\ 0 <= p <= 1.04 /\ 0 <= h <= 1.04) by lra.
  assert (D : forall a b, 0 <= a <= 1.01 -> 0 <= b <= 1.01 -> 0 <= a * b <= 1.0201) by (intros; nra).
  assert (D3 : forall a b d, 0 <= a <= 1.01 -> 0 <= b <= 1.01 -> 0 <= d <= 1.01 -> 0 <= a * b * d <= 1.04) by (intros a b d A B C'; pose proof (D a b A B); nra).
  assert (D2 : forall a b, 0 <= a <= 1.01 -> 0 <= b <= 1.01 -> 0 <= a * b <= 1.04) by (intros a b A B; pose proof (D a b A B); lra).
  assert (S : exists c0 c1 c2 c3 c4 c5 c6 c7 c8 c9 c10 c11 c12 c13 c14 c15 c16 c17 c18 c19 r,
    c = [c0;c1;c2;c3;c4;c5;c6;c7;c8;c9;c10;c11;c12;c13;c14;c15;c16;c17;c18;c19] ++ r).
  { do 20 (destruct c as [|? c]; [cbn in L; exfalso; lia|]). repeat eexists. }
  destruct S as (c0 & c1 & c2 & c3 & c4 & c5 & c6 & c7 & c8 & c9 & c10 & c11 & c12 & c13 & c14 & c15 & c16 & c17 & c18 & c19 & r & ->).
  apply Forall_app in C as [C R]. repeat (apply Forall_cons_iff in C as [? C]).
  assert (R0 : 0 <= fold_right Rplus 0 r) by (clear - R; induction R; cbn; lra).
  unfold rpc_evaluate in E. cbn [app length Nat.ltb Nat.leb] in E. injection E as <-. cbn [app nth hd tl fold_right].
  set (z := fold_right Rplus 0 r) in *. clearbody z.
  pose proof (T c1 l ltac:(assumption) ltac:(lra)). pose proof (T c2 p ltac:(assumption) ltac:(lra)). pose proof (T c3 h ltac:(assumption) ltac:(lra)).
  pose proof (T c4 (l * p) ltac:(assumption) ltac:(auto)). pose proof (T c5 (l * h) ltac:(assumption) ltac:(auto)). pose proof (T c6 (p * h) ltac:(assumption) ltac:(auto)).
  pose proof (T c7 (l * l) ltac:(assumption) ltac:(auto)). pose proof (T c8 (p * p) ltac:(assumption) ltac:(auto)). pose proof (T c9 (h * h) ltac:(assumption) ltac:(auto)).
  pose proof (T c10 (l * p * h) ltac:(assumption) ltac:(auto)). pose proof (T c11 (l * l * l) ltac:(assumption) ltac:(auto)). pose proof (T c12 (l * p * p) ltac:(assumption) ltac:(auto)).
  pose proof (T c13 (l * h * h) ltac:(assumption) ltac:(auto)). pose proof (T c14 (l * l * p) ltac:(assumption) ltac:(auto)). pose proof (T c15 (p * p * p) ltac:(assumption) ltac:(auto)).
  pose proof (T c16 (p * h * h) ltac:(assumption) ltac:(auto)). pose proof (T c17 (l * l * h) ltac:(assumption) ltac:(auto)). pose proof (T c18 (p * p * h) ltac:(assumption) ltac:(auto)).
  pose proof (T c19 (h * h * h) ltac:(assumption) ltac:(auto)). clear T D D2 D3 R C.
  lra.
Qed.

(** *** A pixel coordinate *)
Lemma small_units : binary64 <= / 10 ^ 15 /\ tiny <= / 10 ^ 15.
Proof.
  assert (B : binary64 <= / 10 ^ 15) by (unfold binary64; apply Rinv_le_contravar; [apply pow_lt; lra|lra]). split; [exact B|].
  apply Rle_trans with binary64; [rewrite <- binary64_pw; apply pw_le; lia|exact B].
Qed.
Lemma f_quotient_wide n d s o N D : is_binary64 n -> is_binary64 d -> is_binary64 s -> is_binary64 o ->
  Rabs (value n - N) <= 30 / 10 ^ 14 -> Rabs (value d - D) <= 30 / 10 ^ 14 -> Rabs N <= 4 -> 1 / 2 <= Rabs D -> Rabs (value s) <= 100000 -> Rabs (value o) <= 100000 ->
  is_binary64 (f_add (f_mul (f_div n d) s) o) /\ Rabs (value (f_add (f_mul (f_div n d) s) o) - (N / D * value s + value o)) <= / 1000000.
Proof.
  intros Bn Bd Bs Bo En Ed HN HD Hs Ho. pose proof binary64_pos as U0. destruct small_units as [U T]. pose proof tiny_pos as T0.
  assert (P900 : 1000000000 <= pw 900) by (apply Rle_trans with (pw 30); [change (pw 30) with (2 ^ 30); lra|apply pw_le; lia]).
  assert (Dl : 49 / 100 <= Rabs (value d)).
  { assert (Rabs D <= Rabs (value d) + Rabs (value d - D)) by (replace D with (value d + - (value d - D)) at 1 by ring; apply Rle_trans with (1 := Rabs_triang _ _); rewrite Rabs_Ropp; lra). lra. }
  assert (D0 : D <> 0) by (intros ->; rewrite Rabs_R0 in HD; lra). assert (d0 : value d <> 0) by (intros Z; rewrite Z, Rabs_R0 in Dl; lra).
  assert (Z8 : Rabs (N / D) <= 8).
  { unfold Rdiv. rewrite Rabs_mult, Rabs_inv. assert (/ Rabs D <= / (1 / 2)) by (apply Rinv_le_contravar; lra). assert (0 < / Rabs D) by (apply Rinv_0_lt_compat; lra). pose proof (Rabs_pos N). nra. }
  assert (Eq : Rabs (value n / value d - N / D) <= 560 / 10 ^ 14).
  { replace (value n / value d - N / D) with (((value n - N) - N / D * (value d - D)) / value d) by (field; auto).
    unfold Rdiv at 1. rewrite Rabs_mult, Rabs_inv. assert (I : / Rabs (value d) <= / (49 / 100)) by (apply Rinv_le_contravar; lra).
    assert (I0 : 0 < / Rabs (value d)) by (apply Rinv_0_lt_compat; lra).
    assert (W : Rabs (value n - N - N / D * (value d - D)) <= 270 / 10 ^ 14).
    { unfold Rminus at 1. apply Rle_trans with (1 := Rabs_triang _ _). rewrite Rabs_Ropp, Rabs_mult.
      assert (Rabs (N / D) * Rabs (value d - D) <= 8 * (30 / 10 ^ 14)) by (apply Rmult_le_compat; auto using Rabs_pos). lra. }
    apply Rle_trans with (270 / 10 ^ 14 * / (49 / 100)); [apply Rmult_le_compat; auto using Rabs_pos; lra|lra]. }
  set (Z := N / D) in *. set (q := value n / value d) in *.
  assert (Q9 : Rabs q <= 9) by (replace q with ((q - Z) + Z) by ring; apply Rle_trans with (1 := Rabs_triang _ _); lra).
  destruct (div_abs n d Bn Bd d0) as [B1 E1]; [fold q; lra|]. fold q in E1. set (f1 := f_div n d) in *.
  assert (E1' : Rabs (value f1 - Z) <= 570 / 10 ^ 14).
  { replace (value f1 - Z) with ((value f1 - q) + (q - Z)) by ring. apply Rle_trans with (1 := Rabs_triang _ _).
    assert (binary64 * Rabs q <= / 10 ^ 15 * 9) by (apply Rmult_le_compat; auto using Rabs_pos; lra). lra. }
  assert (F9 : Rabs (value f1) <= 9) by (replace (value f1) with ((value f1 - Z) + Z) by ring; apply Rle_trans with (1 := Rabs_triang _ _); lra).
  assert (P9 : Rabs (value f1 * value s) <= 900000) by (rewrite Rabs_mult; replace 900000 with (9 * 100000) by ring; apply Rmult_le_compat; auto using Rabs_pos).
  destruct (mul_abs f1 s B1 Bs) as [B2 E2]; [lra|]. set (f2 := f_mul f1 s) in *.
  assert (W2 : binary64 * Rabs (value f1 * value s) <= / 10 ^ 15 * 900000) by (apply Rmult_le_compat; auto using Rabs_pos; lra).
  assert (E2' : Rabs (value f2 - Z * value s) <= 6 / 10000000).
  { replace (value f2 - Z * value s) with ((value f2 - value f1 * value s) + (value f1 - Z) * value s) by ring. apply Rle_trans with (1 := Rabs_triang _ _). rewrite (Rabs_mult (value f1 - Z)).
    assert (Rabs (value f1 - Z) * Rabs (value s) <= 570 / 10 ^ 14 * 100000) by (apply Rmult_le_compat; auto using Rabs_pos). lra. }
  assert (F2 : Rabs (value f2) <= 900001) by (replace (value f2) with ((value f2 - value f1 * value s) + value f1 * value s) by ring; apply Rle_trans with (1 := Rabs_triang _ _); lra).
  assert (P3 : Rabs (value f2 + value o) <= 1000001) by (apply Rle_trans with (1 := Rabs_triang _ _); lra).
  destruct (add_abs f2 o B2 Bo) as [B3 E3]; [lra|]. split; [exact B3|]. set (f3 := f_add f2 o) in *.
  replace (value f3 - (Z * value s + value o)) with ((value f3 - (value f2 + value o)) + (value f2 - Z * value s)) by ring. apply Rle_trans with (1 := Rabs_triang _ _).
  assert (binary64 * Rabs (value f2 + value o) <= / 10 ^ 15 * 1000001) by (apply Rmult_le_compat; auto using Rabs_pos; lra). lra.
Qed.
Lemma f_quotient n d s o N D : is_binary64 n -> is_binary64 d -> is_binary64 s -> is_binary64 o ->
  Rabs (value n - N) <= 13 / 10 ^ 14 -> Rabs (value d - D) <= 13 / 10 ^ 14 -> Rabs N <= 4 -> 1 / 2 <= Rabs D -> Rabs (value s) <= 100000 -> Rabs (value o) <= 100000 ->
  is_binary64 (f_add (f_mul (f_div n d) s) o) /\ Rabs (value (f_add (f_mul (f_div n d) s) o) - (N / D * value s + value o)) <= / 1000000.
Proof. intros. apply f_quotient_wide; auto; lra. Qed.

(** *** The normalised coordinates and the polynomials of them *)
Lemma normalized_moderate v o s : is_binary64 v -> is_binary64 o -> is_binary64 s -> Rabs (value v) <= 1000000 -> Rabs (value o) <= 1000000 -> / 1000 <= Rabs (value s) ->
  Rabs ((value v - value o) / value s) <= 1.01 ->
  moderate (f_normalized v o s) /\ magnitude (shape (f_normalized v o s)) <= 2.
Proof.
  intros Bv Bo Bs Hv Ho Hs H. assert (P : 10000000 <= pw 100) by (apply Rle_trans with (pw 30); [change (pw 30) with (2 ^ 30); lra|apply pw_le; lia]).
  assert (M : magnitude (shape (f_normalized v o s)) <= 1.01) by (unfold f_normalized; cbn [shape]; change (Div (Sub (Num (value v)) (Num (value o))) (Num (value s))) with (normalized (value v) (value o) (value s)); rewrite normalized_magnitude; exact H).
  assert (M' : magnitude (shape (f_normalized v o s)) <= pw 100) by lra.
  split; [|lra]. split; [exact M'|]. split; [|split; [exact Bs|]].
  - split; [|split; (split; [cbn [shape magnitude]; lra|assumption])]. cbn [shape magnitude]. unfold Rminus. apply Rle_trans with (1 := Rabs_triang _ _). rewrite Rabs_Ropp. lra.
  - apply Rle_trans with (pw (-10)); [apply pw_le; lia|]. change (pw (-10)) with (/ 2 ^ 10). lra.
Qed.

Lemma total_bound c f : In f c -> Rabs (value f) <= total c.
Proof.
  assert (N : forall c, 0 <= total c) by (clear; intros c; induction c as [|g c IH]; cbn [total fold_right]; [lra|]; fold (total c); pose proof (Rabs_pos (value g)); lra).
  induction c as [|g c IH]; [contradiction|]. cbn [total fold_right]. fold (total c). intros [->|H]; [pose proof (N c); lra|]. specialize (IH H). pose proof (Rabs_pos (value g)). lra.
Qed.
Lemma total_sum c : fold_right Rplus 0 (map Rabs (map value c)) = total c.
Proof. induction c as [|g c IH]; cbn; [reflexivity|]. now rewrite IH. Qed.
Lemma abs_nonneg c : Forall (fun x => 0 <= x) (map Rabs c).
Proof. induction c; cbn; constructor; auto using Rabs_pos. Qed.

Lemma poly_bound c0 c l p h r : (19 <= length c)%nat -> Rabs l <= 1.01 -> Rabs p <= 1.01 -> Rabs h <= 1.01 ->
  rpc_evaluate (value c0 :: map value c) l p h = Ok r -> Rabs (r - value c0) <= 1.04 * total c.
Proof.
  intros L Hl Hp Hh Ex.
  assert (E0 : rpc_evaluate (0 :: map value c) l p h = Ok (r - value c0)).
  { revert Ex. unfold rpc_evaluate. cbn [length nth]. destruct (Nat.ltb (S (length (map value c))) 20); [discriminate|]. intros X. injection X as X. f_equal. rewrite <- X. ring. }
  assert (L' : (20 <= length (map Rabs (0%R :: map value c)))%nat) by (rewrite map_length; cbn [length]; rewrite map_length; lia).
  assert (E1 : exists a, rpc_evaluate (map Rabs (0 :: map value c)) (Rabs l) (Rabs p) (Rabs h) = Ok a).
  { unfold rpc_evaluate. replace (Nat.ltb (length (map Rabs (0%R :: map value c))) 20) with false; [eexists; reflexivity|]. symmetry. apply Nat.ltb_ge. exact L'. }
  destruct E1 as (a & E1). pose proof (rpc_evaluate_abs _ _ _ _ _ _ E0 E1) as A.
  pose proof (weight (map Rabs (0 :: map value c)) _ _ _ a L' (conj (Rabs_pos l) Hl) (conj (Rabs_pos p) Hp) (conj (Rabs_pos h) Hh) (abs_nonneg _) E1) as W1.
  cbn [map hd tl] in W1. rewrite total_sum, Rabs_R0 in W1. lra.
Qed.

(** Nearby points have nearby values. *)
Lemma product_near a b a' b' x y : 0 <= x -> 0 <= y -> Rabs (a - a') <= x -> Rabs (b - b') <= y -> Rabs b <= 1.01 -> Rabs (a * b - a' * b') <= 1.01 * x + Rabs a' * y.
Proof.
  intros X Y A B C. replace (a * b - a' * b') with ((a - a') * b + a' * (b - b')) by ring. apply Rle_trans with (1 := Rabs_triang _ _). rewrite !Rabs_mult.
  assert (Rabs (a - a') * Rabs b <= x * 1.01) by (apply Rmult_le_compat; auto using Rabs_pos). assert (Rabs a' * Rabs (b - b') <= Rabs a' * y) by (apply Rmult_le_compat_l; auto using Rabs_pos). lra.
Qed.
Lemma poly_near c l p l' p' h e r r' : (20 <= length c)%nat -> 0 <= e ->
  Rabs l <= 1.01 -> Rabs p <= 1.01 -> Rabs h <= 1.01 -> Rabs l' <= 1.01 -> Rabs p' <= 1.01 -> Rabs (l - l') <= e -> Rabs (p - p') <= e ->
  rpc_evaluate c l p h = Ok r -> rpc_evaluate c l' p' h = Ok r' -> Rabs (r - r') <= 4 * e * fold_right Rplus 0 (map Rabs (tl c)).
Proof.
  intros L E0 Hl Hp Hh Hl' Hp' El Ep.
  assert (Eh : Rabs (h - h) <= e) by (rewrite Rminus_diag_eq, Rabs_R0 by reflexivity; exact E0).
  assert (D2 : forall a b a' b', Rabs (a - a') <= e -> Rabs (b - b') <= e -> Rabs b <= 1.01 -> Rabs a' <= 1.01 -> Rabs (a * b - a' * b') <= 2.02 * e).
  { intros a b a' b' A B C C'. pose proof (product_near a b a' b' e e E0 E0 A B C). assert (Rabs a' * e <= 1.01 * e) by (apply Rmult_le_compat_r; assumption). lra. }
  assert (D3 : forall a b d a' b' d', Rabs (a - a') <= e -> Rabs (b - b') <= e -> Rabs (d - d') <= e -> Rabs b <= 1.01 -> Rabs a' <= 1.01 -> Rabs b' <= 1.01 -> Rabs d <= 1.01 ->
    Rabs (a * b * d - a' * b' * d') <= 4 * e).
  { intros a b d a' b' d' A B C H1 H2 H3 H4. pose proof (product_near (a * b) d (a' * b') d' (2.02 * e) e ltac:(lra) E0 (D2 _ _ _ _ A B H1 H2) C H4) as P.
    assert (Q : Rabs (a' * b') <= 1.01 * 1.01) by (rewrite Rabs_mult; apply Rmult_le_compat; auto using Rabs_pos).
    assert (Rabs (a' * b') * e <= 1.01 * 1.01 * e) by (apply Rmult_le_compat_r; assumption). lra. }
  assert (T : forall c a a', Rabs (a - a') <= 4 * e -> - (4 * e * Rabs c) <= c * a - c * a' <= 4 * e * Rabs c).
  { intros k a a' H. apply abs_interval. rewrite <- Rmult_minus_distr_l, Rabs_mult, (Rmult_comm (4 * e)). apply Rmult_le_compat_l; [apply Rabs_pos|exact H]. }
  assert (D2' : forall a b a' b', Rabs (a - a') <= e -> Rabs (b - b') <= e -> Rabs b <= 1.01 -> Rabs a' <= 1.01 -> Rabs (a * b - a' * b') <= 4 * e) by (intros a b a' b' A B C C'; pose proof (D2 a b a' b' A B C C'); lra).
  assert (El4 : Rabs (l - l') <= 4 * e) by lra. assert (Ep4 : Rabs (p - p') <= 4 * e) by lra. clear D2.
  assert (S : exists c0 c1 c2 c3 c4 c5 c6 c7 c8 c9 c10 c11 c12 c13 c14 c15 c16 c17 c18 c19 k,
    c = [c0;c1;c2;c3;c4;c5;c6;c7;c8;c9;c10;c11;c12;c13;c14;c15;c16;c17;c18;c19] ++ k).
  { do 20 (destruct c as [|? c]; [cbn in L; exfalso; lia|]). repeat eexists. }
  destruct S as (c0 & c1 & c2 & c3 & c4 & c5 & c6 & c7 & c8 & c9 & c10 & c11 & c12 & c13 & c14 & c15 & c16 & c17 & c18 & c19 & k & ->).
  unfold rpc_evaluate. cbn [app length Nat.ltb Nat.leb]. intros E E'. injection E as <-. injection E' as <-. cbn [app nth hd tl map fold_right].
  assert (R0 : 0 <= fold_right Rplus 0 (map Rabs k)) by (clear; induction k as [|x k IH]; cbn; [lra|]; pose proof (Rabs_pos x); lra).
  set (z := fold_right Rplus 0 (map Rabs k)) in *. clearbody z. assert (Z : 0 <= 4 * e * z) by (apply Rmult_le_pos; lra).
  pose proof (T c1 l l' ltac:(auto)). pose proof (T c2 p p' ltac:(auto)).
  pose proof (T c4 (l * p) (l' * p') ltac:(auto)). pose proof (T c5 (l * h) (l' * h) ltac:(auto)). pose proof (T c6 (p * h) (p' * h) ltac:(auto)).
  pose proof (T c7 (l * l) (l' * l') ltac:(auto)). pose proof (T c8 (p * p) (p' * p') ltac:(auto)).
  pose proof (T c10 (l * p * h) (l' * p' * h) ltac:(auto)). pose proof (T c11 (l * l * l) (l' * l' * l') ltac:(auto)). pose proof (T c12 (l * p * p) (l' * p' * p') ltac:(auto)).
  pose proof (T c13 (l * h * h) (l' * h * h) ltac:(auto)). pose proof (T c14 (l * l * p) (l' * l' * p') ltac:(auto)). pose proof (T c15 (p * p * p) (p' * p' * p') ltac:(auto)).
  pose proof (T c16 (p * h * h) (p' * h * h) ltac:(auto)). pose proof (T c17 (l * l * h) (l' * l' * h) ltac:(auto)). pose proof (T c18 (p * p * h) (p' * p' * h) ltac:(auto)).
  clear T D3 D2' El4 Ep4 Hl Hp Hh Hl' Hp' El Ep Eh L.
  assert (P : forall c, 0 <= 4 * e * Rabs c) by (intros; apply Rmult_le_pos; [lra|apply Rabs_pos]).
  pose proof (P c3). pose proof (P c9). pose proof (P c19). clear P. apply Rabs_le. split; lra.
Qed.

Definition small_tree (e : fexpr) : Prop := exists v o s, e = f_normalized v o s /\ moderate e /\ magnitude (shape e) <= 1.01.
Lemma poly_float c l p h : length c = 20%nat -> Forall is_binary64 c -> (forall f, In f c -> Rabs (value f) <= 4) -> small_tree l -> small_tree p -> small_tree h ->
  Rabs (value (hd f_zero c)) + 1.04 * total (tl c) <= 4 ->
  exists r, rpc_evaluate (map value c) (exact (shape l)) (exact (shape p)) (exact (shape h)) = Ok r /\
    f_rpc_evaluate c (feval l) (feval p) (feval h) = Ok (feval (f_formula c l p h)) /\
    is_binary64 (feval (f_formula c l p h)) /\ Rabs (value (feval (f_formula c l p h)) - r) <= 13 / 10 ^ 14 /\
    Rabs (r - value (hd f_zero c)) <= 1.04 * total (tl c).
Proof.
  intros L B C (v1 & o1 & s1 & El & Ml & Gl) (v2 & o2 & s2 & Ep & Mp & Gp) (v3 & o3 & s3 & Eh & Mh & Gh) T.
  assert (L' : (20 <= length (map value c))%nat) by (rewrite map_length; lia).
  pose proof (rpc_formula_exact (map value c) (shape l) (shape p) (shape h) L') as Ex. pose proof (rpc_formula_magnitude (map value c) (shape l) (shape p) (shape h) L') as Mg.
  pose proof (f_formula_shape c l p h L) as Sh.
  assert (M : moderate (f_formula c l p h)).
  { apply f_formula_moderate; [exact L| |].
    - apply Forall_forall. intros f H. rewrite Forall_forall in B. split; [now apply B|now apply C].
    - intros e [<-|[<-|[<-|[]]]]; (split; [assumption|lra]). }
  assert (D : (dust (f_formula c l p h) <= -500)%Z) by (subst l p h; now apply f_formula_dust).
  assert (K : roundings (shape (f_formula c l p h)) = 22%nat) by (rewrite Sh; subst l p h; now apply rpc_formula_roundings).
  destruct (feval_error _ M ltac:(lia) ltac:(lia)) as [Bf E]. rewrite K, Sh in E.
  assert (W : 0 <= magnitude (rpc_formula (map value c) (shape l) (shape p) (shape h)) - hd 0 (map Rabs (map value c)) <= 1.04 * total (tl c)).
  { rewrite <- total_sum.
    assert (Hw := weight (map Rabs (map value c)) _ _ _ _ ltac:(rewrite map_length; exact L') (conj (magnitude_nonneg (shape l)) Gl) (conj (magnitude_nonneg (shape p)) Gp) (conj (magnitude_nonneg (shape h)) Gh) (abs_nonneg _) Mg).
    destruct c; [discriminate L|exact Hw]. }
  exists (exact (rpc_formula (map value c) (shape l) (shape p) (shape h))). split; [exact Ex|]. split; [now apply f_formula_eval|]. split; [exact Bf|]. split.
  - eapply Rle_trans; [exact E|]. assert (Hd : hd 0 (map Rabs (map value c)) = Rabs (value (hd f_zero c))) by (destruct c; [discriminate L|reflexivity]). rewrite Hd in W.
    pose proof (small_growth 22 ltac:(lia)) as G. pose proof (growth_nonneg binary64 22 ltac:(pose proof binary64_pos; lra)) as G0.
    pose proof (magnitude_nonneg (rpc_formula (map value c) (shape l) (shape p) (shape h))) as N0.
    assert (growth binary64 22 * magnitude (rpc_formula (map value c) (shape l) (shape p) (shape h)) <= 3 / 10 ^ 14 * 4) by (apply Rmult_le_compat; lra).
    assert (pw (dust (f_formula c l p h)) <= / 10 ^ 15).
    { apply Rle_trans with binary64; [rewrite <- binary64_pw; apply pw_le; lia|apply small_units]. }
    lra.
  - destruct c as [|c0 c]; [discriminate L|]. cbn [hd tl map] in *.
    apply (poly_bound c0 c (exact (shape l)) (exact (shape p)) (exact (shape h))); [cbn in L; lia| | | |exact Ex]; eapply Rle_trans; try apply exact_le_magnitude; assumption.
Qed.

(** *** Degrees *)
Lemma f_degrees_abs x : is_binary64 x -> Rabs (degrees (value x)) <= 1000 ->
  is_binary64 (f_degrees x) /\ Rabs (value (f_degrees x) - degrees (value x)) <= growth binary64 2 * Rabs (degrees (value x)) + tiny.
Proof.
  intros B H. destruct deg_per_rad as (d & D & E). pose proof pi_bounds as PB. pose proof binary64_pos as U0. destruct small_units as [U T].
  assert (Bc : is_binary64 f_deg_per_rad) by (split; [vm_compute; exact I|vm_compute; reflexivity]).
  assert (X : value x * value f_deg_per_rad = degrees (value x) * (1 + d)) by (rewrite E; unfold degrees; field; lra).
  apply abs_interval in D. assert (A1 : Rabs (1 + d) <= 1 + binary64) by (apply Rabs_le; lra).
  assert (A2 : Rabs (value x * value f_deg_per_rad) <= Rabs (degrees (value x)) * (1 + binary64)) by (rewrite X, Rabs_mult; apply Rmult_le_compat_l; [apply Rabs_pos|exact A1]).
  pose proof (Rabs_pos (degrees (value x))) as N.
  destruct (mul_abs x f_deg_per_rad B Bc) as [B' E'].
  { apply Rle_lt_trans with (1 := A2). apply Rlt_le_trans with (pw 11); [change (pw 11) with (2 ^ 11); nra|apply pw_le; lia]. }
  split; [exact B'|]. unfold f_degrees. rewrite X in E' at 1.
  replace (value (f_mul x f_deg_per_rad) - degrees (value x)) with ((value (f_mul x f_deg_per_rad) - degrees (value x) * (1 + d)) + degrees (value x) * d) by ring.
  apply Rle_trans with (1 := Rabs_triang _ _). rewrite (Rabs_mult (degrees (value x))). assert (Dd : Rabs d <= binary64) by (apply Rabs_le; lra).
  assert (W : binary64 * Rabs (value x * value f_deg_per_rad) <= binary64 * (Rabs (degrees (value x)) * (1 + binary64))) by (apply Rmult_le_compat_l; lra).
  assert (V : Rabs (degrees (value x)) * Rabs d <= Rabs (degrees (value x)) * binary64) by (apply Rmult_le_compat_l; lra).
  unfold growth. lra.
Qed.
