(** Proofs about the RSM polynomial camera in binary64. *)
Require Import ZArith Reals List Lra Lia SpecFloat.
Require Import Verif.Base Verif.Vec Verif.RsmModel Verif.CoordFloatModel
  Verif.RoundModel Verif.RoundSpec Verif.RoundProofs Verif.FloatModel Verif.FloatSpec Verif.FloatProofs Verif.FloatNearest
  Verif.RpcFloatModel Verif.RpcFloatSpec Verif.RpcFloatProofs Verif.RsmFloatModel Verif.RsmFloatSpec.
Import ListNotations.
Local Open Scope R_scope.

Lemma fine_units : binary64 <= 12 / 10 ^ 17 /\ tiny <= / 10 ^ 40 /\ pw (-1060) <= / 10 ^ 40 /\ pw (-50) <= 9 / 10 ^ 16.
Proof.
  assert (P : pw (-140) <= / 10 ^ 40).
  { rewrite <- (Rmult_1_l (/ 10 ^ 40)). replace (pw (-140)) with (/ IZR (2 ^ 140)) by (change (-140)%Z with (- (140))%Z; rewrite <- pw_IZR by lia; reflexivity).
    rewrite Rmult_1_l. apply Rinv_le_contravar; [apply pow_lt; lra|]. change 10 with (IZR 10). rewrite pow_IZR. apply IZR_le. vm_compute. discriminate. }
  split; [|split; [|split]].
  - unfold binary64. apply Rle_trans with (/ 9007199254740992); [apply Req_le; f_equal; ring|lra].
  - apply Rle_trans with (2 := P). apply pw_le. lia.
  - apply Rle_trans with (2 := P). apply pw_le. lia.
  - change (pw (-50)) with (/ 2 ^ 50). apply Rle_trans with (/ 1125899906842624); [apply Req_le; f_equal; ring|lra].
Qed.
Lemma below_900 x : x <= 1000000000 -> x < pw 900.
Proof. intros H. apply Rlt_le_trans with (pw 31); [change (pw 31) with (2 ^ 31); lra|apply pw_le; lia]. Qed.

(** *** Normalised coordinates *)
Lemma norm_float v o s : is_binary64 v -> between 0 o 10000000 -> between (/ 10 ^ 9) s 10000000 -> Rabs (value v - value o) <= Rabs (value s) ->
  is_binary64 (f_normalize v o s) /\ Rabs (value (f_normalize v o s) - normalize (value v) (value o) (value s)) <= / 10 ^ 15 /\
  Rabs (normalize (value v) (value o) (value s)) <= 1.
Proof.
  intros Bv [Bo Ho] [Bs Hs] H. destruct fine_units as (U & T & _). pose proof binary64_pos as U0. pose proof tiny_pos as T0. unfold f_normalize, normalize.
  assert (S0 : 0 < Rabs (value s)) by (apply Rlt_le_trans with (/ 10 ^ 9); [apply Rinv_0_lt_compat, pow_lt; lra|apply Hs]).
  assert (Zs : value s <> 0) by (intros Z; rewrite Z, Rabs_R0 in S0; lra).
  assert (I : 0 < Rabs (/ value s) <= 10 ^ 9).
  { rewrite Rabs_inv. split; [apply Rinv_0_lt_compat; exact S0|]. rewrite <- (Rinv_inv (10 ^ 9)). apply Rinv_le_contravar; [apply Rinv_0_lt_compat, pow_lt; lra|apply Hs]. }
  assert (J : Rabs (value s) * Rabs (/ value s) = 1) by (rewrite <- Rabs_mult, Rinv_r by exact Zs; apply Rabs_R1).
  set (D := value v - value o) in *. assert (X : Rabs (D / value s) <= 1).
  { unfold Rdiv. rewrite Rabs_mult. apply Rle_trans with (Rabs (value s) * Rabs (/ value s)); [apply Rmult_le_compat_r; lra|lra]. }
  destruct (sub_abs v o Bv Bo) as [Bd Ed]; [fold D; apply below_900; lra|]. fold D in Ed. set (d := f_sub v o) in *.
  assert (E1 : Rabs (value d / value s - D / value s) <= 13 / 10 ^ 17).
  { unfold Rdiv. rewrite <- Rmult_minus_distr_r, Rabs_mult. apply Rle_trans with ((binary64 * Rabs D + tiny) * Rabs (/ value s)); [apply Rmult_le_compat_r; lra|].
    assert (binary64 * (Rabs D * Rabs (/ value s)) <= 12 / 10 ^ 17 * 1).
    { apply Rmult_le_compat; [lra|apply Rmult_le_pos; [apply Rabs_pos|lra]|exact U|]. unfold Rdiv in X. rewrite Rabs_mult in X. exact X. }
    assert (tiny * Rabs (/ value s) <= / 10 ^ 40 * 10 ^ 9) by (apply Rmult_le_compat; lra). lra. }
  set (q := value d / value s) in *. set (X0 := D / value s) in *.
  assert (Q : Rabs q <= 1.01) by (replace q with ((q - X0) + X0) by ring; apply Rle_trans with (1 := Rabs_triang _ _); lra).
  destruct (div_abs d s Bd Bs Zs) as [B2 E2]; [fold q; apply below_900; lra|]. fold q in E2. split; [exact B2|]. split; [|exact X].
  replace (value (f_div d s) - X0) with ((value (f_div d s) - q) + (q - X0)) by ring. apply Rle_trans with (1 := Rabs_triang _ _).
  assert (binary64 * Rabs q <= 12 / 10 ^ 17 * 1.01) by (apply Rmult_le_compat; auto using Rabs_pos; lra). lra.
Qed.

(** *** Powers *)
Lemma pow_abs_le_1 X n : Rabs X <= 1 -> Rabs (X ^ n) <= 1.
Proof. intros H. rewrite <- RPow_abs. rewrite <- (pow1 n). apply pow_incr. split; [apply Rabs_pos|exact H]. Qed.
Lemma pow_near x X e n : 0 <= e -> Rabs X <= 1 -> Rabs (x - X) <= e -> Rabs x <= 1.01 -> (n <= 5)%nat -> Rabs (x ^ n - X ^ n) <= 6 * e.
Proof.
  intros E0 HX E Hx. assert (S : forall n d, Rabs (x ^ n - X ^ n) <= d -> Rabs (x ^ S n - X ^ S n) <= 1.01 * d + e).
  { intros k d H. cbn [pow]. replace (x * x ^ k - X * X ^ k) with (x * (x ^ k - X ^ k) + (x - X) * X ^ k) by ring. apply Rle_trans with (1 := Rabs_triang _ _). rewrite !Rabs_mult.
    pose proof (pow_abs_le_1 X k HX). assert (Rabs x * Rabs (x ^ k - X ^ k) <= 1.01 * d) by (apply Rmult_le_compat; auto using Rabs_pos).
    assert (Rabs (x - X) * Rabs (X ^ k) <= e * 1) by (apply Rmult_le_compat; auto using Rabs_pos). lra. }
  assert (H0 : Rabs (x ^ 0 - X ^ 0) <= 0) by (cbn; rewrite Rminus_diag_eq, Rabs_R0; lra).
  pose proof (S _ _ H0) as H1. pose proof (S _ _ H1) as H2. pose proof (S _ _ H2) as H3. pose proof (S _ _ H3) as H4. pose proof (S _ _ H4) as H5. clear S. intros N.
  do 6 (destruct n as [|n]; [lra|]). lia.
Qed.

Section Power.
Variable pow : spec_float -> nat -> spec_float.
Hypothesis accurate : accurate_power pow.

(** The float [x] stands for the number [X] of the unit interval. *)
Definition stands (x : spec_float) (X : R) : Prop := is_binary64 x /\ Rabs (value x - X) <= / 10 ^ 15 /\ Rabs X <= 1.
Lemma power_float x X n : stands x X -> (n <= 5)%nat -> is_binary64 (pow x n) /\ Rabs (value (pow x n) - X ^ n) <= 8 / 10 ^ 15.
Proof.
  intros (B & E & HX) N. destruct fine_units as (_ & _ & T & U).
  assert (V : Rabs (value x) <= 1.01) by (replace (value x) with ((value x - X) + X) by ring; apply Rle_trans with (1 := Rabs_triang _ _); lra).
  destruct (accurate x n B ltac:(lra) N) as [Bp Ep]. split; [exact Bp|]. fold (pw (-50)) in Ep. fold (pw (-1060)) in Ep.
  pose proof (pow_near (value x) X (/ 10 ^ 15) n ltac:(lra) HX E V N) as P. pose proof (pow_abs_le_1 X n HX) as P1.
  assert (W : Rabs (value x ^ n) <= 1.01) by (replace (value x ^ n) with ((value x ^ n - X ^ n) + X ^ n) by ring; apply Rle_trans with (1 := Rabs_triang _ _); lra).
  replace (value (pow x n) - X ^ n) with ((value (pow x n) - value x ^ n) + (value x ^ n - X ^ n)) by ring. apply Rle_trans with (1 := Rabs_triang _ _).
  assert (pw (-50) * Rabs (value x ^ n) <= 9 / 10 ^ 16 * 1.01) by (apply Rmult_le_compat; auto using Rabs_pos; [apply Rlt_le, pw_pos]). lra.
Qed.

(** *** Terms *)
Lemma factor_float a A c p P al ta : is_binary64 a -> is_binary64 p -> 0 <= c <= 3 -> 0 <= al <= / 10 ^ 13 -> 0 <= ta <= / 10 ^ 30 ->
  Rabs (value a - A) <= al * c + ta -> Rabs A <= c -> Rabs (value p - P) <= 8 / 10 ^ 15 -> Rabs P <= 1 ->
  is_binary64 (f_mul a p) /\ Rabs (value (f_mul a p) - A * P) <= (al + 9 / 10 ^ 15) * c + (2 * ta + tiny) /\ Rabs (A * P) <= c.
Proof.
  intros Ba Bp Hc Hal Hta Ea HA Ep HP. destruct fine_units as (U & T & _). pose proof binary64_pos as U0. pose proof tiny_pos as T0.
  assert (Va : Rabs (value a) <= (1 + al) * c + ta) by (replace (value a) with ((value a - A) + A) by ring; apply Rle_trans with (1 := Rabs_triang _ _); lra).
  assert (Vp : Rabs (value p) <= 1 + 8 / 10 ^ 15) by (replace (value p) with ((value p - P) + P) by ring; apply Rle_trans with (1 := Rabs_triang _ _); lra).
  assert (L0 : 0 <= al * c) by (apply Rmult_le_pos; lra). assert (L1 : al * c <= / 10 ^ 13 * c) by (apply Rmult_le_compat_r; lra).
  assert (M : Rabs (value a * value p) <= ((1 + al) * c + ta) * (1 + 8 / 10 ^ 15)) by (rewrite Rabs_mult; apply Rmult_le_compat; auto using Rabs_pos).
  destruct (mul_abs a p Ba Bp) as [B E]; [apply below_900; lra|]. split; [exact B|]. split.
  - replace (value (f_mul a p) - A * P) with ((value (f_mul a p) - value a * value p) + ((value a - A) * value p + A * (value p - P))) by ring.
    apply Rle_trans with (1 := Rabs_triang _ _). pose proof (Rabs_triang ((value a - A) * value p) (A * (value p - P))) as Q. rewrite !Rabs_mult in Q.
    assert (Q1 : Rabs (value a - A) * Rabs (value p) <= (al * c + ta) * (1 + 8 / 10 ^ 15)) by (apply Rmult_le_compat; auto using Rabs_pos).
    assert (Q2 : Rabs A * Rabs (value p - P) <= c * (8 / 10 ^ 15)) by (apply Rmult_le_compat; auto using Rabs_pos).
    assert (Q3 : binary64 * Rabs (value a * value p) <= 12 / 10 ^ 17 * (((1 + al) * c + ta) * (1 + 8 / 10 ^ 15))) by (apply Rmult_le_compat; auto using Rabs_pos; lra).
    lra.
  - rewrite Rabs_mult, <- (Rmult_1_r c). apply Rmult_le_compat; auto using Rabs_pos.
Qed.
Lemma term_float c x y z X Y Z i j k : is_binary64 c -> Rabs (value c) <= 3 -> stands x X -> stands y Y -> stands z Z -> (i <= 5)%nat -> (j <= 5)%nat -> (k <= 5)%nat ->
  let t := f_mul (f_mul (f_mul c (pow x i)) (pow y j)) (pow z k) in let T := value c * X ^ i * Y ^ j * Z ^ k in
  is_binary64 t /\ Rabs (value t - T) <= 27 / 10 ^ 15 * Rabs (value c) + / 10 ^ 30 /\ Rabs T <= Rabs (value c).
Proof.
  intros Bc Hc Sx Sy Sz I J K. destruct fine_units as (_ & U & _). pose proof tiny_pos as T0.
  destruct (power_float x X i Sx I) as [B1 E1]. destruct (power_float y Y j Sy J) as [B2 E2]. destruct (power_float z Z k Sz K) as [B3 E3].
  pose proof (pow_abs_le_1 X i (proj2 (proj2 Sx))) as P1. pose proof (pow_abs_le_1 Y j (proj2 (proj2 Sy))) as P2. pose proof (pow_abs_le_1 Z k (proj2 (proj2 Sz))) as P3.
  assert (HC : 0 <= Rabs (value c) <= 3) by (split; [apply Rabs_pos|exact Hc]).
  assert (E0 : Rabs (value c - value c) <= 0 * Rabs (value c) + 0) by (rewrite Rminus_diag_eq, Rabs_R0 by reflexivity; lra).
  destruct (factor_float c (value c) (Rabs (value c)) _ _ 0 0 Bc B1 HC ltac:(lra) ltac:(lra) E0 ltac:(lra) E1 P1) as (C1 & F1 & G1).
  destruct (factor_float _ _ _ _ _ (0 + 9 / 10 ^ 15) (2 * 0 + tiny) C1 B2 HC ltac:(lra) ltac:(lra) F1 G1 E2 P2) as (C2 & F2 & G2).
  destruct (factor_float _ _ _ _ _ (0 + 9 / 10 ^ 15 + 9 / 10 ^ 15) (2 * (2 * 0 + tiny) + tiny) C2 B3 HC ltac:(lra) ltac:(lra) F2 G2 E3 P3) as (C3 & F3 & G3).
  cbv zeta. split; [exact C3|]. split; [|exact G3]. apply Rle_trans with (1 := F3). lra.
Qed.

(** *** Sums *)
Definition part (c : list spec_float) (n : nat) : R := total (firstn n c).
Lemma part_step c n : part c (S n) = part c n + Rabs (value (nth n c f_zero)).
Proof.
  unfold part. revert n. induction c as [|f c IH]; intros [|n]; cbn [firstn total fold_right nth f_zero value]; rewrite ?Rabs_R0; try lra.
  specialize (IH n). cbn [firstn] in *. fold (total (match c with [] => [] | a :: l => a :: firstn n l end)). fold (total (firstn n c)).
  change (match c with [] => [] | a :: l => a :: firstn n l end) with (firstn (S n) c). cbn [firstn]. lra.
Qed.
Lemma total_nonneg c : 0 <= total c.
Proof. induction c as [|g c IH]; cbn [total fold_right]; [lra|]. fold (total c). pose proof (Rabs_pos (value g)). lra. Qed.
Lemma part_le c n : part c n <= total c.
Proof.
  unfold part. revert n. induction c as [|f c IH]; intros [|n]; cbn [firstn total fold_right]; try lra.
  - fold (total c). pose proof (total_nonneg c). pose proof (Rabs_pos (value f)). lra.
  - fold (total c). fold (total (firstn n c)). specialize (IH n). lra.
Qed.

Definition powers := (nat * nat * nat)%type.
Definition f_step (c : list spec_float) (x y z : spec_float) (st : spec_float * nat) (t : powers) : spec_float * nat :=
  let '(k, j, i) := t in (f_add (fst st) (f_mul (f_mul (f_mul (nth (snd st) c f_zero) (pow x i)) (pow y j)) (pow z k)), S (snd st)).
Definition r_step (c : list spec_float) (X Y Z : R) (st : R * nat) (t : powers) : R * nat :=
  let '(k, j, i) := t in (fst st + value (nth (snd st) c f_zero) * X ^ i * Y ^ j * Z ^ k, S (snd st)).
Definition low (t : powers) : Prop := let '(k, j, i) := t in (k <= 5)%nat /\ (j <= 5)%nat /\ (i <= 5)%nat.

Lemma sum_real c X Y Z ts : Rabs X <= 1 -> Rabs Y <= 1 -> Rabs Z <= 1 -> forall A n,
  Rabs (fst (fold_left (r_step c X Y Z) ts (A, n)) - A) <= part c (n + length ts) - part c n.
Proof.
  intros HX HY HZ. induction ts as [|[[k j] i] ts IH]; intros A n; cbn [fold_left length].
  - rewrite Nat.add_0_r. cbn [fst]. rewrite !Rminus_diag_eq, Rabs_R0 by reflexivity. lra.
  - cbn [r_step fst snd]. set (T := value (nth n c f_zero) * X ^ i * Y ^ j * Z ^ k).
    assert (HT : Rabs T <= Rabs (value (nth n c f_zero))).
    { unfold T. rewrite !Rabs_mult. pose proof (pow_abs_le_1 X i HX) as K1. pose proof (pow_abs_le_1 Y j HY) as K2. pose proof (pow_abs_le_1 Z k HZ) as K3.
      set (a := Rabs (value (nth n c f_zero))). assert (A0 : 0 <= a) by apply Rabs_pos.
      assert (M : forall u v, 0 <= u -> Rabs v <= 1 -> 0 <= u * Rabs v <= u) by (intros u v Hu Hv; pose proof (Rabs_pos v); nra).
      pose proof (M a _ A0 K1) as M1. pose proof (M _ _ (proj1 M1) K2) as M2. pose proof (M _ _ (proj1 M2) K3) as M3. lra. }
    specialize (IH (A + T) (S n)). rewrite Nat.add_succ_r. cbn [Nat.add] in IH. pose proof (part_step c n) as PS.
    match goal with |- Rabs (?r - A) <= _ => replace (r - A) with ((r - (A + T)) + T) by ring end. apply Rle_trans with (1 := Rabs_triang _ _). lra.
Qed.

Lemma sum_float c x y z X Y Z ts : Forall is_binary64 c -> total c <= 3 -> stands x X -> stands y Y -> stands z Z -> Forall low ts -> forall s A n,
  (n + length ts <= 216)%nat -> is_binary64 s -> Rabs A <= part c n -> Rabs (value s - A) <= 27 / 10 ^ 15 * part c n + INR n * (6 / 10 ^ 16) ->
  let r := fst (fold_left (f_step c x y z) ts (s, n)) in let R := fst (fold_left (r_step c X Y Z) ts (A, n)) in
  is_binary64 r /\ Rabs (value r - R) <= 27 / 10 ^ 15 * part c (n + length ts) + INR (n + length ts) * (6 / 10 ^ 16).
Proof.
  intros Bc Tc Sx Sy Sz. destruct fine_units as (U & T & _). pose proof binary64_pos as U0. pose proof tiny_pos as T0.
  induction ts as [|[[k j] i] ts IH]; intros L s A n N Bs HA E; cbn [fold_left length].
  - cbn [fst]. rewrite Nat.add_0_r. split; assumption.
  - apply Forall_cons_iff in L as [(K & J & I) L]. cbn [f_step r_step fst snd]. cbn [length] in N.
    pose proof (part_step c n) as PS. pose proof (part_le c (S n)) as PL. assert (P0 : 0 <= part c n) by apply total_nonneg.
    assert (Bn : is_binary64 (nth n c f_zero)).
    { destruct (Nat.lt_ge_cases n (length c)) as [H|H]; [rewrite Forall_forall in Bc; apply Bc, nth_In, H|rewrite nth_overflow by exact H; split; [exact Logic.I|reflexivity]]. }
    pose proof (Rabs_pos (value (nth n c f_zero))) as C0.
    destruct (term_float (nth n c f_zero) x y z X Y Z i j k Bn ltac:(lra) Sx Sy Sz I J K) as (Bt & Et & Ht).
    set (t := f_mul (f_mul (f_mul (nth n c f_zero) (pow x i)) (pow y j)) (pow z k)) in *. set (T' := value (nth n c f_zero) * X ^ i * Y ^ j * Z ^ k) in *.
    assert (N' : 0 <= INR n <= 216) by (split; [apply pos_INR|replace 216 with (INR 216) by (cbn; ring); apply le_INR; lia]).
    rewrite Nat.add_succ_r. change (S (n + length ts)) with (S n + length ts)%nat.
    assert (W : Rabs (value s + value t - (A + T')) <= 27 / 10 ^ 15 * part c (S n) + INR n * (6 / 10 ^ 16) + / 10 ^ 30).
    { replace (value s + value t - (A + T')) with ((value s - A) + (value t - T')) by ring. apply Rle_trans with (1 := Rabs_triang _ _). lra. }
    assert (V : Rabs (A + T') <= 3) by (apply Rle_trans with (1 := Rabs_triang _ _); lra).
    assert (V' : Rabs (value s + value t) <= 4) by (replace (value s + value t) with ((value s + value t - (A + T')) + (A + T')) by ring; apply Rle_trans with (1 := Rabs_triang _ _); lra).
    destruct (add_abs s t Bs Bt) as [Ba Ea]; [apply below_900; lra|].
    apply IH; [exact L|lia|exact Ba| |].
    + apply Rle_trans with (1 := Rabs_triang _ _). lra.
    + replace (value (f_add s t) - (A + T')) with ((value (f_add s t) - (value s + value t)) + (value s + value t - (A + T'))) by ring.
      apply Rle_trans with (1 := Rabs_triang _ _). rewrite S_INR.
      assert (binary64 * Rabs (value s + value t) <= 12 / 10 ^ 17 * 4) by (apply Rmult_le_compat; auto using Rabs_pos; lra). lra.
Qed.

(** *** The three loops as one *)
Lemma fold_pairs {A B C} (g : B -> C -> A -> A) (l' : list C) : forall (l : list B) (a : A),
  fold_left (fun st k => fold_left (fun st j => g k j st) l' st) l a = fold_left (fun st kj => g (fst kj) (snd kj) st) (list_prod l l') a.
Proof.
  induction l as [|b l IH]; intros a; cbn [fold_left list_prod]; [reflexivity|]. rewrite fold_left_app, IH. f_equal.
  clear IH. revert a. induction l' as [|c l' IH']; intros a; cbn [fold_left map]; [reflexivity|]. apply IH'.
Qed.
Definition exponents (px py pz : nat) : list powers := list_prod (list_prod (seq 0 (S pz)) (seq 0 (S py))) (seq 0 (S px)).
Lemma f_poly_flat p v : f_poly_evaluate pow p v = fst (fold_left (f_step (f_coefs p) (fvx v) (fvy v) (fvz v)) (exponents (f_max_x p) (f_max_y p) (f_max_z p)) (f_zero, 0%nat)).
Proof.
  unfold f_poly_evaluate, exponents. f_equal.
  rewrite (fold_pairs (fun k j st => fold_left (fun st i => f_term pow p v k j i st) (seq 0 (S (f_max_x p))) st)).
  rewrite (fold_pairs (fun kj i st => f_term pow p v (fst kj) (snd kj) i st)).
  generalize (@pair spec_float nat f_zero 0%nat). induction (list_prod (list_prod (seq 0 (S (f_max_z p))) (seq 0 (S (f_max_y p)))) (seq 0 (S (f_max_x p)))) as [|[[k j] i] l IH]; intros a; cbn [fold_left]; [reflexivity|].
  rewrite IH. reflexivity.
Qed.
Lemma r_poly_flat p v : poly_evaluate (real_poly p) v = fst (fold_left (r_step (f_coefs p) (vx v) (vy v) (vz v)) (exponents (f_max_x p) (f_max_y p) (f_max_z p)) (0, 0%nat)).
Proof.
  unfold poly_evaluate, exponents. cbn [real_poly max_x max_y max_z]. rewrite !Nat.add_1_r. f_equal.
  rewrite (fold_pairs (fun k j st => fold_left (fun st i => term (real_poly p) v k j i st) (seq 0 (S (f_max_x p))) st)).
  rewrite (fold_pairs (fun kj i st => term (real_poly p) v (fst kj) (snd kj) i st)).
  generalize (@pair R nat 0 0%nat). induction (list_prod (list_prod (seq 0 (S (f_max_z p))) (seq 0 (S (f_max_y p)))) (seq 0 (S (f_max_x p)))) as [|[[k j] i] l IH]; intros a; cbn [fold_left]; [reflexivity|].
  rewrite IH. f_equal. f_equal. unfold term, r_step. cbn [fst snd real_poly coefs]. rewrite Nat.add_1_r. f_equal. do 4 f_equal.
  change 0 with (value f_zero). apply map_nth.
Qed.
Lemma exponents_low px py pz : (px <= 5)%nat -> (py <= 5)%nat -> (pz <= 5)%nat -> Forall low (exponents px py pz).
Proof.
  intros X Y Z. apply Forall_forall. intros [[k j] i] H. apply in_prod_iff in H as [H Hi]. apply in_prod_iff in H as [Hk Hj]. apply in_seq in Hi, Hj, Hk. cbn [low]. lia.
Qed.
Lemma exponents_length px py pz : length (exponents px py pz) = ((px + 1) * (py + 1) * (pz + 1))%nat.
Proof. unfold exponents, powers. rewrite !prod_length, !seq_length. lia. Qed.
Lemma exponents_head px py pz : exists ts, exponents px py pz = (0%nat, 0%nat, 0%nat) :: ts.
Proof. unfold exponents. cbn [seq list_prod map app]. eexists. reflexivity. Qed.

(** A polynomial whose coefficients add up to at most 3. *)
Lemma rsm_poly_float p v V : complete p -> total (f_coefs p) <= 3 -> stands (fvx v) (vx V) -> stands (fvy v) (vy V) -> stands (fvz v) (vz V) ->
  is_binary64 (f_poly_evaluate pow p v) /\ Rabs (value (f_poly_evaluate pow p v) - poly_evaluate (real_poly p) V) <= 30 / 10 ^ 14 /\
  Rabs (poly_evaluate (real_poly p) V) <= 3 /\
  (forall c0 rest, f_coefs p = c0 :: rest -> Rabs (poly_evaluate (real_poly p) V - value c0) <= total rest).
Proof.
  intros (Px & Py & Pz & L & B) T Sx Sy Sz. rewrite f_poly_flat, r_poly_flat. pose proof (exponents_low _ _ _ Px Py Pz) as Lo. pose proof (exponents_length (f_max_x p) (f_max_y p) (f_max_z p)) as Le.
  assert (N : (length (exponents (f_max_x p) (f_max_y p) (f_max_z p)) <= 216)%nat).
  { rewrite Le. apply Nat.le_trans with ((6 * 6) * 6)%nat; [|lia]. apply Nat.mul_le_mono; [apply Nat.mul_le_mono|]; lia. }
  destruct (sum_float (f_coefs p) _ _ _ _ _ _ (exponents (f_max_x p) (f_max_y p) (f_max_z p)) B T Sx Sy Sz Lo f_zero 0 0%nat) as [Bf E].
  - exact N.
  - split; [exact I|reflexivity].
  - rewrite Rabs_R0. apply total_nonneg.
  - cbn [f_zero value INR]. rewrite Rminus_diag_eq, Rabs_R0 by reflexivity. unfold part. cbn [firstn total fold_right]. lra.
  - cbn [Nat.add] in *. split; [exact Bf|]. split; [|split].
    + apply Rle_trans with (1 := E). pose proof (part_le (f_coefs p) (length (exponents (f_max_x p) (f_max_y p) (f_max_z p)))).
      apply le_INR in N. replace (INR 216) with 216 in N by (cbn; ring). lra.
    + pose proof (sum_real (f_coefs p) _ _ _ (exponents (f_max_x p) (f_max_y p) (f_max_z p)) (proj2 (proj2 Sx)) (proj2 (proj2 Sy)) (proj2 (proj2 Sz)) 0 0%nat) as S.
      rewrite Rminus_0_r in S. apply Rle_trans with (1 := S). pose proof (part_le (f_coefs p) (0 + length (exponents (f_max_x p) (f_max_y p) (f_max_z p)))).
      pose proof (total_nonneg (firstn 0 (f_coefs p))). unfold part at 2. lra.
    + intros c0 rest C. destruct (exponents_head (f_max_x p) (f_max_y p) (f_max_z p)) as (ts & ->). rewrite C. cbn [fold_left r_step fst snd nth Rpow_def.pow].
      replace (0 + value c0 * 1 * 1 * 1) with (value c0) by ring.
      pose proof (sum_real (c0 :: rest) _ _ _ ts (proj2 (proj2 Sx)) (proj2 (proj2 Sy)) (proj2 (proj2 Sz)) (value c0) 1%nat) as S.
      apply Rle_trans with (1 := S). cbn [Nat.add]. unfold part. cbn [firstn]. assert (TC : forall a l, total (a :: l) = Rabs (value a) + total l) by reflexivity. rewrite !TC. match goal with |- context [firstn ?k rest] => pose proof (part_le rest k) as Q end. unfold part in Q. pose proof (total_nonneg []) as Q0. lra.
Qed.
End Power.

(** Repeated multiplication is accurate enough. *)
Lemma pow_mul_step x n k t : is_binary64 x -> Rabs (value x) <= 2 -> (n <= 4)%nat -> 0 <= t <= / 10 ^ 20 -> (k <= 4)%nat ->
  is_binary64 (f_pow_mul x n) -> Rabs (value (f_pow_mul x n) - value x ^ n) <= ((1 + binary64) ^ k - 1) * Rabs (value x ^ n) + t ->
  is_binary64 (f_pow_mul x (S n)) /\ Rabs (value (f_pow_mul x (S n)) - value x ^ S n) <= ((1 + binary64) ^ S k - 1) * Rabs (value x ^ S n) + (4 * t + tiny).
Proof.
  intros B H N Ht Hk Bp E. destruct fine_units as (U & T & _). pose proof binary64_pos as U0. pose proof tiny_pos as T0. cbn [f_pow_mul].
  pose proof (grow_ge binary64 k ltac:(lra)) as G. pose proof (small_growth k ltac:(lia)) as G'. unfold growth in G'. set (q := (1 + binary64) ^ k) in *.
  assert (P : Rabs (value x ^ n) <= 16).
  { rewrite <- RPow_abs. apply Rle_trans with (2 ^ n); [apply pow_incr; split; [apply Rabs_pos|exact H]|]. replace 16 with (2 ^ 4) by ring. apply Rle_pow; [lra|exact N]. }
  pose proof (Rabs_pos (value x ^ n)) as P0. pose proof (Rabs_pos (value x)) as X0.
  assert (V : Rabs (value (f_pow_mul x n)) <= q * Rabs (value x ^ n) + t) by (replace (value (f_pow_mul x n)) with ((value (f_pow_mul x n) - value x ^ n) + value x ^ n) by ring; apply Rle_trans with (1 := Rabs_triang _ _); lra).
  assert (QP : q * Rabs (value x ^ n) <= 1.01 * 16) by (apply Rmult_le_compat; lra).
  assert (M : Rabs (value (f_pow_mul x n) * value x) <= q * (Rabs (value x ^ n) * Rabs (value x)) + t * 2).
  { rewrite Rabs_mult. apply Rle_trans with ((q * Rabs (value x ^ n) + t) * Rabs (value x)); [apply Rmult_le_compat_r; assumption|]. assert (t * Rabs (value x) <= t * 2) by (apply Rmult_le_compat_l; lra). lra. }
  assert (PX : 0 <= Rabs (value x ^ n) * Rabs (value x) <= 16 * 2) by (split; [apply Rmult_le_pos; assumption|apply Rmult_le_compat; assumption]).
  set (w := Rabs (value x ^ n) * Rabs (value x)) in *.
  assert (QW : q * w <= 1.01 * 32) by (apply Rmult_le_compat; lra).
  destruct (mul_abs (f_pow_mul x n) x Bp B) as [B' E']; [apply below_900; lra|]. split; [exact B'|].
  replace (value (f_mul (f_pow_mul x n) x) - value x ^ S n) with ((value (f_mul (f_pow_mul x n) x) - value (f_pow_mul x n) * value x) + (value (f_pow_mul x n) - value x ^ n) * value x) by (cbn [pow]; ring).
  apply Rle_trans with (1 := Rabs_triang _ _). rewrite (Rabs_mult (value (f_pow_mul x n) - value x ^ n)).
  replace (Rabs (value x ^ S n)) with w by (unfold w; rewrite <- Rabs_mult; f_equal; cbn [pow]; ring).
  assert (W1 : Rabs (value (f_pow_mul x n) - value x ^ n) * Rabs (value x) <= (q - 1) * w + t * 2).
  { apply Rle_trans with (((q - 1) * Rabs (value x ^ n) + t) * Rabs (value x)); [apply Rmult_le_compat_r; assumption|]. assert (t * Rabs (value x) <= t * 2) by (apply Rmult_le_compat_l; lra). unfold w. lra. }
  assert (W2 : binary64 * Rabs (value (f_pow_mul x n) * value x) <= binary64 * (q * w + t * 2)) by (apply Rmult_le_compat_l; lra).
  assert (W3 : binary64 * (t * 2) <= 1 * (t * 2)) by (apply Rmult_le_compat_r; lra).
  change ((1 + binary64) ^ S k) with ((1 + binary64) * q). lra.
Qed.
Lemma pow_mul_accurate : accurate_power f_pow_mul.
Proof.
  intros x n B H N. destruct fine_units as (U & T & _). pose proof binary64_pos as U0. pose proof tiny_pos as T0.
  assert (V1 : value (f_of_Z 1) = 1) by (change (f_of_Z 1) with (S754_finite false 4503599627370496 (-52)); rewrite value_sign; cbn [sign]; change (pw (-52)) with (/ 2 ^ 52); lra).
  assert (S0 : is_binary64 (f_pow_mul x 0) /\ Rabs (value (f_pow_mul x 0) - value x ^ 0) <= ((1 + binary64) ^ 0 - 1) * Rabs (value x ^ 0) + 0).
  { cbn [f_pow_mul pow]. split; [split; [exact I|vm_compute; reflexivity]|]. rewrite V1, Rminus_diag_eq, Rabs_R0 by reflexivity. lra. }
  destruct S0 as [B0 E0].
  destruct (pow_mul_step x 0 0 0 B H ltac:(lia) ltac:(lra) ltac:(lia) B0 E0) as [B1 E1].
  destruct (pow_mul_step x 1 1 (4 * 0 + tiny) B H ltac:(lia) ltac:(lra) ltac:(lia) B1 E1) as [B2 E2].
  destruct (pow_mul_step x 2 2 (4 * (4 * 0 + tiny) + tiny) B H ltac:(lia) ltac:(lra) ltac:(lia) B2 E2) as [B3 E3].
  destruct (pow_mul_step x 3 3 (4 * (4 * (4 * 0 + tiny) + tiny) + tiny) B H ltac:(lia) ltac:(lra) ltac:(lia) B3 E3) as [B4 E4].
  destruct (pow_mul_step x 4 4 (4 * (4 * (4 * (4 * 0 + tiny) + tiny) + tiny) + tiny) B H ltac:(lia) ltac:(lra) ltac:(lia) B4 E4) as [B5 E5].
  fold (pw (-50)). fold (pw (-1060)).
  assert (Q : forall k, (k <= 5)%nat -> (1 + binary64) ^ k - 1 <= pw (-50)).
  { intros k Hk. apply Rle_trans with ((1 + binary64) ^ 5 - 1).
    - pose proof (grow_mono binary64 k 5 ltac:(lra) Hk). lra.
    - replace (pw (-50)) with (8 * binary64) by (rewrite <- binary64_pw; change (-50)%Z with (3 + -53)%Z; rewrite pw_add; change (pw 3) with (2 ^ 3); ring).
      set (u := binary64) in *. assert (u * u <= u * / 1000) by (apply Rmult_le_compat_l; lra).
      assert (0 <= u * u) by (apply Rmult_le_pos; lra). assert (u * u * u <= u * / 1000 * / 1000) by (apply Rmult_le_compat; lra).
      assert (0 <= u * u * u) by (apply Rmult_le_pos; lra). assert (u * u * u * u <= u * / 1000 * / 1000 * / 1000) by (apply Rmult_le_compat; lra).
      assert (0 <= u * u * u * u) by (apply Rmult_le_pos; lra). assert (u * u * u * u * u <= u * / 1000 * / 1000 * / 1000 * / 1000) by (apply Rmult_le_compat; lra).
      replace ((1 + u) ^ 5 - 1) with (5 * u + 10 * (u * u) + 10 * (u * u * u) + 5 * (u * u * u * u) + u * u * u * u * u) by ring. lra. }
  assert (TT : 400 * tiny <= pw (-1060)).
  { unfold tiny. replace (pw (-1060)) with (2 ^ 14 * pw (-1074)) by (change (-1060)%Z with (14 + -1074)%Z; rewrite pw_add; reflexivity). pose proof (pw_pos (-1074)). lra. }
  assert (F : forall k f r t, (k <= 5)%nat -> t <= 400 * tiny -> Rabs (value f - r) <= ((1 + binary64) ^ k - 1) * Rabs r + t -> Rabs (value f - r) <= pw (-50) * Rabs r + pw (-1060)).
  { intros k f r t Hk Ht E. apply Rle_trans with (1 := E). pose proof (Q k Hk). assert (((1 + binary64) ^ k - 1) * Rabs r <= pw (-50) * Rabs r) by (apply Rmult_le_compat_r; [apply Rabs_pos|assumption]). lra. }
  do 6 (destruct n as [|n]; [split; [assumption|eapply F; [|  |eassumption]; [lia|lra]]|]). lia.
Qed.
