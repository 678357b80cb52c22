(** Lemmas about the display range of a histogram in binary64. *)
Require Import ZArith Reals List Bool Lra Lia SpecFloat.
Require Import Verif.Base Verif.BaseFacts Verif.DisplayModel Verif.CoordFloatModel Verif.FloatModel Verif.FloatSpec Verif.FloatProofs Verif.FloatNearest
  Verif.TileFloatProofs Verif.DmsFloatModel Verif.DmsFloatProofs Verif.DisplayFloatModel Verif.DisplayFloatSpec Verif.DisplayFloatProofs.
Import ListNotations.
Local Open Scope R_scope.
Local Notation pw := (powerRZ 2).

(** ** Buckets *)
Lemma eqb_IZR c : (c =? 0)%Z = if Req_EM_T (IZR c) 0 then true else false.
Proof.
  destruct (Req_EM_T (IZR c) 0) as [E|E]; [apply eq_IZR in E; now apply Z.eqb_eq|]. apply Z.eqb_neq. intros ->. now apply E.
Qed.
Lemma first_nonzero_IZR l : first_nonzero (map IZR l) = c_first_nonzero l.
Proof. induction l as [|c r IH]; [reflexivity|]. cbn [map first_nonzero c_first_nonzero]. rewrite (eqb_IZR c), IH. now destruct Req_EM_T. Qed.
Lemma nth_IZR l i : nth i (map IZR l) 0 = IZR (nth i l 0%Z).
Proof. change 0 with (IZR 0). apply map_nth. Qed.
Lemma last_nonzero_IZR l i : last_nonzero (map IZR l) i = c_last_nonzero l i.
Proof. induction i as [|j IH]; [reflexivity|]. cbn [last_nonzero c_last_nonzero]. rewrite nth_IZR, (eqb_IZR (nth (S j) l 0%Z)), IH. now destruct Req_EM_T. Qed.
Lemma cumulative_IZR l b : cumulative (IZR b) (map IZR l) = map IZR (c_cumulative b l).
Proof. revert b. induction l as [|c r IH]; intros b; [reflexivity|]. cbn [map cumulative c_cumulative]. rewrite <- plus_IZR, IH. reflexivity. Qed.
Lemma first_nonzero_le l : (c_first_nonzero l <= List.length l)%nat.
Proof. induction l as [|c r IH]; cbn [c_first_nonzero List.length]; [lia|]. destruct (c =? 0)%Z; lia. Qed.
Lemma last_nonzero_le l i : (c_last_nonzero l i <= i)%nat.
Proof. induction i as [|j IH]; cbn [c_last_nonzero]; [lia|]. destruct (nth (S j) l 0 =? 0)%Z; lia. Qed.
Lemma find_low_le cum t i k : (f_find_low cum t i k <= i + k)%nat.
Proof. revert i. induction k as [|k IH]; intros i; cbn [f_find_low]; [lia|]. destruct SFltb; [specialize (IH (S i)); lia|lia]. Qed.
Lemma find_high_le cum t i : (f_find_high cum t i <= i)%nat.
Proof. induction i as [|j IH]; cbn [f_find_high]; [lia|]. destruct SFltb; lia. Qed.

Lemma cumulative_bound l b : Forall (fun c => (0 <= c)%Z) l -> (0 <= b)%Z ->
  Forall (fun c => (0 <= c <= b + fold_right Z.add 0 l)%Z) (c_cumulative b l).
Proof.
  revert b. induction l as [|c r IH]; intros b F B; [constructor|]. inversion F as [|? ? Hc Fr]; subst. cbn [c_cumulative fold_right].
  assert (S : (0 <= fold_right Z.add 0 r)%Z) by (clear - Fr; induction Fr; cbn [fold_right]; lia).
  constructor; [lia|]. specialize (IH (c + b)%Z Fr ltac:(lia)). eapply Forall_impl; [|exact IH]. cbn beta. intros x Hx. lia.
Qed.
Lemma nth_bound l i : pixel_counts l -> (0 <= nth i (c_cumulative 0 l) 0 < 2 ^ 45)%Z.
Proof.
  intros (F & S & _). pose proof (cumulative_bound l 0 F ltac:(lia)) as B. destruct (nth_in_or_default i (c_cumulative 0 l) 0%Z) as [I|E]; [|rewrite E; lia].
  rewrite Forall_forall in B. specialize (B _ I). cbn beta in B. lia.
Qed.

(** ** Thresholds are exact *)
Lemma close_whole t K : is_binary64 t -> (0 < K < 2 ^ 53)%Z -> Rabs (value t - IZR K) <= IZR K * pw (-54) -> value t = IZR K.
Proof.
  intros B HK H. destruct (binary64_form t B) as (M & k & V & HM & Hk). pose proof (Z.log2_spec K ltac:(lia)) as [J1 J2]. set (j := Z.log2 K) in *.
  assert (J0 : (0 <= j)%Z) by apply Z.log2_nonneg. assert (J53 : (j < 53)%Z) by (apply Z.log2_lt_pow2; lia).
  apply IZR_le in J1. apply IZR_lt in J2. rewrite <- pw_IZR in J1, J2 by lia. unfold Z.succ in J2.
  assert (U : Rabs (value t - IZR K) < pw (j - 53)).
  { apply Rle_lt_trans with (1 := H). replace (pw (j - 53)) with (pw (j + 1) * pw (-54)) by (rewrite <- pw_add; f_equal; lia). apply Rmult_lt_compat_r; [apply pw_pos|exact J2]. }
  pose proof (pw_pos (j - 53)) as P53.
  destruct (Z_lt_le_dec k (j - 53)) as [L|L].
  - exfalso. assert (T : value t < pw (j - 1)).
    { rewrite V. apply Rle_lt_trans with (Rabs (IZR M) * pw k); [apply Rmult_le_compat_r; [apply Rlt_le, pw_pos|apply Rle_abs]|].
      rewrite <- abs_IZR. apply IZR_lt in HM. rewrite <- pw_IZR in HM by lia. apply Rlt_le_trans with (pw 53 * pw k); [apply Rmult_lt_compat_r; [apply pw_pos|exact HM]|].
      rewrite <- pw_add. apply pw_le. lia. }
    assert (Q : pw (j - 53) <= pw (j - 1)) by (apply pw_le; lia). assert (E : pw j = 2 * pw (j - 1)).
    { replace (2 * pw (j - 1)) with (pw 1 * pw (j - 1)) by (rewrite (pw_IZR 1) by lia; reflexivity). rewrite <- pw_add. f_equal. lia. }
    apply abs_lt_interval in U || (apply Rabs_def2 in U). lra.
  - set (D := (M * 2 ^ (k - (j - 53)) - K * 2 ^ (53 - j))%Z).
    assert (E : value t - IZR K = IZR D * pw (j - 53)).
    { unfold D. rewrite minus_IZR, !mult_IZR, <- !pw_IZR by lia. rewrite Rmult_minus_distr_r, !Rmult_assoc, <- !pw_add. rewrite V.
      replace (k - (j - 53) + (j - 53))%Z with k by lia. replace (53 - j + (j - 53))%Z with 0%Z by lia. cbn [powerRZ]. ring. }
    rewrite E, Rabs_mult, (Rabs_pos_eq (pw (j - 53))) in U by lra.
    assert (D0 : Rabs (IZR D) < 1) by (apply Rmult_lt_reg_r with (pw (j - 53)); lra). rewrite <- abs_IZR in D0. apply lt_IZR in D0.
    assert (Z0 : D = 0%Z) by lia. rewrite Z0 in E. rewrite Rmult_0_l in E. lra.
Qed.

Lemma threshold_exact L c N t x : (0 < c <= 100)%Z -> Rabs (L * 100 - IZR c) <= IZR c * pw (-55) -> (0 <= N < 2 ^ 45)%Z -> nearest (L * IZR N) t ->
  (IZR x < value t <-> IZR x < IZR c / 100 * IZR N) /\ (value t < IZR x <-> IZR c / 100 * IZR N < IZR x).
Proof.
  intros C HL HN T. set (X := IZR c / 100 * IZR N). assert (N0 : 0 <= IZR N) by (apply IZR_le; lia).
  assert (N45 : IZR N <= pw 45) by (rewrite pw_IZR by lia; apply IZR_le; lia).
  assert (C0 : 0 < IZR c <= 100) by (split; [apply IZR_lt|apply IZR_le]; lia).
  assert (X0 : 0 <= X <= pw 45). { unfold X. pose proof (pw_pos 45). split; [apply Rmult_le_pos; lra|]. replace (pw 45) with (1 * pw 45) by ring. apply Rmult_le_compat; lra. }
  assert (EX : Rabs (L * IZR N - X) <= X * pw (-55)).
  { replace (L * IZR N - X) with ((L * 100 - IZR c) * (IZR N / 100)) by (unfold X; field). rewrite Rabs_mult, (Rabs_pos_eq (IZR N / 100)) by lra.
    replace (X * pw (-55)) with (IZR c * pw (-55) * (IZR N / 100)) by (unfold X; field). apply Rmult_le_compat_r; lra. }
  assert (P55 : pw (-55) = / 36028797018963968) by apply pw_neg.
  destruct (Z.eq_dec (c * N mod 100) 0) as [D|D].
  - apply Z.mod_divide in D; [|lia]. destruct D as (K & EK). assert (V : X = IZR K).
    { unfold X. assert (E : IZR (c * N) = IZR (K * 100)) by now rewrite EK. rewrite !mult_IZR in E. lra. }
    enough (E : value t = X) by (rewrite E; tauto).
    assert (Kn : (0 <= K)%Z) by lia. destruct (Z.eq_dec K 0) as [->|Nz].
    + rewrite V in *. rewrite Rmult_0_l in EX. assert (E0 : L * IZR N = 0) by (apply abs_interval in EX; lra). rewrite E0 in T.
      apply (nearest_exact _ _ _ T (proj1 zero_float)). apply zero_float.
    + rewrite V. apply close_whole; [apply T|split; [lia|]|].
      * assert (IZR K <= IZR (2 ^ 45)) as HK by (rewrite <- V, <- pw_IZR by lia; apply X0). apply le_IZR in HK. lia.
      * destruct (of_Z_exact K) as [BK VK]; [assert (IZR K <= IZR (2 ^ 45)) as HK by (rewrite <- V, <- pw_IZR by lia; apply X0); apply le_IZR in HK; lia|].
        destruct T as [_ T]. destruct (T _ BK) as [T1 _]. rewrite VK in T1. rewrite V in EX. rewrite (Rabs_minus_sym (IZR K)) in T1.
        replace (value t - IZR K) with ((value t - L * IZR N) + (L * IZR N - IZR K)) by ring. apply Rle_trans with (1 := Rabs_triang _ _).
        assert (P54 : pw (-54) = 2 * pw (-55)) by (rewrite P55, (pw_neg 54); change (2 ^ 54)%Z with 18014398509481984%Z; lra). rewrite P54. lra.
  - assert (B : Rabs (L * IZR N) <= pw 46).
    { assert (E : pw 46 = 2 * pw 45) by (change 46%Z with (1 + 45)%Z; rewrite (pw_add 1), (pw_IZR 1) by lia; reflexivity). apply abs_interval in EX. apply Rabs_le. rewrite E. nra. }
    pose proof (abs_error _ _ 46 T ltac:(lia) B) as E. change (46 - 53)%Z with (-7)%Z in E. rewrite (pw_neg 7) in E. change (2 ^ 7)%Z with 128%Z in E.
    assert (E2 : Rabs (L * IZR N - X) <= / 1000).
    { apply Rle_trans with (1 := EX). rewrite P55. rewrite (pw_IZR 45) in X0 by lia. change (2 ^ 45)%Z with 35184372088832%Z in X0. lra. }
    assert (F : / 100 <= Rabs (IZR x - X)).
    { assert (G : (1 <= Z.abs (100 * x - c * N))%Z). { destruct (Z.eq_dec (100 * x - c * N) 0) as [Z0|]; [|lia]. exfalso. apply D. replace (c * N)%Z with (x * 100)%Z by lia. apply Z_mod_mult. }
      apply IZR_le in G. rewrite abs_IZR, minus_IZR, !mult_IZR in G. replace (100 * IZR x - IZR c * IZR N) with (100 * (IZR x - X)) in G by (unfold X; field).
      rewrite Rabs_mult, (Rabs_pos_eq 100) in G by lra. lra. }
    apply abs_interval in E. apply abs_interval in E2. unfold Rabs in F. destruct Rcase_abs in F; split; split; lra.
Qed.

Definition percentage (c : Z) : Prop := c = 2%Z \/ c = 97%Z \/ c = 98%Z.
Lemma literal_value c : percentage c -> is_binary64 (f_literal c 100) /\ Rabs (value (f_literal c 100) * 100 - IZR c) <= IZR c * pw (-55) /\ 0 <= value (f_literal c 100) <= 1.
Proof.
  rewrite (pw_neg 55). change (2 ^ 55)%Z with 36028797018963968%Z. intros [E0|[E0|E0]]; rewrite E0.
  - assert (E : f_literal 2 100 = S754_finite false 5764607523034235 (-58)) by (vm_compute; reflexivity). rewrite E. split; [split; [exact I|vm_compute; reflexivity]|].
    rewrite value_sign, pw_neg. cbn [sign]. change (2 ^ 58)%Z with 288230376151711744%Z. split; [apply Rabs_le|]; lra.
  - assert (E : f_literal 97 100 = S754_finite false 8736983277098762 (-53)) by (vm_compute; reflexivity). rewrite E. split; [split; [exact I|vm_compute; reflexivity]|].
    rewrite value_sign, pw_neg. cbn [sign]. change (2 ^ 53)%Z with 9007199254740992%Z. split; [apply Rabs_le|]; lra.
  - assert (E : f_literal 98 100 = S754_finite false 8827055269646172 (-53)) by (vm_compute; reflexivity). rewrite E. split; [split; [exact I|vm_compute; reflexivity]|].
    rewrite value_sign, pw_neg. cbn [sign]. change (2 ^ 53)%Z with 9007199254740992%Z. split; [apply Rabs_le|]; lra.
Qed.
Lemma threshold_nearest c N : percentage c -> (0 <= N < 2 ^ 45)%Z -> nearest (value (f_literal c 100) * IZR N) (f_mul (f_literal c 100) (f_of_Z N)).
Proof.
  intros C HN. destruct (literal_value c C) as (B & _ & L). destruct (of_Z_exact N) as [BN VN]; [lia|]. rewrite <- VN. apply mul_nearest; auto.
  apply mul_finite; [apply B|apply BN|]. rewrite VN. apply Rle_lt_trans with (1 * pw 45); [|rewrite Rmult_1_l; apply pw_lt; lia].
  apply abs_mul_le; rewrite Rabs_pos_eq; try lra; [|apply IZR_le; lia]. rewrite pw_IZR by lia. apply IZR_le. lia.
Qed.

Lemma find_low_IZR c cum N : percentage c -> (0 <= N < 2 ^ 45)%Z -> (forall i, 0 <= nth i cum 0 < 2 ^ 45)%Z ->
  forall k i, find_low (map IZR cum) (IZR c / 100 * IZR N) i k = f_find_low cum (f_mul (f_literal c 100) (f_of_Z N)) i k.
Proof.
  intros C HN Hc. induction k as [|k IH]; intros i; [reflexivity|]. cbn [find_low f_find_low]. rewrite nth_IZR.
  pose proof (threshold_nearest c N C HN) as T. destruct (literal_value c C) as (_ & HL & _).
  destruct (threshold_exact _ c N _ (nth i cum 0%Z) ltac:(destruct C as [E0|[E0|E0]]; rewrite E0; lia) HL HN T) as [A _].
  destruct (of_Z_exact (nth i cum 0%Z)) as [B V]; [specialize (Hc i); lia|].
  pose proof (ltb_value _ _ B (proj1 T)) as Lt. rewrite V in Lt.
  destruct (Rlt_dec (IZR (nth i cum 0%Z)) (IZR c / 100 * IZR N)) as [G|G].
  - apply A in G. apply Lt in G. rewrite G. apply IH.
  - destruct (SFltb _ _) eqn:E; [|reflexivity]. exfalso. apply G, A, Lt. exact eq_refl.
Qed.
Lemma find_high_IZR c cum N : percentage c -> (0 <= N < 2 ^ 45)%Z -> (forall i, 0 <= nth i cum 0 < 2 ^ 45)%Z ->
  forall i, find_high (map IZR cum) (IZR c / 100 * IZR N) i = f_find_high cum (f_mul (f_literal c 100) (f_of_Z N)) i.
Proof.
  intros C HN Hc. induction i as [|j IH]; [reflexivity|]. cbn [find_high f_find_high]. rewrite nth_IZR.
  pose proof (threshold_nearest c N C HN) as T. destruct (literal_value c C) as (_ & HL & _).
  destruct (threshold_exact _ c N _ (nth (S j) cum 0%Z) ltac:(destruct C as [E0|[E0|E0]]; rewrite E0; lia) HL HN T) as [_ A].
  destruct (of_Z_exact (nth (S j) cum 0%Z)) as [B V]; [specialize (Hc (S j)); lia|].
  pose proof (ltb_value _ _ (proj1 T) B) as Lt. rewrite V in Lt.
  destruct (Rgt_dec (IZR (nth (S j) cum 0%Z)) (IZR c / 100 * IZR N)) as [G|G].
  - apply Rgt_lt in G. apply A in G. apply Lt in G. rewrite G. apply IH.
  - destruct (SFltb _ _) eqn:E; [|reflexivity]. exfalso. apply G, Rlt_gt, A, Lt. exact eq_refl.
Qed.

(** ** The display range *)
Lemma add_err x y k : is_binary64 x -> is_binary64 y -> (-1000 <= k <= 800)%Z -> Rabs (value x + value y) <= pw k ->
  is_binary64 (f_add x y) /\ Rabs (value (f_add x y) - (value x + value y)) <= pw (k - 53) /\ Rabs (value (f_add x y)) <= pw k.
Proof.
  intros Bx By K H. assert (N : nearest (value x + value y) (f_add x y)).
  { apply add_nearest; auto. apply add_finite; [apply Bx|apply By|]. apply Rle_lt_trans with (1 := H). apply pw_lt. lia. }
  split; [apply N|]. split; [apply (abs_error _ _ k N); [lia|exact H]|apply (abs_nearest_le _ _ _ N); [lia|exact H]].
Qed.
Lemma sub_err x y k : is_binary64 x -> is_binary64 y -> (-1000 <= k <= 800)%Z -> Rabs (value x - value y) <= pw k ->
  is_binary64 (f_sub x y) /\ Rabs (value (f_sub x y) - (value x - value y)) <= pw (k - 53) /\ Rabs (value (f_sub x y)) <= pw k.
Proof.
  intros Bx By K H. assert (N : nearest (value x - value y) (f_sub x y)).
  { apply sub_nearest; auto. apply sub_finite; [apply Bx|apply By|]. apply Rle_lt_trans with (1 := H). apply pw_lt. lia. }
  split; [apply N|]. split; [apply (abs_error _ _ k N); [lia|exact H]|apply (abs_nearest_le _ _ _ N); [lia|exact H]].
Qed.
Lemma mul_err x y k : is_binary64 x -> is_binary64 y -> (-1000 <= k <= 800)%Z -> Rabs (value x * value y) <= pw k ->
  is_binary64 (f_mul x y) /\ Rabs (value (f_mul x y) - value x * value y) <= pw (k - 53) /\ Rabs (value (f_mul x y)) <= pw k.
Proof.
  intros Bx By K H. assert (N : nearest (value x * value y) (f_mul x y)).
  { apply mul_nearest; auto. apply mul_finite; [apply Bx|apply By|]. apply Rle_lt_trans with (1 := H). apply pw_lt. lia. }
  split; [apply N|]. split; [apply (abs_error _ _ k N); [lia|exact H]|apply (abs_nearest_le _ _ _ N); [lia|exact H]].
Qed.
Lemma div_err x y k : is_binary64 x -> is_binary64 y -> value y <> 0 -> (-1000 <= k <= 800)%Z -> Rabs (value x / value y) <= pw k ->
  is_binary64 (f_div x y) /\ Rabs (value (f_div x y) - value x / value y) <= pw (k - 53) /\ Rabs (value (f_div x y)) <= pw k.
Proof.
  intros Bx By Ny K H. assert (N : nearest (value x / value y) (f_div x y)).
  { apply div_nearest; auto. apply div_finite; [apply Bx|apply By|exact Ny|]. apply Rle_lt_trans with (1 := H). apply pw_lt. lia. }
  split; [apply N|]. split; [apply (abs_error _ _ k N); [lia|exact H]|apply (abs_nearest_le _ _ _ N); [lia|exact H]].
Qed.
Lemma pw_S k : pw (k + 1) = 2 * pw k.
Proof. rewrite pw_add, (pw_IZR 1) by lia. change (2 ^ 1)%Z with 2%Z. ring. Qed.
Lemma pw_to j k : (j <= k)%Z -> pw k = IZR (2 ^ (k - j)) * pw j.
Proof. intros H. rewrite <- pw_IZR, <- pw_add by lia. f_equal. lia. Qed.
Lemma abs_sum x y a b : Rabs x <= a -> Rabs y <= b -> Rabs (x + y) <= a + b.
Proof. intros. apply Rle_trans with (1 := Rabs_triang _ _). lra. Qed.
Lemma abs_diff x y a b : Rabs x <= a -> Rabs y <= b -> Rabs (x - y) <= a + b.
Proof. intros. apply abs_sum; [assumption|now rewrite Rabs_Ropp]. Qed.

(** Values at buckets. *)
Lemma bucket_error first last n j k v mv : is_binary64 first -> is_binary64 last -> is_binary64 v ->
  (0 <= j <= 41)%Z -> (0 <= k <= 400)%Z -> (0 < n < 2 ^ 53)%Z -> pw (j - 1) <= IZR n -> IZR n <= pw j ->
  Rabs (value first) <= pw k -> Rabs (value last) <= pw k -> Rabs (value v - mv) <= pw (j - 51) -> Rabs mv <= pw (j + 1) ->
  let r := f_add (f_mul v (f_div (f_sub last first) (f_of_Z n))) first in
  is_binary64 r /\ Rabs (value r - (mv * ((value last - value first) / IZR n) + value first)) <= pw (k - 46) /\ Rabs (value r) <= pw (k + 5).
Proof.
  intros Bf Bl Bv J K Hn N1 N2 Af Al Ev Am r. destruct (of_Z_exact n) as [Bn Vn]; [lia|]. assert (Pn : 0 < IZR n) by (apply IZR_lt; lia).
  assert (In : / IZR n <= pw (1 - j)).
  { replace (1 - j)%Z with (- (j - 1))%Z by lia. rewrite (powerRZ_neg' 2). apply Rinv_le_contravar; [apply pw_pos|exact N1]. }
  assert (In0 : 0 < / IZR n) by now apply Rinv_0_lt_compat.
  destruct (sub_err last first (k + 1) Bl Bf ltac:(lia)) as (Bd & Ed & Ad). { rewrite pw_S. replace (2 * pw k) with (pw k + pw k) by ring. now apply abs_diff. }
  set (D := f_sub last first) in *.
  assert (Qd : Rabs (value D / value (f_of_Z n)) <= pw (k - j + 2)).
  { rewrite Vn. replace (k - j + 2)%Z with ((k + 1) + (1 - j))%Z by lia. rewrite pw_add. apply abs_mul_le; [exact Ad|]. rewrite Rabs_pos_eq by lra. exact In. }
  destruct (div_err D (f_of_Z n) (k - j + 2) Bd Bn ltac:(rewrite Vn; lra) ltac:(lia) Qd) as (Bs & Es & As). rewrite Vn in Es. set (step := f_div D (f_of_Z n)) in *.
  set (stepR := (value last - value first) / IZR n).
  assert (Estep : Rabs (value step - stepR) <= pw (k - j - 50)).
  { replace (value step - stepR) with ((value step - value D / IZR n) + (value D - (value last - value first)) * / IZR n) by (unfold stepR; field; lra).
    replace (k - j - 50)%Z with ((k - j - 51) + 1)%Z by lia. rewrite pw_S. replace (2 * pw (k - j - 51)) with (pw (k - j - 51) + pw (k - j - 51)) by ring.
    apply abs_sum; [replace (k - j - 51)%Z with (k - j + 2 - 53)%Z by lia; exact Es|].
    replace (k - j - 51)%Z with ((k + 1 - 53) + (1 - j))%Z by lia. rewrite pw_add. apply abs_mul_le; [exact Ed|]. rewrite Rabs_pos_eq by lra. exact In. }
  assert (Av : Rabs (value v) <= pw (j + 2)).
  { replace (value v) with (mv + (value v - mv)) by ring. replace (j + 2)%Z with ((j + 1) + 1)%Z by lia. rewrite pw_S. replace (2 * pw (j + 1)) with (pw (j + 1) + pw (j + 1)) by ring.
    apply abs_sum; [exact Am|]. apply Rle_trans with (1 := Ev). apply pw_le. lia. }
  destruct (mul_err v step (k + 4) Bv Bs ltac:(lia)) as (Bm & Em & Aml). { replace (k + 4)%Z with ((j + 2) + (k - j + 2))%Z by lia. rewrite pw_add. now apply abs_mul_le. }
  destruct (add_err (f_mul v step) first (k + 5) Bm Bf ltac:(lia)) as (Br & Er & Ar).
  { replace (k + 5)%Z with ((k + 4) + 1)%Z by lia. rewrite pw_S. replace (2 * pw (k + 4)) with (pw (k + 4) + pw (k + 4)) by ring. apply abs_sum; [exact Aml|]. apply Rle_trans with (1 := Af). apply pw_le. lia. }
  fold r in Br, Er, Ar. split; [exact Br|]. split; [|exact Ar].
  replace (value r - (mv * stepR + value first)) with
    ((value r - (value (f_mul v step) + value first)) + ((value (f_mul v step) - value v * value step) + ((value v - mv) * value step + mv * (value step - stepR)))) by ring.
  rewrite (pw_to (k - 49) (k - 46)) by lia. replace (k - 46 - (k - 49))%Z with 3%Z by lia. change (2 ^ 3)%Z with 8%Z.
  pose proof (pw_pos (k - 49)) as P. apply Rle_trans with (2 * pw (k - 49) + (pw (k - 49) + (pw (k - 49) + pw (k - 49)))); [|lra].
  apply abs_sum; [rewrite <- pw_S; replace (k - 49 + 1)%Z with (k + 5 - 53)%Z by lia; exact Er|].
  apply abs_sum; [replace (k - 49)%Z with (k + 4 - 53)%Z by lia; exact Em|]. apply abs_sum.
  - replace (k - 49)%Z with ((j - 51) + (k - j + 2))%Z by lia. rewrite pw_add. now apply abs_mul_le.
  - replace (k - 49)%Z with ((j + 1) + (k - j - 50))%Z by lia. rewrite pw_add. now apply abs_mul_le.
Qed.

(** The margins around the two buckets. *)
Lemma weight_value c : c = 2%Z \/ c = 4%Z -> is_binary64 (f_literal c 10) /\ Rabs (value (f_literal c 10) - IZR c / 10) <= pw (-54) /\ 0 <= value (f_literal c 10) <= 1 / 2.
Proof.
  rewrite (pw_neg 54). change (2 ^ 54)%Z with 18014398509481984%Z. intros [E0|E0]; rewrite E0.
  - assert (E : f_literal 2 10 = S754_finite false 7205759403792794 (-55)) by (vm_compute; reflexivity). rewrite E. split; [split; [exact I|vm_compute; reflexivity]|].
    rewrite value_sign, pw_neg. cbn [sign]. change (2 ^ 55)%Z with 36028797018963968%Z. split; [apply Rabs_le|]; lra.
  - assert (E : f_literal 4 10 = S754_finite false 7205759403792794 (-54)) by (vm_compute; reflexivity). rewrite E. split; [split; [exact I|vm_compute; reflexivity]|].
    rewrite value_sign, pw_neg. cbn [sign]. change (2 ^ 54)%Z with 18014398509481984%Z. split; [apply Rabs_le|]; lra.
Qed.
Lemma margin_error c e d j : c = 2%Z \/ c = 4%Z -> (0 <= j <= 41)%Z -> (0 <= e)%Z -> IZR e <= pw j -> Rabs (IZR d) <= pw j ->
  (is_binary64 (f_sub (f_of_Z e) (f_mul (f_literal c 10) (f_of_Z d))) /\
   Rabs (value (f_sub (f_of_Z e) (f_mul (f_literal c 10) (f_of_Z d))) - (IZR e - IZR c / 10 * IZR d)) <= pw (j - 51) /\ Rabs (IZR e - IZR c / 10 * IZR d) <= pw (j + 1)) /\
  (is_binary64 (f_add (f_of_Z e) (f_mul (f_literal c 10) (f_of_Z d))) /\
   Rabs (value (f_add (f_of_Z e) (f_mul (f_literal c 10) (f_of_Z d))) - (IZR e + IZR c / 10 * IZR d)) <= pw (j - 51) /\ Rabs (IZR e + IZR c / 10 * IZR d) <= pw (j + 1)).
Proof.
  intros C J E0 E D. destruct (weight_value c C) as (Bw & Ew & Vw). assert (P : 0 < pw j) by apply pw_pos.
  assert (Me : (e < 2 ^ 53)%Z). { apply lt_IZR. rewrite <- pw_IZR by lia. apply Rle_lt_trans with (1 := E). apply pw_lt. lia. }
  assert (Md : (Z.abs d < 2 ^ 53)%Z). { apply lt_IZR. rewrite abs_IZR, <- pw_IZR by lia. apply Rle_lt_trans with (1 := D). apply pw_lt. lia. }
  destruct (of_Z_exact e ltac:(lia)) as [Be Ve]. destruct (of_Z_exact d Md) as [Bd Vd].
  assert (C1 : 0 <= IZR c / 10 <= 1 / 2) by (destruct C as [E1|E1]; rewrite E1; lra). assert (E0' : 0 <= IZR e) by (apply IZR_le; lia).
  destruct (mul_err (f_literal c 10) (f_of_Z d) j Bw Bd ltac:(lia)) as (Bx & Ex & Ax).
  { rewrite Vd. replace (pw j) with (1 * pw j) by ring. apply abs_mul_le; [rewrite Rabs_pos_eq; lra|exact D]. }
  rewrite Vd in Ex. set (x := f_mul (f_literal c 10) (f_of_Z d)) in *.
  assert (X : Rabs (value x - IZR c / 10 * IZR d) <= 3 * pw (j - 54)).
  { replace (value x - IZR c / 10 * IZR d) with ((value x - value (f_literal c 10) * IZR d) + (value (f_literal c 10) - IZR c / 10) * IZR d) by ring.
    replace (3 * pw (j - 54)) with (2 * pw (j - 54) + pw (j - 54)) by ring. apply abs_sum.
    - rewrite <- pw_S. replace (j - 54 + 1)%Z with (j - 53)%Z by lia. exact Ex.
    - replace (j - 54)%Z with (-54 + j)%Z by lia. rewrite pw_add. now apply abs_mul_le. }
  assert (Ae : Rabs (IZR e) <= pw j) by (rewrite Rabs_pos_eq; lra).
  assert (Am : Rabs (IZR c / 10 * IZR d) <= pw j). { replace (pw j) with (1 * pw j) by ring. apply abs_mul_le; [rewrite Rabs_pos_eq; lra|exact D]. }
  assert (T : pw (j - 51) = 8 * pw (j - 54)). { rewrite (pw_to (j - 54) (j - 51)) by lia. replace (j - 51 - (j - 54))%Z with 3%Z by lia. reflexivity. }
  assert (T2 : pw (j + 1 - 53) = 4 * pw (j - 54)). { rewrite (pw_to (j - 54) (j + 1 - 53)) by lia. replace (j + 1 - 53 - (j - 54))%Z with 2%Z by lia. reflexivity. }
  pose proof (pw_pos (j - 54)) as P54. rewrite T. split.
  - destruct (sub_err (f_of_Z e) x (j + 1) Be Bx ltac:(lia)) as (Br & Er & _). { rewrite Ve, pw_S. replace (2 * pw j) with (pw j + pw j) by ring. now apply abs_diff. }
    rewrite Ve, T2 in Er. split; [exact Br|]. split; [|rewrite pw_S; replace (2 * pw j) with (pw j + pw j) by ring; now apply abs_diff].
    replace (value (f_sub (f_of_Z e) x) - (IZR e - IZR c / 10 * IZR d)) with ((value (f_sub (f_of_Z e) x) - (IZR e - value x)) - (value x - IZR c / 10 * IZR d)) by ring.
    apply Rle_trans with (4 * pw (j - 54) + 3 * pw (j - 54)); [now apply abs_diff|lra].
  - destruct (add_err (f_of_Z e) x (j + 1) Be Bx ltac:(lia)) as (Br & Er & _). { rewrite Ve, pw_S. replace (2 * pw j) with (pw j + pw j) by ring. now apply abs_sum. }
    rewrite Ve, T2 in Er. split; [exact Br|]. split; [|rewrite pw_S; replace (2 * pw j) with (pw j + pw j) by ring; now apply abs_sum].
    replace (value (f_add (f_of_Z e) x) - (IZR e + IZR c / 10 * IZR d)) with ((value (f_add (f_of_Z e) x) - (IZR e + value x)) + (value x - IZR c / 10 * IZR d)) by ring.
    apply Rle_trans with (4 * pw (j - 54) + 3 * pw (j - 54)); [now apply abs_sum|lra].
Qed.

Lemma select_max x y rx ry d : is_binary64 x -> is_binary64 y -> value x = rx -> Rabs (value y - ry) <= d ->
  let v := if SFltb x y then y else x in is_binary64 v /\ Rabs (value v - Rmax rx ry) <= d.
Proof.
  intros Bx By <- E v. assert (D : 0 <= d) by (pose proof (Rabs_pos (value y - ry)); lra). apply abs_interval in E. unfold v. destruct (SFltb x y) eqn:L.
  - apply ltb_value in L; auto. split; [exact By|]. apply Rabs_le. unfold Rmax. destruct Rle_dec; lra.
  - apply ltb_false in L; auto. split; [exact Bx|]. apply Rabs_le. unfold Rmax. destruct Rle_dec; lra.
Qed.
Lemma select_min x y rx ry d : is_binary64 x -> is_binary64 y -> value x = rx -> Rabs (value y - ry) <= d ->
  let v := if SFltb y x then y else x in is_binary64 v /\ Rabs (value v - Rmin rx ry) <= d.
Proof.
  intros Bx By <- E v. assert (D : 0 <= d) by (pose proof (Rabs_pos (value y - ry)); lra). apply abs_interval in E. unfold v. destruct (SFltb y x) eqn:L.
  - apply ltb_value in L; auto. split; [exact By|]. apply Rabs_le. unfold Rmin. destruct Rle_dec; lra.
  - apply ltb_false in L; auto. split; [exact Bx|]. apply Rabs_le. unfold Rmin. destruct Rle_dec; lra.
Qed.

Definition given_size (k : Z) (g : option spec_float) : Prop := match g with None => True | Some v => is_binary64 v /\ Rabs (value v) <= pw k end.
Lemma bucket_given k g n : given_size k g -> (0 <= n < 2 ^ 53)%Z -> IZR n <= pw k ->
  is_binary64 (f_bucket_value g n) /\ value (f_bucket_value g n) = bucket_value (option_map value g) (IZR n) /\ Rabs (value (f_bucket_value g n)) <= pw k.
Proof.
  intros G Hn L. destruct (of_Z_exact n ltac:(lia)) as [Bn Vn]. assert (A : Rabs (IZR n) <= pw k) by (rewrite Rabs_pos_eq; [exact L|apply IZR_le; lia]).
  destruct g as [v|]; cbn [f_bucket_value bucket_value option_map]; [|rewrite Vn; auto]. destruct G as [Bv Av]. destruct zero_float as [B0 V0].
  pose proof (eqb_value v (f_of_Z 0) Bv B0) as Q. rewrite V0 in Q. destruct (SFeqb v (f_of_Z 0)); destruct (Req_EM_T (value v) 0) as [E|E].
  - rewrite Vn; auto.
  - exfalso. apply E, Q. reflexivity.
  - apply Q in E. discriminate.
  - auto.
Qed.

Lemma bucket_nat m n j : (m <= n)%nat -> (Z.of_nat n <= 2 ^ 40)%Z -> INR n <= pw j -> is_binary64 (f_of_Z (Z.of_nat m)) /\ value (f_of_Z (Z.of_nat m)) = INR m /\ Rabs (INR m) <= pw (j + 1).
Proof.
  intros L N J. destruct (of_Z_exact (Z.of_nat m)) as [B V]; [lia|]. split; [exact B|]. split; [rewrite V; symmetry; apply INR_IZR_INZ|].
  rewrite Rabs_pos_eq by apply pos_INR. apply le_INR in L. pose proof (pw_pos j). rewrite pw_S. lra.
Qed.

(** All of it: the exact range and the binary64 range. *)
Lemma from_counts_close counts first last c k : percentage c -> pixel_counts counts -> counts <> [] -> (0 <= k <= 300)%Z ->
  given_size k first -> given_size k last -> INR (List.length counts) <= pw k ->
  exists d f, from_counts (map IZR counts) (option_map value first) (option_map value last) (2/100) (IZR c/100) (2/10) (4/10) = Ok d /\
  f_from_counts counts first last (f_literal 2 100) (f_literal c 100) (f_literal 2 10) (f_literal 4 10) = Ok f /\
  Forall2 (fun x r => is_binary64 x /\ Rabs (value x - r) <= pw (k - 46) /\ Rabs (value x) <= pw (k + 5))
    [f_suggested_min f; f_suggested_max f; f_actual_min f; f_actual_max f] [suggested_min d; suggested_max d; actual_min d; actual_max d].
Proof.
  intros C PC Ne K Gf Gl Ln. unfold from_counts, from_counts_with, f_from_counts. rewrite map_length.
  destruct (List.length counts) as [|m] eqn:Len; [destruct counts; [contradiction|discriminate]|].
  eexists. eexists. split; [reflexivity|]. split; [reflexivity|]. cbn [suggested_min suggested_max actual_min actual_max f_suggested_min f_suggested_max f_actual_min f_actual_max].
  assert (Nb : (Z.of_nat (S m) <= 2 ^ 40)%Z) by (rewrite <- Len; apply PC). set (n := S m) in *.
  assert (Nr : INR n = IZR (Z.of_nat n)) by apply INR_IZR_INZ.
  destruct (bucket_given k first 0 Gf ltac:(lia) ltac:(apply Rlt_le, pw_pos)) as (Bf & Vf & Af).
  destruct (bucket_given k last (Z.of_nat n) Gl ltac:(lia) ltac:(rewrite <- Nr; exact Ln)) as (Bl & Vl & Al).
  rewrite <- Nr in Vl. rewrite <- Vf, <- Vl. clear Vf Vl. set (ff := f_bucket_value first 0) in *. set (fl := f_bucket_value last (Z.of_nat n)) in *.
  rewrite first_nonzero_IZR, last_nonzero_IZR. change (cumulative 0 (map IZR counts)) with (cumulative (IZR 0) (map IZR counts)). rewrite cumulative_IZR, nth_IZR.
  pose proof (fun i => nth_bound counts i PC) as Cb. set (cum := c_cumulative 0 counts) in *. set (N := nth m cum 0%Z) in *.
  rewrite (find_low_IZR 2 cum N (or_introl eq_refl) (Cb m) Cb), (find_high_IZR c cum N C (Cb m) Cb).
  pose proof (find_low_le cum (f_mul (f_literal 2 100) (f_of_Z N)) 0 m) as L1. pose proof (find_high_le cum (f_mul (f_literal c 100) (f_of_Z N)) m) as L2.
  set (emin := f_find_low cum (f_mul (f_literal 2 100) (f_of_Z N)) 0 m) in *. set (emax := f_find_high cum (f_mul (f_literal c 100) (f_of_Z N)) m) in *.
  pose proof (first_nonzero_le counts) as L3. rewrite Len in L3. fold n in L3. pose proof (last_nonzero_le counts m) as L4.
  set (amin := c_first_nonzero counts) in *. set (amax := c_last_nonzero counts m) in *.
  set (j := (Z.log2 (Z.of_nat n) + 1)%Z). pose proof (Z.log2_spec (Z.of_nat n) ltac:(lia)) as [J1 J2].
  assert (J : (0 <= j <= 41)%Z). { unfold j. pose proof (Z.log2_nonneg (Z.of_nat n)). split; [lia|]. enough (Z.log2 (Z.of_nat n) <= 40)%Z by lia. rewrite <- (Z.log2_pow2 40) by lia. apply Z.log2_le_mono. exact Nb. }
  assert (N1 : pw (j - 1) <= IZR (Z.of_nat n)). { rewrite pw_IZR by (unfold j; pose proof (Z.log2_nonneg (Z.of_nat n)); lia). apply IZR_le. replace (j - 1)%Z with (Z.log2 (Z.of_nat n)) by (unfold j; lia). exact J1. }
  assert (N2 : IZR (Z.of_nat n) <= pw j). { rewrite pw_IZR by lia. apply IZR_le. unfold j. unfold Z.succ in J2. lia. }
  rewrite Nr. rewrite !(INR_IZR_INZ emin), !(INR_IZR_INZ emax).
  assert (Hd : Rabs (IZR (Z.of_nat emax - Z.of_nat emin)) <= pw j).
  { rewrite <- abs_IZR. apply Rle_trans with (2 := N2). apply IZR_le. lia. }
  assert (He : IZR (Z.of_nat emin) <= pw j) by (apply Rle_trans with (2 := N2); apply IZR_le; lia).
  assert (He' : IZR (Z.of_nat emax) <= pw j) by (apply Rle_trans with (2 := N2); apply IZR_le; lia).
  destruct (margin_error 2 (Z.of_nat emin) (Z.of_nat emax - Z.of_nat emin) j (or_introl eq_refl) J ltac:(lia) He Hd) as [(Blo & Elo & Alo) _].
  destruct (margin_error 4 (Z.of_nat emax) (Z.of_nat emax - Z.of_nat emin) j (or_intror eq_refl) J ltac:(lia) He' Hd) as [_ (Bhi & Ehi & Ahi)].
  rewrite minus_IZR in Elo, Alo, Ehi, Ahi. 
  assert (N2' : INR n <= pw j) by (rewrite Nr; exact N2).
  destruct (bucket_nat amin n j L3 Nb N2') as (Ba & Va & Aa). destruct (bucket_nat amax n j ltac:(lia) Nb N2') as (Bb & Vb & Ab).
  destruct (select_max _ _ _ _ _ Ba Blo Va Elo) as (Bmin & Emin). destruct (select_min _ _ _ _ _ Bb Bhi Vb Ehi) as (Bmax & Emax).
  assert (Z0 : forall x r, value x = r -> Rabs (value x - r) <= pw (j - 51)). { intros x r ->. rewrite Rminus_diag_eq, Rabs_R0 by reflexivity. apply Rlt_le, pw_pos. }
  repeat apply Forall2_cons; try apply Forall2_nil.
  - apply (bucket_error ff fl (Z.of_nat n) j k _ _ Bf Bl Bmin J); try assumption; try lia. unfold Rmax. destruct Rle_dec; assumption.
  - apply (bucket_error ff fl (Z.of_nat n) j k _ _ Bf Bl Bmax J); try assumption; try lia. unfold Rmin. destruct Rle_dec; assumption.
  - apply (bucket_error ff fl (Z.of_nat n) j k _ _ Bf Bl Ba J); try assumption; try lia. apply Z0, Va.
  - apply (bucket_error ff fl (Z.of_nat n) j k _ _ Bf Bl Bb J); try assumption; try lia. apply Z0, Vb.
Qed.

(** ** Shades with a slightly different range *)
Lemma shade_moved a a' b b' p d : Rabs (a' - a) <= d -> Rabs (b' - b) <= d -> Rabs (dra_shade a' b' p - dra_shade a b p) <= 765 * d.
Proof.
  intros A B. assert (D : 0 <= d) by (pose proof (Rabs_pos (a' - a)); lra). apply abs_interval in A. apply abs_interval in B. unfold dra_shade.
  set (W := Rmax (b - a) 1). set (W' := Rmax (b' - a') 1). assert (W1 : 1 <= W) by apply Rmax_r. assert (W1' : 1 <= W') by apply Rmax_r.
  assert (WW : - (2 * d) <= W' - W <= 2 * d) by (unfold W, W', Rmax; repeat destruct Rle_dec; lra).
  set (u := (p - a) / W). set (u' := (p - a') / W').
  replace (255 * (p - a) / W) with (255 * u) by (unfold u; field; lra). replace (255 * (p - a') / W') with (255 * u') by (unfold u'; field; lra).
  assert (I : 0 < / W' <= 1). { split; [apply Rinv_0_lt_compat; lra|]. rewrite <- Rinv_1. apply Rinv_le_contravar; lra. }
  assert (Eu : p - a = u * W) by (unfold u; field; lra).
  assert (Eu' : p - a' = u' * W') by (unfold u'; field; lra).
  assert (E : u' * W' = u * W + (a - a')) by lra.
  destruct (Rle_lt_dec u 0) as [L|L]; [|destruct (Rle_lt_dec 1 u) as [H|H]].
  - rewrite (level_low (255 * u)) by lra. assert (U : u' <= d) by nra. apply Rabs_le. pose proof (level_bounds (255 * u')) as [Lb _]. split; [lra|].
    apply Rle_trans with (level (255 * d) - 0); [apply Rplus_le_compat_r, level_mono; lra|]. unfold level. unfold Rmax, Rmin. repeat destruct Rle_dec; lra.
  - rewrite (level_high (255 * u)) by lra. assert (U : 1 - 3 * d <= u') by nra. apply Rabs_le. pose proof (level_bounds (255 * u')) as [_ Hb]. split; [|lra].
    apply Rle_trans with (level (255 * (1 - 3 * d)) - 255); [|apply Rplus_le_compat_r, level_mono; lra]. unfold level. unfold Rmax, Rmin. repeat destruct Rle_dec; lra.
  - apply level_absolute. assert (U : - (3 * d) <= u' - u <= 3 * d). { assert (Q : (u' - u) * W' = (a - a') + u * (W - W')) by lra. split; nra. }
    apply Rabs_le. lra.
Qed.
