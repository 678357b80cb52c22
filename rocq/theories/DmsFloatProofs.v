(** Lemmas about degrees, minutes and seconds in binary64. *)
Require Import ZArith NArith Reals String List Bool Lra Lia SpecFloat.
Require Import Verif.Base Verif.BaseFacts Verif.Text Verif.TextFacts Verif.CoordModel Verif.CoordSpec Verif.CoordProofs
  Verif.CoordFloatModel Verif.FloatModel Verif.FloatSpec Verif.FloatProofs Verif.FloatNearest Verif.TileFloatProofs
  Verif.DmsFloatModel Verif.DmsFloatSpec.
Import ListNotations.
Local Open Scope R_scope.
Local Notation pw := (powerRZ 2).

(** ** Absolute errors *)
Lemma pw_neg p : pw (Z.neg p) = / IZR (2 ^ Zpos p).
Proof. rewrite <- pw_IZR by lia. reflexivity. Qed.

Lemma abs_error x f k : nearest x f -> (-1000 <= k <= 900)%Z -> Rabs x <= pw k -> Rabs (value f - x) <= pw (k - 53).
Proof.
  intros N K B. set (n := rint (x * pw (53 - k))). pose proof (rint_error (x * pw (53 - k))) as E. fold n in E.
  assert (P : 0 < pw (k - 53)) by apply pw_pos.
  assert (Q : pw (53 - k) * pw (k - 53) = 1) by (rewrite <- pw_add; replace (53 - k + (k - 53))%Z with 0%Z by lia; reflexivity).
  assert (G : exists g, is_binary64 g /\ value g = IZR n * pw (k - 53)).
  { assert (A : (Z.abs n <= 2 ^ 53)%Z).
    { assert (Bx : Rabs (x * pw (53 - k)) <= IZR (2 ^ 53)).
      { rewrite Rabs_mult, (Rabs_pos_eq (pw (53 - k))) by apply Rlt_le, pw_pos. rewrite <- pw_IZR by lia.
        replace 53%Z with (k + (53 - k))%Z at 2 by lia. rewrite (pw_add k). apply Rmult_le_compat_r; [apply Rlt_le, pw_pos|exact B]. }
      apply abs_interval in Bx. apply abs_interval in E. apply Z.abs_le.
      split; apply Z.lt_succ_r, lt_IZR; unfold Z.succ; rewrite plus_IZR, ?opp_IZR; lra. }
    destruct (Z.eq_dec (Z.abs n) (2 ^ 53)) as [E53|Ne]; [|apply representable; lia].
    destruct (representable (Z.sgn n) k) as (g & Bg & Vg); [lia|lia|]. exists g. split; [exact Bg|].
    rewrite Vg. replace n with (Z.sgn n * Z.abs n)%Z at 2 by (rewrite Z.mul_comm; apply Z.abs_sgn).
    rewrite E53, mult_IZR, <- pw_IZR, Rmult_assoc, <- pw_add by lia. do 2 f_equal. lia. }
  destruct G as (g & Bg & Vg). destruct N as [_ N]. destruct (N g Bg) as [N1 _].
  apply Rle_trans with (1 := N1). rewrite Vg. replace (IZR n * pw (k - 53) - x) with ((IZR n - x * pw (53 - k)) * pw (k - 53)).
  - rewrite Rabs_mult, (Rabs_pos_eq (pw (k - 53))) by lra. nra.
  - rewrite Rmult_minus_distr_r, Rmult_assoc, Q. ring.
Qed.

(** Integers that are written exactly. *)
Lemma of_Z_exact n : (Z.abs n < 2 ^ 53)%Z -> is_binary64 (f_of_Z n) /\ value (f_of_Z n) = IZR n.
Proof.
  intros H. assert (B : Rabs (IZR n) < pw 900).
  { rewrite <- abs_IZR, pw_IZR by lia. apply IZR_lt. apply Z.lt_trans with (1 := H). apply Z.pow_lt_mono_r; lia. }
  pose proof (of_Z_nearest n B) as N. split; [apply N|]. destruct (representable n 0) as (g & Bg & Vg); [exact H|lia|].
  apply (nearest_exact _ _ g N Bg). rewrite Vg. cbn [powerRZ]. ring.
Qed.

Lemma neg_value x : finite x -> f_neg x = true <-> value x < 0.
Proof.
  destruct x as [s| | |s m e]; try contradiction; intros _; unfold f_neg, SFltb, SFcompare.
  - cbn [value]. split; [discriminate|lra].
  - rewrite value_sign. pose proof (pos_IZR m). pose proof (pw_pos e). pose proof (Rmult_lt_0_compat _ _ H H0). destruct s; cbn [sign].
    + split; [intros _; nra|reflexivity].
    + split; [discriminate|nra].
Qed.

Lemma small_lt n : Rabs n <= 10000 -> Rabs n < pw 900.
Proof. intros H. apply Rle_lt_trans with (1 := H). apply Rlt_trans with (pw 20); [rewrite pw_IZR by lia; change (2 ^ 20)%Z with 1048576%Z; lra|apply pw_lt; lia]. Qed.

(** ** The degrees *)
Definition deg_const : R := value f_deg_per_rad.
Lemma deg_const_bounds : 57 < deg_const < 58 /\ is_binary64 f_deg_per_rad.
Proof.
  unfold deg_const. assert (E : f_deg_per_rad = S754_finite false 8063664102031864 (-47)) by (vm_compute; reflexivity). rewrite E. split.
  - rewrite value_sign, pw_neg. cbn [sign]. change (2 ^ 47)%Z with 140737488355328%Z. lra.
  - split; [exact I|reflexivity].
Qed.

Lemma degrees_nearest x : is_binary64 x -> Rabs (value x) <= pw 800 -> nearest (value x * deg_const) (f_degrees x).
Proof.
  intros B A. destruct deg_const_bounds as [C BC]. unfold f_degrees, f_mul, deg_const. apply mul_nearest; auto.
  apply mul_finite; [apply B|apply BC|]. fold deg_const. rewrite Rabs_mult, (Rabs_pos_eq deg_const) by lra.
  apply Rle_lt_trans with (pw 800 * pw 6).
  - apply Rmult_le_compat; try apply Rabs_pos; try lra. rewrite (pw_IZR 6) by lia. change (2 ^ 6)%Z with 64%Z. lra.
  - rewrite <- pw_add. apply pw_lt. lia.
Qed.

Lemma degrees_sign x : is_binary64 x -> Rabs (value x) <= pw 800 -> value (f_degrees x) < 0 <-> value x < 0.
Proof.
  intros B A. pose proof (degrees_nearest x B A) as N. destruct deg_const_bounds as [C _]. split; intros H.
  - destruct (Rlt_le_dec (value x) 0) as [|G]; [assumption|]. enough (value x <= value (f_degrees x)) by lra.
    apply (nearest_ge _ _ x N B). nra.
  - enough (value (f_degrees x) <= value x) by lra. apply (nearest_le _ _ x N B). nra.
Qed.

Definition f_abs_degrees (x : spec_float) : spec_float :=
  let deg := f_degrees x in if f_neg deg then f_mul deg (f_of_Z (-1)) else deg.

Lemma abs_degrees x : is_binary64 x -> Rabs (value x) <= pw 800 ->
  is_binary64 (f_abs_degrees x) /\ value (f_abs_degrees x) = Rabs (value (f_degrees x)) /\ Rabs (value (f_degrees x)) <= pw 810.
Proof.
  intros B A. pose proof (degrees_nearest x B A) as N. destruct deg_const_bounds as [C _]. pose proof N as [Bd _].
  assert (U : Rabs (value (f_degrees x)) <= pw 810).
  { apply abs_nearest_le with (1 := N); [lia|]. rewrite Rabs_mult, (Rabs_pos_eq deg_const) by lra.
    apply Rle_trans with (pw 800 * pw 6).
    - apply Rmult_le_compat; try apply Rabs_pos; try lra. rewrite (pw_IZR 6) by lia. change (2 ^ 6)%Z with 64%Z. lra.
    - rewrite <- pw_add. apply pw_le. lia. }
  unfold f_abs_degrees. destruct (f_neg (f_degrees x)) eqn:E.
  - apply neg_value in E; [|apply Bd]. destruct (of_Z_exact (-1)) as [B1 V1]; [lia|].
    assert (M : nearest (value (f_degrees x) * -1) (f_mul (f_degrees x) (f_of_Z (-1)))).
    { replace (-1) with (value (f_of_Z (-1))) by exact V1. apply mul_nearest; auto. apply mul_finite; [apply Bd|apply B1|].
      rewrite V1, Rabs_mult, (Rabs_left (-1)) by lra. apply Rle_lt_trans with (pw 810); [lra|apply pw_lt; lia]. }
    split; [apply M|]. split; [|exact U]. rewrite Rabs_left by lra.
    destruct (f_degrees x) as [s| | |s m e] eqn:F; try (destruct Bd; contradiction); [cbn [value] in E; lra|].
    assert (Bn : is_binary64 (S754_finite (negb s) m e)) by (destruct Bd as [_ V]; split; [exact I|exact V]).
    rewrite (nearest_exact _ _ _ M Bn) by (destruct s; cbn [value negb]; lra). lra.
  - split; [exact Bd|]. split; [|exact U]. rewrite Rabs_pos_eq; [reflexivity|].
    destruct (Rlt_le_dec (value (f_degrees x)) 0) as [L|L]; [|exact L]. apply neg_value in L; [congruence|apply Bd].
Qed.

(** ** The fraction of a degree is exact *)
Lemma whole_part x : is_binary64 x -> 0 <= value x <= pw 810 -> let d := Rfloor (value x) in
  is_binary64 (f_of_Z d) /\ value (f_of_Z d) = IZR d /\ is_binary64 (f_sub x (f_of_Z d)) /\ value (f_sub x (f_of_Z d)) = value x - IZR d.
Proof.
  intros B H d. destruct (Rfloor_spec (value x)) as [F1 F2]. fold d in F1, F2.
  destruct (binary64_form x B) as (N & k & V & HN & Hk).
  assert (Pk : 0 < pw k) by apply pw_pos. assert (N0 : (0 <= N)%Z).
  { apply le_IZR. apply Rmult_le_reg_r with (pw k); [exact Pk|]. rewrite Rmult_0_l, <- V. apply H. }
  assert (Dd : is_binary64 (f_of_Z d) /\ value (f_of_Z d) = IZR d).
  { assert (Bd : Rabs (IZR d) < pw 900).
    { assert (D0 : (0 <= d)%Z) by (unfold d; apply Rfloor_ge_Z; apply H). apply IZR_le in D0. rewrite Rabs_pos_eq by lra.
      apply Rle_lt_trans with (pw 810); [lra|apply pw_lt; lia]. }
    pose proof (of_Z_nearest d Bd) as Nd. split; [apply Nd|].
    destruct (Z_le_gt_dec 0 k) as [K|K].
    - apply (nearest_exact _ _ x Nd B). rewrite V. unfold d. rewrite V, pw_IZR, <- mult_IZR by exact K. symmetry. apply f_equal. apply Rfloor_unique. lra.
    - apply of_Z_exact. assert (D0 : (0 <= d)%Z) by (unfold d; apply Rfloor_ge_Z; apply H). rewrite Z.abs_eq by exact D0.
      apply lt_IZR. apply Rle_lt_trans with (value x); [lra|]. rewrite V. assert (pw k <= 1) by (change 1 with (pw 0); apply pw_le; lia).
      apply IZR_le in N0. rewrite Z.abs_eq in HN by (now apply le_IZR). apply IZR_lt in HN. nra. }
  destruct Dd as [Dd1 Dd2]. split; [exact Dd1|]. split; [exact Dd2|].
  assert (S : nearest (value x - IZR d) (f_sub x (f_of_Z d))).
  { rewrite <- Dd2. apply sub_nearest; auto. apply sub_finite; [apply B|apply Dd1|]. rewrite Dd2. apply small_lt. rewrite Rabs_pos_eq; lra. }
  split; [apply S|].
  destruct (Z_le_gt_dec 0 k) as [K|K].
  - destruct (representable 0 0) as (g & Bg & Vg); [lia|lia|]. apply (nearest_exact _ _ g S Bg). rewrite Vg.
    assert (E : IZR d = value x) by (rewrite V, pw_IZR, <- mult_IZR by exact K; f_equal; unfold d; apply Rfloor_unique; rewrite V, pw_IZR, <- mult_IZR by exact K; lra).
    lra.
  - assert (Q : pw k * IZR (2 ^ (- k)) = 1) by (rewrite <- pw_IZR, <- pw_add by lia; replace (k + - k)%Z with 0%Z by lia; reflexivity).
    set (M := (N - d * 2 ^ (- k))%Z).
    assert (E : value x - IZR d = IZR M * pw k) by (unfold M; rewrite V, minus_IZR, mult_IZR; nra).
    assert (D0 : (0 <= d)%Z) by (unfold d; apply Rfloor_ge_Z; apply H).
    assert (M0 : (0 <= M)%Z) by (apply le_IZR; apply Rmult_le_reg_r with (pw k); lra).
    assert (M1 : (M <= N)%Z) by (unfold M; assert (0 <= d * 2 ^ (- k))%Z by (apply Z.mul_nonneg_nonneg; lia); lia).
    destruct (Z_le_gt_dec k 971) as [K2|]; [|lia].
    destruct (representable M k) as (g & Bg & Vg); [lia|lia|]. rewrite E in *. apply (nearest_exact _ _ g S Bg). exact Vg.
Qed.

(** ** Whole parts of multiples of rounded numbers *)
Definition million : spec_float := f_of_Z 1000000.
Definition scaled (c k : Z) : spec_float := f_mul (f_div (f_of_Z k) million) (f_of_Z c).
Definition scaled_check (c k : Z) : bool := match f_floor (scaled c k) with Some z => (z =? c * k / 1000000)%Z | None => false end.
Definition scaled_args (c k : Z) : Prop := (c = 60 /\ 0 <= k <= 1000000 \/ c = 3600 /\ 0 <= k <= 16667)%Z.

Lemma scaled_checked c k : scaled_args c k -> (c * k mod 1000000 = 0)%Z -> scaled_check c k = true.
Proof.
  assert (A1 : forallb (fun i => scaled_check 60 (50000 * i)) (map Z.of_nat (seq 0 21)) = true) by (vm_compute; reflexivity).
  assert (A2 : forallb (fun i => scaled_check 3600 (2500 * i)) (map Z.of_nat (seq 0 7)) = true) by (vm_compute; reflexivity).
  rewrite forallb_forall in A1, A2. intros [[-> H]|[-> H]] M.
  - pose proof (Z.div_mod (60 * k) 1000000 ltac:(lia)) as E1. pose proof (Z.div_mod k 50000 ltac:(lia)) as E2. pose proof (Z.mod_pos_bound k 50000 ltac:(lia)) as E3.
    rewrite M in E1. assert (E4 : (k mod 50000 = 0)%Z) by lia. replace k with (50000 * (k / 50000))%Z by lia. apply A1.
    apply in_map_iff. exists (Z.to_nat (k / 50000)). split; [lia|]. apply in_seq. lia.
  - pose proof (Z.div_mod (3600 * k) 1000000 ltac:(lia)) as E1. pose proof (Z.div_mod k 2500 ltac:(lia)) as E2. pose proof (Z.mod_pos_bound k 2500 ltac:(lia)) as E3.
    rewrite M in E1. assert (E4 : (k mod 2500 = 0)%Z) by lia. replace k with (2500 * (k / 2500))%Z by lia. apply A2.
    apply in_map_iff. exists (Z.to_nat (k / 2500)). split; [lia|]. apply in_seq. lia.
Qed.

Lemma million_value : is_binary64 million /\ value million = 1000000.
Proof. apply (of_Z_exact 1000000). lia. Qed.

Lemma abs_small x a : - a <= x <= a -> Rabs x <= a.
Proof. intros H. apply Rabs_le. exact H. Qed.

Lemma product_nearest k c r : (-1 <= k <= 1000000)%Z -> (0 <= c <= 3600)%Z -> (c * k <= 63000000)%Z -> nearest (IZR k / 1000000) r ->
  nearest (value r * IZR c) (f_mul r (f_of_Z c)) /\ Rabs (value r - IZR k / 1000000) <= / 9007199254740992 /\
  Rabs (value (f_mul r (f_of_Z c)) - IZR c * (IZR k / 1000000)) <= 1 / 100000000000.
Proof.
  intros [K1 K2] [C1 C2] CK N. apply IZR_le in K1, K2, C1, C2, CK. rewrite mult_IZR in CK.
  assert (E1 : Rabs (value r - IZR k / 1000000) <= / 9007199254740992).
  { pose proof (abs_error _ _ 0 N ltac:(lia)) as E. cbn [Z.sub Z.opp Z.add Z.pos_sub] in E. rewrite pw_neg in E. apply E.
    cbn [powerRZ]. apply abs_small. lra. }
  destruct (of_Z_exact c) as [Bc Vc]; [apply le_IZR in C1, C2; lia|]. apply abs_interval in E1.
  assert (V : -1 <= value r * IZR c <= 64).
  { assert (IZR c * (IZR k / 1000000) <= 63) by lra. assert (- 3600 / 1000000 <= IZR c * (IZR k / 1000000)) by nra.
    replace (value r * IZR c) with (IZR c * (IZR k / 1000000) + IZR c * (value r - IZR k / 1000000)) by ring.
    assert (- (3600 * / 9007199254740992) <= IZR c * (value r - IZR k / 1000000) <= 3600 * / 9007199254740992) by nra. lra. }
  assert (P : nearest (value r * IZR c) (f_mul r (f_of_Z c))).
  { rewrite <- Vc. apply mul_nearest; [apply N|exact Bc|]. apply mul_finite; [apply N|apply Bc|]. rewrite Vc. apply small_lt. apply abs_small. lra. }
  split; [exact P|]. split; [apply abs_small; lra|].
  pose proof (abs_error _ _ 6 P ltac:(lia)) as E. change (6 - 53)%Z with (-47)%Z in E. rewrite pw_neg, pw_IZR in E by lia.
  change (2 ^ 47)%Z with 140737488355328%Z in E. change (2 ^ 6)%Z with 64%Z in E. specialize (E (abs_small (value r * IZR c) 64 ltac:(lra))). apply abs_interval in E.
  assert (- (3600 * / 9007199254740992) <= IZR c * (value r - IZR k / 1000000) <= 3600 * / 9007199254740992) by nra.
  apply abs_small. lra.
Qed.

Lemma scaled_floor c k r : scaled_args c k -> nearest (IZR k / 1000000) r ->
  let p := f_mul r (f_of_Z c) in finite p /\ 0 <= value p /\ Rfloor (value p) = (c * k / 1000000)%Z.
Proof.
  intros A N p. assert (A' : (-1 <= k <= 1000000 /\ 0 <= c <= 3600 /\ c * k <= 63000000 /\ 0 <= k)%Z) by (unfold scaled_args in A; lia).
  destruct A' as (K & C & CK & K0). destruct (product_nearest k c r K C CK N) as (P & _ & E). fold p in P, E.
  split; [apply P|]. destruct (representable 0 0) as (z & Bz & Vz); [lia|lia|]. rewrite Rmult_0_l in Vz.
  assert (R0 : 0 <= value r). { rewrite <- Vz. apply (nearest_ge _ _ z N Bz). rewrite Vz. apply IZR_le in K0. lra. }
  assert (P0 : 0 <= value p). { rewrite <- Vz. apply (nearest_ge _ _ z P Bz). rewrite Vz. destruct C as [C _]. apply IZR_le in C. nra. }
  split; [exact P0|].
  pose proof (Z.div_mod (c * k) 1000000 ltac:(lia)) as D. pose proof (Z.mod_pos_bound (c * k) 1000000 ltac:(lia)) as B.
  destruct (Z.eq_dec (c * k mod 1000000) 0) as [Z0|NZ].
  - pose proof (scaled_checked c k A Z0) as S. unfold scaled_check in S.
    destruct million_value as [Bm Vm]. destruct (of_Z_exact k) as [Bk Vk]; [lia|].
    assert (NR : nearest (IZR k / 1000000) (f_div (f_of_Z k) million)).
    { rewrite <- Vm, <- Vk. apply div_nearest; auto; [rewrite Vm; lra|]. apply div_finite; [apply Bk|apply Bm|rewrite Vm; lra|].
      rewrite Vk, Vm. apply small_lt, abs_small. destruct K as [K1 K2]. apply IZR_le in K1, K2. lra. }
    destruct (product_nearest k c _ K C CK NR) as (P' & _ & _). fold (scaled c k) in P'.
    rewrite (nearest_unique _ _ _ NR N) in P'. rewrite (nearest_unique _ _ _ P P').
    rewrite floor_value in S by apply P'. now apply Z.eqb_eq in S.
  - apply Rfloor_unique. apply abs_interval in E.
    assert (D' : IZR c * IZR k = 1000000 * IZR (c * k / 1000000) + IZR (c * k mod 1000000)) by (rewrite <- !mult_IZR, <- plus_IZR; f_equal; exact D).
    assert (L : (1 <= c * k mod 1000000 <= 999999)%Z) by lia. destruct L as [L1 L2]. apply IZR_le in L1, L2.
    replace (IZR c * (IZR k / 1000000)) with (IZR c * IZR k / 1000000) in E by lra. lra.
Qed.

Lemma int_nonneg x : finite x -> 0 <= value x -> f_int x = Ok (Rfloor (value x)).
Proof. intros F P. unfold f_int. rewrite trunc_value by exact F. destruct (Rlt_dec (value x) 0); [lra|reflexivity]. Qed.

(** The number of millionths [-1] gives no seconds. *)
Lemma minus_one r : nearest (IZR (-1) / 1000000) r -> f_int (f_mul r (f_of_Z 3600)) = Ok 0%Z.
Proof.
  intros N. destruct (product_nearest (-1) 3600 r ltac:(lia) ltac:(lia) ltac:(lia) N) as (P & _ & E). apply abs_interval in E.
  unfold f_int. rewrite trunc_value by apply P. destruct (Rlt_dec _ 0) as [L|L]; [|exfalso; lra].
  do 2 f_equal. unfold Rceil. rewrite (Rfloor_unique _ 0); [reflexivity|]. lra.
Qed.

(** ** All fields *)
Section Fields.
Variable round : spec_float -> spec_float.
Hypothesis R6 : rounds6 round.

(** [k1] and [k2] are the numbers of millionths that the two calls of [round] give. *)
Lemma fields x : is_binary64 x -> Rabs (value x) <= pw 800 -> let y := Rabs (value (f_degrees x)) in let d := Rfloor y in
  exists k1 k2 : Z, let m := (60 * k1 / 1000000)%Z in let s := Z.max 0 (3600 * k2 / 1000000) in
  f_dms round x = Ok (f_neg (f_degrees x), d, m, s) /\ (0 <= k1 <= 1000000)%Z /\ (-1 <= k2 <= 16667)%Z /\
  Rabs (IZR k1 - 1000000 * (y - IZR d)) <= 1 / 2 + 1 / 1000000 /\
  Rabs (IZR k2 - 1000000 * (y - IZR d - IZR m / 60)) <= 1 / 2 + 2 / 1000000.
Proof.
  intros B A y d. destruct (abs_degrees x B A) as (Bd & Vd & Ud). fold y in Vd, Ud.
  assert (Y0 : 0 <= y) by apply Rabs_pos. destruct (Rfloor_spec y) as [F1 F2]. fold d in F1, F2.
  destruct (whole_part (f_abs_degrees x) Bd) as (Bw & Vw & Bf & Vf); [rewrite Vd; split; assumption|]. rewrite Vd in Bw, Vw, Bf, Vf. fold d in Bw, Vw, Bf, Vf.
  destruct (R6 _ Bf) as (k1 & N1 & E1). { rewrite Vf. apply abs_small. lra. } rewrite Vf in E1. pose proof (abs_interval _ _ E1) as E1'.
  assert (K1 : (0 <= k1 <= 1000000)%Z). { split; apply Z.lt_succ_r, lt_IZR; unfold Z.succ; rewrite plus_IZR; lra. }
  set (m := (60 * k1 / 1000000)%Z). destruct (scaled_floor 60 k1 _ (or_introl (conj eq_refl K1)) N1) as (Fp & Pp & Vp). fold m in Vp.
  assert (Hm : (0 <= m <= 60)%Z) by (unfold m; split; [apply Z.div_pos; lia|apply Z.div_le_upper_bound; lia]).
  pose proof (Z.div_mod (60 * k1) 1000000 ltac:(lia)) as Dm. fold m in Dm. pose proof (Z.mod_pos_bound (60 * k1) 1000000 ltac:(lia)) as Bm.
  assert (Gm : (60 * k1 mod 1000000 <= 999980)%Z) by (pose proof (Z.div_mod (60 * k1 mod 1000000) 20 ltac:(lia)); pose proof (Z.mod_pos_bound (60 * k1 mod 1000000) 20 ltac:(lia)); lia).
  destruct (of_Z_exact m) as [B_m V_m]; [lia|]. destruct (of_Z_exact 60) as [B60 V60]; [lia|].
  assert (Nq : nearest (IZR m / 60) (f_div (f_of_Z m) (f_of_Z 60))).
  { rewrite <- V_m. replace 60 with (value (f_of_Z 60)) by exact V60. apply div_nearest; auto; [rewrite V60; lra|]. apply div_finite; [apply B_m|apply B60|rewrite V60; lra|].
    rewrite V_m, V60. apply small_lt, abs_small. destruct Hm as [H1 H2]. apply IZR_le in H1, H2. lra. }
  assert (Eq : Rabs (value (f_div (f_of_Z m) (f_of_Z 60)) - IZR m / 60) <= / 9007199254740992).
  { pose proof (abs_error _ _ 0 Nq ltac:(lia)) as E. change (0 - 53)%Z with (-53)%Z in E. rewrite pw_neg in E. apply E. cbn [powerRZ].
    apply abs_small. destruct Hm as [H1 H2]. apply IZR_le in H1, H2. lra. }
  apply abs_interval in Eq. set (q := f_div (f_of_Z m) (f_of_Z 60)) in *.
  set (t := f_sub (f_sub (f_abs_degrees x) (f_of_Z d)) q).
  assert (M1 : IZR m <= 60) by (apply IZR_le; lia). assert (M0 : 0 <= IZR m) by (apply IZR_le; lia).
  assert (Nt : nearest (y - IZR d - value q) t).
  { unfold t. rewrite <- Vf. apply sub_nearest; auto; [apply Nq|]. apply sub_finite; [apply Bf|apply Nq|]. rewrite Vf. apply small_lt, abs_small. lra. }
  assert (Et : Rabs (value t - (y - IZR d - IZR m / 60)) <= 4 * / 9007199254740992).
  { pose proof (abs_error _ _ 1 Nt ltac:(lia)) as E. change (1 - 53)%Z with (-52)%Z in E. rewrite pw_neg, pw_IZR in E by lia. change (2 ^ 52)%Z with 4503599627370496%Z in E.
    change (2 ^ 1)%Z with 2%Z in E. specialize (E (abs_small (y - IZR d - value q) 2 ltac:(lra))). apply abs_interval in E. apply abs_small. lra. }
  apply abs_interval in Et.
  assert (Dm' : 60 * IZR k1 = 1000000 * IZR m + IZR (60 * k1 mod 1000000)) by (rewrite <- !mult_IZR, <- plus_IZR; f_equal; exact Dm).
  assert (Gm' : 0 <= IZR (60 * k1 mod 1000000) <= 999980) by (split; apply IZR_le; lia).
  destruct (R6 t) as (k2 & N2 & E2); [apply Nt|apply abs_small; lra|]. pose proof (abs_interval _ _ E2) as E2'.
  assert (K2 : (-1 <= k2 <= 16667)%Z). { split; apply Z.lt_succ_r, lt_IZR; unfold Z.succ; rewrite plus_IZR; lra. }
  exists k1, k2. cbv zeta. fold m. split; [|split; [exact K1|split; [exact K2|split; [exact E1|]]]].
  - unfold f_dms. fold (f_abs_degrees x). rewrite (int_nonneg (f_abs_degrees x)) by (try apply Bd; rewrite Vd; exact Y0). rewrite Vd. fold d. cbn [bind].
    rewrite (int_nonneg (f_mul _ (f_of_Z 60))) by assumption. rewrite Vp. cbn [bind]. fold q. fold t.
    destruct (Z.eq_dec k2 (-1)) as [->|NE].
    + rewrite (minus_one _ N2). reflexivity.
    + destruct (scaled_floor 3600 k2 (round t)) as (Fs & Ps & Vs); [right; lia|exact N2|].
      rewrite (int_nonneg (f_mul _ (f_of_Z 3600))), Vs by assumption. cbn [bind]. rewrite Z.max_r by (apply Z.div_pos; lia). reflexivity.
  - apply abs_small. lra.
Qed.

Lemma field_ranges k1 k2 : (0 <= k1 <= 1000000)%Z -> (-1 <= k2 <= 16667)%Z ->
  (0 <= 60 * k1 / 1000000 <= 60)%Z /\ (0 <= Z.max 0 (3600 * k2 / 1000000) <= 60)%Z.
Proof.
  intros H1 H2. split; [split; [apply Z.div_pos; lia|apply Z.div_le_upper_bound; lia]|]. split; [lia|].
  apply Z.max_lub; [lia|]. apply Z.lt_succ_r, Z.div_lt_upper_bound; lia.
Qed.

Lemma fields_error x : is_binary64 x -> Rabs (value x) <= pw 800 -> let y := Rabs (value (f_degrees x)) in
  exists d m s, f_dms round x = Ok (f_neg (f_degrees x), d, m, s) /\ d = Rfloor y /\ (0 <= m <= 60)%Z /\ (0 <= s <= 60)%Z /\
  - (1 / 2000000) - 1 / 10 ^ 11 <= y - dms_value d m s < 1 / 3600 + 1 / 2000000 + 1 / 10 ^ 11.
Proof.
  intros B A y. destruct (fields x B A) as (k1 & k2 & E & K1 & K2 & H1 & H). fold y in E, H1, H. cbv zeta in *.
  set (d := Rfloor y) in *. set (m := (60 * k1 / 1000000)%Z) in *. set (s := Z.max 0 (3600 * k2 / 1000000)) in *.
  exists d, m, s. split; [exact E|]. split; [reflexivity|]. destruct (field_ranges k1 k2 K1 K2) as [Rm Rs].
  split; [exact Rm|]. split; [exact Rs|].
  apply abs_interval in H. unfold dms_value.
  pose proof (Z.div_mod (3600 * k2) 1000000 ltac:(lia)) as D. pose proof (Z.mod_pos_bound (3600 * k2) 1000000 ltac:(lia)) as M.
  destruct (Z.eq_dec k2 (-1)) as [->|N].
  - replace s with 0%Z by reflexivity. apply abs_interval in H1.
    assert (L : (1000000 * m <= 60 * k1)%Z) by (pose proof (Z.div_mod (60 * k1) 1000000 ltac:(lia)); pose proof (Z.mod_pos_bound (60 * k1) 1000000 ltac:(lia)); unfold m; lia).
    apply IZR_le in L. rewrite !mult_IZR in L. lra.
  - assert (S : s = (3600 * k2 / 1000000)%Z) by (unfold s; apply Z.max_r; apply Z.div_pos; lia). rewrite <- S in D.
    assert (D' : 3600 * IZR k2 = 1000000 * IZR s + IZR (3600 * k2 mod 1000000)) by (rewrite <- !mult_IZR, <- plus_IZR; f_equal; exact D).
    assert (M' : 0 <= IZR (3600 * k2 mod 1000000) <= 999999) by (split; apply IZR_le; lia). lra.
Qed.

(** The fields agree with those of an exact angle nearby that is not at a boundary. *)
Lemma same_millionth k X Y d : Rabs (IZR k - X) <= 1 / 2 + 1 / 100000 -> Rabs (X - Y) <= 2 / 100000 -> 1 / 10000 <= d -> off_middle d Y -> k = rint Y.
Proof.
  intros H1 H2 Hd O. pose proof (rint_error Y) as E. apply abs_interval in H1, H2, E.
  assert (G : IZR (rint Y) - 1 / 2 + d < Y < IZR (rint Y) + 1 / 2 - d).
  { pose proof (O (rint Y)) as O1. pose proof (O (rint Y - 1)%Z) as O2. rewrite minus_IZR in O2. rewrite Rabs_left1 in O1 by lra. rewrite Rabs_pos_eq in O2 by lra. lra. }
  apply Z.le_antisymm; apply Z.lt_succ_r, lt_IZR; unfold Z.succ; rewrite plus_IZR; lra.
Qed.

Lemma fields_near x angle : is_binary64 x -> Rabs (value x) <= pw 800 -> let a := split_dms angle in let Y := Rabs (in_degrees angle) in
  Rabs (Rabs (value (f_degrees x)) - Y) <= 1 / 10 ^ 11 ->
  off_whole (1 / 10 ^ 11) Y -> off_middle (1 / 10 ^ 4) (1000000 * (Y - IZR (dms_d a))) ->
  off_middle (1 / 10 ^ 4) (1000000 * (Y - IZR (dms_d a) - IZR (dms_m a) / 60)) ->
  f_dms round x = Ok (f_neg (f_degrees x), dms_d a, dms_m a, dms_s a).
Proof.
  intros B A a Y C O1 O2 O3. set (y := Rabs (value (f_degrees x))) in *. apply abs_interval in C.
  pose proof (split_d angle) as Ed. fold a in Ed. rewrite degrees_in in Ed. fold Y in Ed.
  pose proof (split_m angle) as Em. fold a in Em. rewrite degrees_in in Em. fold Y in Em.
  pose proof (split_s angle) as Es. fold a in Es. rewrite degrees_in in Es. fold Y in Es.
  pose proof (split_round6_g angle) as Pg. fold a in Pg. rewrite degrees_in in Pg. fold Y in Pg.
  destruct (Rfloor_spec Y) as [F1 F2]. pose proof (O1 (Rfloor Y)) as W1. pose proof (O1 (Rfloor Y + 1)%Z) as W2. rewrite plus_IZR in W2.
  rewrite Rabs_pos_eq in W1 by lra. rewrite Rabs_left1 in W2 by lra.
  destruct (fields x B A) as (k1 & k2 & E & K1 & K2 & H1 & H2). fold y in E, H1, H2. cbv zeta in *.
  assert (D : Rfloor y = dms_d a) by (rewrite Ed; apply Rfloor_unique; lra). rewrite D in *.
  unfold round6 in Em, Es, Pg. rewrite (Rmult_comm _ 1000000) in Em. rewrite (Rmult_comm _ 1000000) in Es. rewrite (Rmult_comm _ 1000000) in Pg.
  assert (E1 : k1 = rint (1000000 * (Y - IZR (dms_d a)))).
  { apply (same_millionth k1 (1000000 * (y - IZR (dms_d a))) _ (1 / 10 ^ 4)); [lra|apply abs_small; lra|lra|exact O2]. }
  assert (Em' : dms_m a = (60 * k1 / 1000000)%Z).
  { rewrite Em, <- E1. replace (IZR k1 / 1000000 * 60) with (IZR (60 * k1) / IZR 1000000) by (rewrite mult_IZR; lra). apply Rfloor_ratio. lia. }
  rewrite <- Em' in *.
  assert (E2 : k2 = rint (1000000 * (Y - IZR (dms_d a) - IZR (dms_m a) / 60))).
  { apply (same_millionth k2 (1000000 * (y - IZR (dms_d a) - IZR (dms_m a) / 60)) _ (1 / 10 ^ 4)); [lra|apply abs_small; lra|lra|exact O3]. }
  rewrite <- E2 in *.
  assert (Es' : dms_s a = (3600 * k2 / 1000000)%Z).
  { rewrite Es. replace (IZR k2 / 1000000 * 3600) with (IZR (3600 * k2) / IZR 1000000) by (rewrite mult_IZR; lra). apply Rfloor_ratio. lia. }
  assert (P2 : (0 <= k2)%Z) by (apply le_IZR; lra).
  rewrite E, <- Es', Z.max_r; [reflexivity|]. rewrite Es'. apply Z.div_pos; lia.
Qed.
End Fields.

(** ** The degrees of an angle *)
Lemma degrees_error x : is_binary64 x -> Rabs (in_degrees (value x)) <= 180 ->
  Rabs (value x) <= pw 800 /\ Rabs (Rabs (value (f_degrees x)) - Rabs (in_degrees (value x))) <= 1 / 10 ^ 13.
Proof.
  intros B H. pose proof pi_bounds as PB. set (Y := in_degrees (value x)) in *.
  assert (V : value x = Y * (PI / 180)) by (unfold Y, in_degrees; field; lra).
  assert (S : Rabs (value x) <= pw 800).
  { rewrite V, Rabs_mult, (Rabs_pos_eq (PI / 180)) by lra. apply Rle_trans with (180 * 1); [apply Rmult_le_compat; try apply Rabs_pos; lra|].
    apply Rle_trans with (pw 8); [rewrite pw_IZR by lia; change (2 ^ 8)%Z with 256%Z; lra|apply pw_le; lia]. }
  split; [exact S|]. pose proof (degrees_nearest x B S) as N. destruct deg_per_rad as (e & E1 & E2). fold deg_const in E2.
  rewrite <- binary64_pw, pw_neg in E1. change (2 ^ 53)%Z with 9007199254740992%Z in E1.
  assert (P : value x * deg_const = Y * (1 + e)) by (rewrite E2, V; field; lra). rewrite P in N.
  apply abs_interval in E1. apply abs_interval in H.
  pose proof (abs_error _ _ 8 N ltac:(lia)) as A. rewrite pw_IZR in A by lia. change (8 - 53)%Z with (-45)%Z in A. rewrite pw_neg in A.
  change (2 ^ 8)%Z with 256%Z in A. change (2 ^ 45)%Z with 35184372088832%Z in A.
  assert (Ye : - (180 * / 9007199254740992) <= Y * e <= 180 * / 9007199254740992) by (split; nra).
  specialize (A (abs_small (Y * (1 + e)) 256 ltac:(lra))). apply abs_interval in A.
  apply Rle_trans with (Rabs (value (f_degrees x) - Y)).
  - apply Rabs_triang_inv2.
  - apply abs_small. lra.
Qed.

(** ** numpy.round *)
Lemma rint_IZR z : rint (IZR z) = z.
Proof. apply rint_near. rewrite Rminus_diag_eq, Rabs_R0 by reflexivity. lra. Qed.

Lemma rint_opp r : rint (- r) = (- rint r)%Z.
Proof.
  destruct (Rfloor_spec r) as [F1 F2]. set (n := Rfloor r) in *. destruct (Rtotal_order (r - IZR n) (1 / 2)) as [L|[E|G]].
  - rewrite (rint_near r n), (rint_near (- r) (- n)); [reflexivity| |]; rewrite ?opp_IZR; apply Rabs_def1; lra.
  - replace (- r) with (IZR (- n - 1) + 1 / 2) by (rewrite minus_IZR, opp_IZR; lra). replace r with (IZR n + 1 / 2) by lra.
    rewrite !rint_half. rewrite Z.even_sub, Z.even_opp. destruct (Z.even n); cbn [Bool.eqb]; change (Z.even 1) with false; cbn [Bool.eqb]; lia.
  - rewrite (rint_near r (n + 1)), (rint_near (- r) (- (n + 1))); [reflexivity| |]; rewrite ?opp_IZR, plus_IZR; apply Rabs_def1; lra.
Qed.

Lemma rint_ratio n e : (0 < e)%Z -> rint (IZR n / IZR e) = match (2 * (n mod e) ?= e)%Z with
  | Lt => (n / e)%Z | Gt => (n / e + 1)%Z | Eq => if Z.even (n / e) then (n / e)%Z else (n / e + 1)%Z end.
Proof.
  intros P. pose proof (Z.div_mod n e ltac:(lia)) as D. pose proof (Z.mod_pos_bound n e P) as M.
  set (q := (n / e)%Z) in *. set (r := (n mod e)%Z) in *. assert (P' : 0 < IZR e) by (now apply IZR_lt).
  assert (V : IZR n / IZR e = IZR q + IZR r / IZR e) by (rewrite D, plus_IZR, mult_IZR; field; lra). rewrite V.
  assert (R1 : 0 <= IZR r / IZR e < 1).
  { destruct M as [M1 M2]. apply IZR_le in M1. apply IZR_lt in M2. split; [apply Rmult_le_pos; [exact M1|apply Rlt_le, Rinv_0_lt_compat, P']|].
    apply Rmult_lt_reg_r with (IZR e); [exact P'|]. unfold Rdiv. rewrite Rmult_assoc, Rinv_l by lra. lra. }
  assert (T : IZR r / IZR e * IZR e = IZR r) by (field; lra).
  destruct (Z.compare_spec (2 * r) e) as [C|C|C].
  - assert (C' : 2 * IZR r = IZR e) by (rewrite <- mult_IZR; f_equal; exact C). replace (IZR r / IZR e) with (1 / 2) by (apply Rmult_eq_reg_r with (IZR e); [|lra]; rewrite T; lra).
    apply rint_half.
  - apply IZR_lt in C. rewrite mult_IZR in C. apply rint_near. apply Rabs_def1; nra.
  - apply IZR_lt in C. rewrite mult_IZR in C. apply rint_near. rewrite plus_IZR. apply Rabs_def1; nra.
Qed.

Lemma rint_small r n : (0 <= n)%Z -> Rabs r <= IZR n -> (Z.abs (rint r) <= n)%Z.
Proof.
  intros N H. apply abs_interval in H. destruct (rint_bounds r). apply Z.abs_le. split; apply Z.lt_succ_r, lt_IZR; unfold Z.succ; rewrite plus_IZR, ?opp_IZR; lra.
Qed.

Lemma f_rint_value x : is_binary64 x -> Rabs (value x) <= IZR (2 ^ 50) -> is_binary64 (f_rint x) /\ value (f_rint x) = IZR (rint (value x)).
Proof.
  intros B S. destruct x as [s| | |s m e]; try (destruct B; contradiction).
  - cbn [f_rint value]. split; [exact B|]. now rewrite rint_IZR.
  - unfold f_rint. destruct (Z.leb_spec 0 e) as [L|L].
    + split; [exact B|]. rewrite value_sign. rewrite pw_IZR by exact L.
      destruct s; cbn [sign].
      * replace (-1 * IZR (Z.pos m) * IZR (2 ^ e)) with (IZR (- (Zpos m * 2 ^ e))) by (rewrite opp_IZR, mult_IZR; ring). now rewrite rint_IZR.
      * replace (1 * IZR (Z.pos m) * IZR (2 ^ e)) with (IZR (Zpos m * 2 ^ e)) by (rewrite mult_IZR; ring). now rewrite rint_IZR.
    + assert (P : (0 < 2 ^ (- e))%Z) by (apply Z.pow_pos_nonneg; lia).
      pose proof (rint_ratio (Zpos m) (2 ^ (- e)) P) as R. cbv zeta.
      assert (V : IZR (Zpos m) / IZR (2 ^ (- e)) = IZR (Zpos m) * pw e).
      { rewrite <- pw_IZR by lia. pose proof (pw_pos (- e)). unfold Rdiv. f_equal. apply Rmult_eq_reg_l with (pw (- e)); [|lra]. rewrite Rinv_r, pw_cancel; lra. }
      rewrite V in R. rewrite <- R. rewrite value_sign in *. set (r := IZR (Zpos m) * pw e) in *.
      assert (P0 : 0 <= r) by (unfold r; apply Rmult_le_pos; apply Rlt_le; [apply pos_IZR|apply pw_pos]).
      assert (G : forall z, (Z.abs z < 2 ^ 53)%Z -> is_binary64 (binary_normalize prec emax z 0 s) /\ value (binary_normalize prec emax z 0 s) = IZR z).
      { intros z Hz. assert (Bz : Rabs (IZR z * pw 0) < pw 900).
        { rewrite (pw_IZR 900) by lia. change (pw 0) with 1. rewrite Rmult_1_r, <- abs_IZR. apply IZR_lt. apply Z.lt_trans with (1 := Hz). apply Z.pow_lt_mono_r; lia. }
        pose proof (normalize_nearest z 0 s (normalize_finite z 0 s Bz)) as N. split; [apply N|].
        destruct (representable z 0) as (g & Bg & Vg); [exact Hz|lia|]. change (pw 0) with 1 in N, Vg. rewrite Rmult_1_r in N, Vg. exact (nearest_exact _ _ g N Bg Vg). }
      assert (Sr : Rabs r <= IZR (2 ^ 50)).
      { rewrite Rmult_assoc in S. fold r in S. destruct s; cbn [sign] in S; [replace (-1 * r) with (- r) in S by ring; rewrite Rabs_Ropp in S|rewrite Rmult_1_l in S]; exact S. }
      apply rint_small in Sr; [|lia].
      rewrite Rmult_assoc. fold r. destruct s; cbn [sign].
      * replace (-1 * r) with (- r) by ring. rewrite rint_opp. apply G. lia.
      * rewrite Rmult_1_l. apply G. lia.
Qed.
