(** Lemmas: the operations of binary64 give the nearest number. *)
Require Import ZArith Reals Lra Lia SpecFloat Bool.
Require Import Verif.Base Verif.BaseFacts Verif.CoordFloatModel Verif.FloatSpec Verif.FloatModel Verif.FloatProofs.
Local Open Scope R_scope.
Local Notation pw := (powerRZ 2).

Lemma nearest_integer M K y : Rabs (IZR M - y) <= 1 / 2 ->
  Rabs (IZR M - y) <= Rabs (IZR K - y) /\ (Rabs (IZR M - y) = Rabs (IZR K - y) -> M <> K -> Rabs (IZR M - y) = 1 / 2).
Proof.
  intros H. destruct (Z.eq_dec M K) as [->|N]; [split; [lra|tauto]|].
  assert (D : 1 <= Rabs (IZR M - IZR K)).
  { rewrite <- minus_IZR, <- abs_IZR. apply (IZR_le 1). lia. }
  assert (T : Rabs (IZR M - IZR K) <= Rabs (IZR M - y) + Rabs (IZR K - y)).
  { rewrite (Rabs_minus_sym (IZR K)). replace (IZR M - IZR K) with ((IZR M - y) + (y - IZR K)) by ring. apply Rabs_triang. }
  split; [lra|intros; lra].
Qed.

Lemma round_even r x : shifted r x -> let m := round_nearest_even (shr_m r) (loc_of_shr_record r) in
  Rabs (IZR m - x) = 1 / 2 -> Z.even m = true.
Proof.
  intros [H L] m. unfold m. destruct (loc_of_shr_record r) as [|[]]; cbn in L |- *; intros E.
  - subst x. rewrite Rminus_diag_eq, Rabs_R0 in E by reflexivity. lra.
  - destruct (Z.even (shr_m r)) eqn:Ev; [exact Ev|]. rewrite Z.even_add, Ev. reflexivity.
  - exfalso. unfold Rabs in E. destruct Rcase_abs in E; lra.
  - exfalso. rewrite plus_IZR in E. unfold Rabs in E. destruct Rcase_abs in E; lra.
Qed.

(** Valid numbers are those with mantissas below 2^53 and exponents from -1074 on. *)
Lemma valid_mantissa s m e : is_binary64 (S754_finite s m e) -> (Zpos m < 2 ^ 53)%Z /\ (-1074 <= e <= 971)%Z /\ fexp64 (Zpos (digits2_pos m) + e) = e.
Proof.
  intros [_ V]. cbn [valid_binary] in V. unfold bounded, canonical_mantissa in V. apply andb_prop in V. destruct V as [V1 V2].
  apply Zeq_bool_eq in V1. apply Z.leb_le in V2. pose proof (digits_pos m) as D. fold prec emax in V1. rewrite fexp_val in *.
  split; [|split; [lia|exact V1]].
  apply Z.lt_le_trans with (2 ^ Zpos (digits2_pos m))%Z; [lia|]. apply Z.pow_le_mono_r; lia.
Qed.
Lemma binary64_proper x : is_binary64 x -> proper x.
Proof. intros B. destruct x as [s| | |s m e]; destruct B as [F V]; try contradiction; [exact I|]. pose proof (valid_mantissa s m e (conj F V)). cbn. lia. Qed.
Lemma valid_of s m e : fexp64 (Zpos (digits2_pos m) + e) = e -> (e <= 971)%Z -> is_binary64 (S754_finite s m e).
Proof. intros F E. split; [exact I|]. cbn [valid_binary]. unfold bounded, canonical_mantissa. rewrite andb_true_iff. split; [now apply Zeq_is_eq_bool|now apply Z.leb_le]. Qed.

(** Numbers of the format as [N] times a power of two. *)
Lemma binary64_form g : is_binary64 g -> exists N k, value g = IZR N * pw k /\ (Z.abs N < 2 ^ 53)%Z /\ (-1074 <= k)%Z.
Proof.
  intros B. destruct g as [s| | |s m e]; try (destruct B; contradiction).
  - exists 0%Z, 0%Z. cbn [value]. split; [ring|]. lia.
  - exists (cond_Zopp s (Zpos m)), e. rewrite cond_value, value_sign. split; [reflexivity|]. pose proof (valid_mantissa s m e B). destruct s; cbn [cond_Zopp]; lia.
Qed.

Lemma digits_is m d : (0 < d)%Z -> (2 ^ (d - 1) <= Zpos m < 2 ^ d)%Z -> Zpos (digits2_pos m) = d.
Proof.
  intros D H. pose proof (digits_pos m) as P. apply Z.le_antisymm.
  - enough (Z.pos (digits2_pos m) - 1 < d)%Z by lia. apply (Z.pow_lt_mono_r_iff 2); lia.
  - enough (d - 1 < Z.pos (digits2_pos m))%Z by lia. apply (Z.pow_lt_mono_r_iff 2); lia.
Qed.

(** Rounding a mantissa that has enough digits. *)
Lemma round_correct s m e l X : (0 <= m)%Z -> 0 < X -> located m l (X * pw (- e)) -> (e <= fexp64 (Zdigits2 m + e))%Z ->
  finite (binary_round_aux prec emax s m e l) -> nearest (sign s * X) (binary_round_aux prec emax s m e l).
Proof.
  intros H PX L Le F. unfold binary_round_aux in *. pose proof (shr_fexp_target m e l _ H L) as S1.
  destruct (shr_fexp prec emax m e l) as [r1 e1]. destruct S1 as (-> & S1 & R1).
  assert (Tf : target m e = fexp64 (Zdigits2 m + e)) by (unfold target; lia). rewrite Tf in *. set (f := fexp64 (Zdigits2 m + e)) in *.
  replace (X * pw (- e) * pw (e - f)) with (X * pw (- f)) in S1 by (rewrite Rmult_assoc, <- pw_add; do 2 f_equal; lia).
  destruct (round_near _ _ S1) as (N & B & _). pose proof (round_even _ _ S1) as Ev. cbv zeta in Ev.
  set (M := round_nearest_even (shr_m r1) (loc_of_shr_record r1)) in *. set (y := X * pw (- f)) in *.
  assert (M0 : (0 <= M)%Z) by (destruct S1; lia).
  assert (Fl : (-1074 <= f)%Z) by (unfold f; rewrite fexp_val; lia).
  assert (Y0 : 0 < y) by (apply Rmult_lt_0_compat; [exact PX|apply pw_pos]).
  pose proof (located_floor _ _ _ L) as [LF LU].
  (** y is below 2^53, and at least 2^52 unless the exponent is the smallest *)
  assert (Yu : y < pw 53).
  { assert (U : X * pw (- e) < pw (Zdigits2 m)).
    { rewrite (pw_IZR (Zdigits2 m)) by apply digits_nonneg. pose proof (digits_upper m H) as U. destruct l as [|c].
      - cbn in L. rewrite L. now apply IZR_lt.
      - apply Rlt_le_trans with (1 := LU). rewrite <- plus_IZR. apply IZR_le. lia. }
    replace y with (X * pw (- e) * pw (e - f)) by (unfold y; rewrite Rmult_assoc, <- pw_add; do 2 f_equal; lia).
    apply Rlt_le_trans with (pw (Zdigits2 m) * pw (e - f)); [apply Rmult_lt_compat_r; [apply pw_pos|exact U]|].
    rewrite <- pw_add. apply pw_le. unfold f. rewrite fexp_val. lia. }
  assert (Yl : f = (-1074)%Z \/ pw 52 <= y).
  { destruct (Z.eq_dec f (-1074)) as [E|E]; [now left|right]. unfold f in E. rewrite fexp_val in E.
    assert (Ef : f = (Zdigits2 m + e - 53)%Z) by (unfold f; rewrite fexp_val; lia).
    assert (Hm : (0 < m)%Z). { destruct (Z.eq_dec m 0) as [->|]; [unfold f in *; rewrite fexp_val in *; cbn in *; lia|lia]. }
    replace y with (X * pw (- e) * pw (e - f)) by (unfold y; rewrite Rmult_assoc, <- pw_add; do 2 f_equal; lia).
    replace 52%Z with ((Zdigits2 m - 1) + (e - f))%Z by lia. rewrite pw_add. apply Rmult_le_compat_r; [apply Rlt_le, pw_pos|].
    apply Rle_trans with (2 := LF). assert (1 <= Zdigits2 m)%Z by (destruct m; cbn; lia). rewrite pw_IZR by lia. apply IZR_le. now apply digits_lower. }
  assert (M53 : (M <= 2 ^ 53)%Z).
  { apply Z.lt_succ_r, lt_IZR. rewrite succ_IZR, <- (pw_IZR 53) by lia. unfold Rabs in N. destruct Rcase_abs in N; lra. }
  assert (M52 : f = (-1074)%Z \/ (2 ^ 52 <= M)%Z).
  { destruct Yl as [E|Yl]; [now left|right]. apply Z.lt_succ_r, lt_IZR. rewrite succ_IZR, <- (pw_IZR 52) by lia. unfold Rabs in N. destruct Rcase_abs in N; lra. }
  (** any other number of the format is at least as far away *)
  assert (Near : forall G k, (Z.abs G < 2 ^ 53)%Z -> (-1074 <= k)%Z ->
    Rabs (IZR M * pw f - X) <= Rabs (IZR G * pw k - X) /\
    (Rabs (IZR M * pw f - X) = Rabs (IZR G * pw k - X) -> IZR M * pw f <> IZR G * pw k -> Z.even M = true)).
  { intros G k G53 K. pose proof (pw_pos f) as Pf.
    assert (EX : X = y * pw f) by (unfold y; rewrite Rmult_assoc, pw_cancel; ring).
    replace (IZR G * pw k) with (IZR G * pw (k - f) * pw f) by (rewrite Rmult_assoc, <- pw_add; do 2 f_equal; lia).
    set (g := IZR G * pw (k - f)). rewrite EX, <- !Rmult_minus_distr_r, !Rabs_mult, (Rabs_pos_eq (pw f)) by lra.
    enough (Rabs (IZR M - y) <= Rabs (g - y) /\ (Rabs (IZR M - y) = Rabs (g - y) -> IZR M <> g -> Z.even M = true)) as [A1 A2].
    { split; [apply Rmult_le_compat_r; lra|]. intros E Ne. apply A2; [apply (Rmult_eq_reg_r (pw f)); lra|]. intros Q. apply Ne. now rewrite Q. }
    destruct (Z.le_gt_cases f k) as [C|C].
    - assert (Ig : g = IZR (G * 2 ^ (k - f))) by (unfold g; rewrite mult_IZR, <- pw_IZR by lia; reflexivity). rewrite Ig.
      destruct (nearest_integer M (G * 2 ^ (k - f)) y N) as (A1 & A2). split; [exact A1|].
      intros E Ne. apply Ev. apply A2; [exact E|]. intros Q. apply Ne. now rewrite Q.
    - destruct Yl as [E|Yl]; [lia|].
      assert (Hg : g < pw 52).
      { unfold g. apply Rle_lt_trans with (IZR (Z.abs G) * pw (-1)).
        - apply Rle_trans with (IZR (Z.abs G) * pw (k - f)); [apply Rmult_le_compat_r; [apply Rlt_le, pw_pos|apply IZR_le; lia]|].
          apply Rmult_le_compat_l; [apply IZR_le; lia|apply pw_le; lia].
        - replace 52%Z with (53 + -1)%Z by lia. rewrite pw_add, (pw_IZR 53) by lia. apply Rmult_lt_compat_r; [apply pw_pos|now apply IZR_lt]. }
      destruct (nearest_integer M (2 ^ 52) y N) as (A1 & _). rewrite <- (pw_IZR 52) in A1 by lia.
      rewrite (Rabs_left1 (pw 52 - y)) in A1 by lra. rewrite (Rabs_left (g - y)) by lra. split; [lra|intros; lra]. }
  (** the second normalisation *)
  assert (D53 : IZR (2 ^ 53) = 2 * IZR (2 ^ 52)) by (rewrite <- mult_IZR; reflexivity).
  assert (S2 := shr_fexp_target M f loc_Exact (IZR M) M0 eq_refl).
  destruct (shr_fexp prec emax M f loc_Exact) as [r2 e2]. destruct S2 as (-> & S2 & R2).
  assert (V : (M < 2 ^ 53 /\ shr_m r2 = M /\ target M f = f)%Z \/ (M = 2 ^ 53 /\ shr_m r2 = 2 ^ 52 /\ target M f = f + 1)%Z).
  { destruct (Z.eq_dec M (2 ^ 53)) as [E|E].
    - right. assert (T : target M f = (f + 1)%Z).
      { unfold target. rewrite fexp_val, E. change (Zdigits2 (2 ^ 53)) with 54%Z. lia. }
      rewrite T in *. replace (f - (f + 1))%Z with (-1)%Z in S2 by lia. rewrite E in *.
      replace (IZR (2 ^ 53) * pw (-1)) with (IZR (2 ^ 52)) in S2 by (rewrite D53; change (pw (-1)) with (/ (2 * 1)); field).
      pose proof (located_floor _ _ _ (proj2 S2)) as [A B'].
      assert (Q : shr_m r2 = (2 ^ 52)%Z). { rewrite <- plus_IZR in B'. apply le_IZR in A. apply lt_IZR in B'. lia. }
      auto.
    - left. assert (T : target M f = f).
      { unfold target. rewrite fexp_val. assert (Zdigits2 M <= 53)%Z by (apply digits_le; lia). lia. }
      rewrite (R2 T). cbn. split; [lia|auto]. }
  set (out := match shr_m r2 with 0%Z => _ | Zpos _ => _ | Zneg _ => _ end) in *.
  assert (O : is_binary64 out /\ value out = sign s * (IZR M * pw f) /\ (Z.even M = true -> even_digits out = true)).
  { unfold out in *. destruct V as [(V1 & V2 & V3)|(V1 & V2 & V3)]; rewrite V2, V3 in *.
    - clear out V2. destruct M as [|q|q]; [|destruct (f <=? emax - prec)%Z eqn:T; [|contradiction]|lia].
      + split; [split; [exact I|reflexivity]|]. split; [cbn; ring|reflexivity].
      + apply Z.leb_le in T. split; [|split; [rewrite value_sign; ring|tauto]].
        apply valid_of; [|exact T]. rewrite fexp_val. destruct M52 as [E|M52].
        * pose proof (digits_le (Zpos q) 53 ltac:(lia) ltac:(lia)) as D. cbn [Zdigits2] in D. lia.
        * rewrite (digits_is q 53) by lia. lia.
    - clear out V2. change (2 ^ 52)%Z with (Zpos (2 ^ 52)) in *. cbn iota in F |- *. destruct (f + 1 <=? emax - prec)%Z eqn:T; [|contradiction].
      apply Z.leb_le in T. split; [|split; [|reflexivity]].
      + apply valid_of; [|exact T]. rewrite fexp_val, (digits_is _ 53) by lia. lia.
      + rewrite value_sign, V1, D53, pw_add. change (pw 1) with (2 * 1). change (Zpos (2 ^ 52)) with (2 ^ 52)%Z. ring. }
  destruct O as (O1 & O2 & O3). split; [exact O1|]. intros g Bg. destruct (binary64_form g Bg) as (G & k & Eg & G53 & K).
  rewrite O2. rewrite Eg. set (G' := cond_Zopp s G).
  assert (Sg : IZR G * pw k = sign s * (IZR G' * pw k)) by (unfold G'; destruct s; cbn [sign cond_Zopp]; [rewrite opp_IZR|]; ring). rewrite Sg.
  rewrite <- !Rmult_minus_distr_l. assert (As : forall t, Rabs (sign s * t) = Rabs t) by (intros t; rewrite Rabs_mult; destruct s; cbn [sign]; [rewrite (Rabs_left (-1)) by lra|rewrite Rabs_R1]; ring).
  rewrite !As. destruct (Near G' k) as (A1 & A2); [unfold G'; destruct s; cbn [cond_Zopp]; lia|exact K|]. split; [exact A1|].
  intros E Ne. apply O3, A2; [exact E|]. intros Q. apply Ne. now rewrite Q.
Qed.

(** *** The operations *)
Lemma nearest_self f : is_binary64 f -> nearest (value f) f.
Proof.
  intros B. split; [exact B|]. intros g _. rewrite Rminus_diag_eq, Rabs_R0 by reflexivity. split; [apply Rabs_pos|].
  intros E Ne. exfalso. apply Ne. unfold Rabs in E. destruct Rcase_abs in E; lra.
Qed.
Lemma nearest_zero s x : x = 0 -> nearest x (S754_zero s).
Proof. intros ->. change 0 with (value (S754_zero s)). apply nearest_self. split; [exact I|reflexivity]. Qed.
Lemma digits_product p q : (Zdigits2 (Zpos p) <= Zdigits2 (Zpos (p * q)))%Z.
Proof.
  apply Z.lt_pred_le. replace (Z.pred (Zdigits2 (Zpos p))) with (Zdigits2 (Zpos p) - 1)%Z by lia.
  pose proof (digits_lower (Zpos p) ltac:(lia)) as A. pose proof (digits_upper (Zpos (p * q)) ltac:(lia)) as B.
  pose proof (digits_nonneg (Zpos (p * q))). apply (Z.pow_lt_mono_r_iff 2); nia.
Qed.
Lemma mul_nearest x y : is_binary64 x -> is_binary64 y -> finite (SFmul prec emax x y) -> nearest (value x * value y) (SFmul prec emax x y).
Proof.
  intros Bx By F. destruct x as [sx| | |sx mx ex]; try (destruct Bx; contradiction); destruct y as [sy| | |sy my ey]; try (destruct By; contradiction);
    try (cbn [SFmul]; apply nearest_zero; cbn [value]; ring).
  pose proof (valid_mantissa _ _ _ Bx) as (_ & Ex & Vx). pose proof (valid_mantissa _ _ _ By) as (_ & Ey & Vy).
  rewrite !value_sign in *. set (X := IZR (Zpos mx) * pw ex * (IZR (Zpos my) * pw ey)).
  replace (sign sx * IZR (Z.pos mx) * pw ex * (sign sy * IZR (Z.pos my) * pw ey)) with (sign (xorb sx sy) * X) in * by (rewrite sign_xorb; unfold X; ring).
  pose proof (pos_product mx my ex ey) as PX. fold X in PX. cbn [SFmul] in *.
  apply round_correct; auto; [discriminate| |].
  - cbn [located]. unfold X. rewrite Pos2Z.inj_mul, mult_IZR.
    replace (IZR (Z.pos mx) * pw ex * (IZR (Z.pos my) * pw ey) * pw (- (ex + ey))) with (IZR (Z.pos mx) * IZR (Z.pos my) * (pw (- (ex + ey)) * (pw ex * pw ey))) by ring.
    rewrite <- (pw_add ex ey), pw_cancel. ring.
  - rewrite fexp_val in *. pose proof (digits_product mx my) as D1. pose proof (digits_product my mx) as D2. rewrite Pos.mul_comm in D2.
    change (Zpos (digits2_pos mx)) with (Zdigits2 (Zpos mx)) in Vx. change (Zpos (digits2_pos my)) with (Zdigits2 (Zpos my)) in Vy. lia.
Qed.
Lemma div_nearest x y : is_binary64 x -> is_binary64 y -> value y <> 0 -> finite (SFdiv prec emax x y) -> nearest (value x / value y) (SFdiv prec emax x y).
Proof.
  intros Bx By Ny F. destruct y as [sy| | |sy my ey]; try (destruct By; contradiction).
  destruct x as [sx| | |sx mx ex]; try (destruct Bx; contradiction); [cbn [SFdiv]; apply nearest_zero; cbn [value]; unfold Rdiv; ring|].
  rewrite div_value. pose proof (div_core mx ex my ey) as D. cbv zeta in D. cbn [SFdiv] in *.
  destruct (SFdiv_core_binary prec emax (Zpos mx) ex (Zpos my) ey) as [[q e'] l]. destruct D as (PX & Q0 & L & Le & _).
  apply round_correct; auto.
Qed.
Lemma shl_align_digits m e k : let '(m', e') := shl_align m e k in (Zdigits2 (Zpos m') + e' = Zdigits2 (Zpos m) + e)%Z.
Proof.
  unfold shl_align. destruct (k - e)%Z as [|d|d] eqn:E; [reflexivity|reflexivity|].
  pose proof (digits_pos m) as D. pose proof (shift_pos_mul d m) as S. cbn [Zdigits2].
  rewrite (digits_is (shift_pos d m) (Zpos (digits2_pos m) + Zpos d)); [lia|lia|]. rewrite S.
  replace (Zpos (digits2_pos m) + Zpos d - 1)%Z with ((Zpos (digits2_pos m) - 1) + Zpos d)%Z by lia. rewrite !Z.pow_add_r by lia.
  assert (0 < 2 ^ Zpos d)%Z by (apply Z.pow_pos_nonneg; lia). nia.
Qed.
Lemma normalize_nearest m e z : finite (binary_normalize prec emax m e z) -> nearest (IZR m * pw e) (binary_normalize prec emax m e z).
Proof.
  assert (G : forall s p, finite (binary_round prec emax s p e) -> nearest (sign s * (IZR (Zpos p) * pw e)) (binary_round prec emax s p e)).
  { intros s p. unfold binary_round. pose proof (shl_align_value p e (fexp64 (Zpos (digits2_pos p) + e))) as A. pose proof (shl_align_digits p e (fexp64 (Zpos (digits2_pos p) + e))) as D.
    destruct (shl_align p e (fexp64 (Zpos (digits2_pos p) + e))) as [p' e']. destruct A as [A1 A2]. intros F. rewrite <- A1.
    apply round_correct; auto; [discriminate| | |].
    - apply Rmult_lt_0_compat; [now apply IZR_lt|apply pw_pos].
    - cbn [located]. rewrite Rmult_assoc, (Rmult_comm (pw e')), pw_cancel. ring.
    - rewrite D. cbn [Zdigits2]. lia. }
  destruct m as [|p|p]; cbn [binary_normalize]; intros F.
  - apply nearest_zero. ring.
  - specialize (G false p F). cbn [sign] in G. now rewrite Rmult_1_l in G.
  - specialize (G true p F). cbn [sign] in G. replace (IZR (Z.neg p) * pw e) with (-1 * (IZR (Z.pos p) * pw e)); [exact G|].
    change (Z.neg p) with (- Z.pos p)%Z. rewrite opp_IZR. ring.
Qed.
Lemma add_nearest x y : is_binary64 x -> is_binary64 y -> finite (SFadd prec emax x y) -> nearest (value x + value y) (SFadd prec emax x y).
Proof.
  intros Bx By F. destruct x as [sx| | |sx mx ex]; try (destruct Bx; contradiction); destruct y as [sy| | |sy my ey]; try (destruct By; contradiction); cbn [SFadd] in *.
  - destruct (Bool.eqb sx sy); apply nearest_zero; cbn [value]; ring.
  - change (value (S754_zero sx)) with 0. rewrite Rplus_0_l. now apply nearest_self.
  - change (value (S754_zero sy)) with 0. rewrite Rplus_0_r. now apply nearest_self.
  - rewrite !value_sign. rewrite <- (aligned sx mx ex (Z.min ex ey)), <- (aligned sy my ey (Z.min ex ey)) by lia.
    rewrite <- Rmult_plus_distr_r, <- plus_IZR. now apply normalize_nearest.
Qed.
Lemma sub_nearest x y : is_binary64 x -> is_binary64 y -> finite (SFsub prec emax x y) -> nearest (value x - value y) (SFsub prec emax x y).
Proof.
  intros Bx By F. destruct x as [sx| | |sx mx ex]; try (destruct Bx; contradiction); destruct y as [sy| | |sy my ey]; try (destruct By; contradiction); cbn [SFsub] in *.
  - destruct (Bool.eqb sx (negb sy)); apply nearest_zero; cbn [value]; ring.
  - change (value (S754_zero sx)) with 0. rewrite Rminus_0_l.
    replace (- value (S754_finite sy my ey)) with (value (S754_finite (negb sy) my ey)) by (destruct sy; cbn [value negb]; ring).
    apply nearest_self. destruct By as [_ V]. split; [exact I|exact V].
  - change (value (S754_zero sy)) with 0. rewrite Rminus_0_r. now apply nearest_self.
  - rewrite !value_sign. rewrite <- (aligned sx mx ex (Z.min ex ey)), <- (aligned sy my ey (Z.min ex ey)) by lia.
    rewrite <- Rmult_minus_distr_r, <- minus_IZR. now apply normalize_nearest.
Qed.

(** *** Finite results *)
Lemma div_finite x y : finite x -> finite y -> value y <> 0 -> Rabs (value x / value y) < pw 900 -> finite (SFdiv prec emax x y).
Proof.
  intros Fx Fy Ny B. destruct y as [sy| | |sy my ey]; try contradiction.
  destruct x as [sx| | |sx mx ex]; try contradiction; [exact I|].
  rewrite div_value in B. pose proof (div_core mx ex my ey) as D. cbv zeta in D. cbn [SFdiv].
  destruct (SFdiv_core_binary prec emax (Zpos mx) ex (Zpos my) ey) as [[q e'] l]. destruct D as (PX & Q0 & L & Le & _).
  rewrite abs_sign in B by lra. apply (round_finite _ _ _ _ _ Q0) with (2 := L); auto.
  destruct (Z.eq_dec q 0) as [->|]; [right|left; lia]. rewrite fexp_val in Le. change (Zdigits2 0) with 0%Z in Le. lia.
Qed.
Lemma normalize_finite m e z : Rabs (IZR m * pw e) < pw 900 -> finite (binary_normalize prec emax m e z).
Proof.
  assert (G : forall s p, IZR (Zpos p) * pw e < pw 900 -> finite (binary_round prec emax s p e)).
  { intros s p B. unfold binary_round. pose proof (shl_align_value p e (fexp64 (Zpos (digits2_pos p) + e))) as A.
    destruct (shl_align p e (fexp64 (Zpos (digits2_pos p) + e))) as [p' e']. destruct A as [A1 A2]. rewrite <- A1 in B.
    apply round_finite with (4 := or_introl eq_refl) (5 := B); [lia|lia|]. cbn [located]. rewrite Rmult_assoc, (Rmult_comm (pw e')), pw_cancel. ring. }
  intros B. pose proof (pw_pos e). destruct m as [|p|p]; cbn [binary_normalize]; [exact I| |]; apply G.
  - rewrite Rabs_pos_eq in B; [exact B|]. apply Rmult_le_pos; [now apply IZR_le|lra].
  - change (Z.neg p) with (- Z.pos p)%Z in B. rewrite opp_IZR, <- Ropp_mult_distr_l, Rabs_Ropp, Rabs_pos_eq in B; [exact B|].
    apply Rmult_le_pos; [now apply IZR_le|lra].
Qed.
Lemma add_finite x y : finite x -> finite y -> Rabs (value x + value y) < pw 900 -> finite (SFadd prec emax x y).
Proof.
  intros Fx Fy B. destruct x as [sx| | |sx mx ex]; try contradiction; destruct y as [sy| | |sy my ey]; try contradiction; cbn [SFadd] in *; try exact I.
  - destruct (Bool.eqb sx sy); exact I.
  - rewrite !value_sign in B. rewrite <- (aligned sx mx ex (Z.min ex ey)), <- (aligned sy my ey (Z.min ex ey)) in B by lia.
    rewrite <- Rmult_plus_distr_r, <- plus_IZR in B. now apply normalize_finite.
Qed.
Lemma sub_finite x y : finite x -> finite y -> Rabs (value x - value y) < pw 900 -> finite (SFsub prec emax x y).
Proof.
  intros Fx Fy B. destruct x as [sx| | |sx mx ex]; try contradiction; destruct y as [sy| | |sy my ey]; try contradiction; cbn [SFsub] in *; try exact I.
  - destruct (Bool.eqb sx (negb sy)); exact I.
  - rewrite !value_sign in B. rewrite <- (aligned sx mx ex (Z.min ex ey)), <- (aligned sy my ey (Z.min ex ey)) in B by lia.
    rewrite <- Rmult_minus_distr_r, <- minus_IZR in B. now apply normalize_finite.
Qed.

(** *** Order *)
(** A number of the format that is not below (above) [x] is not below (above) the rounded [x]. *)
Lemma nearest_le x f g : nearest x f -> is_binary64 g -> x <= value g -> value f <= value g.
Proof.
  intros [_ N] B L. destruct (N g B) as [A _]. destruct (Rle_lt_dec (value f) (value g)) as [|C]; [assumption|].
  rewrite !Rabs_pos_eq in A by lra. lra.
Qed.
Lemma nearest_ge x f g : nearest x f -> is_binary64 g -> value g <= x -> value g <= value f.
Proof.
  intros [_ N] B L. destruct (N g B) as [A _]. destruct (Rle_lt_dec (value g) (value f)) as [|C]; [assumption|].
  rewrite !Rabs_left1 in A by lra. lra.
Qed.
Lemma nearest_mono x y f g : nearest x f -> nearest y g -> x < y -> value f <= value g.
Proof.
  intros [Bf F] [Bg G] L. destruct (Rle_lt_dec (value f) (value g)) as [|C]; [assumption|exfalso].
  destruct (F g Bg) as [A _]. destruct (G f Bf) as [A' _].
  unfold Rabs in *; repeat destruct Rcase_abs in *; lra.
Qed.
(** Two nearest numbers to the same real have the same value. *)
Lemma canonical_unique s m e s' m' e' : is_binary64 (S754_finite s m e) -> is_binary64 (S754_finite s' m' e') ->
  value (S754_finite s m e) = value (S754_finite s' m' e') -> S754_finite s m e = S754_finite s' m' e'.
Proof.
  intros B B' E. pose proof (valid_mantissa _ _ _ B) as (_ & E1 & V). pose proof (valid_mantissa _ _ _ B') as (_ & E2 & V').
  rewrite !value_sign in E. pose proof (pw_pos e) as P. pose proof (pw_pos e') as P'.
  assert (0 < IZR (Zpos m)) by now apply IZR_lt. assert (0 < IZR (Zpos m')) by now apply IZR_lt.
  assert (Q : 0 < IZR (Zpos m) * pw e) by now apply Rmult_lt_0_compat. assert (Q' : 0 < IZR (Zpos m') * pw e') by now apply Rmult_lt_0_compat.
  assert (Es : s = s') by (destruct s, s'; cbn [sign] in E; auto; exfalso; lra). subst s'.
  assert (A : IZR (Zpos m) * pw e = IZR (Zpos m') * pw e') by (destruct s; cbn [sign] in E; lra).
  assert (Dig : forall p k, pw (Zpos (digits2_pos p) - 1 + k) <= IZR (Zpos p) * pw k < pw (Zpos (digits2_pos p) + k)).
  { intros p k. pose proof (digits_pos p) as D. rewrite !pw_add. pose proof (pw_pos k). assert (1 <= Zpos (digits2_pos p))%Z by lia.
    rewrite (pw_IZR (Zpos (digits2_pos p) - 1)), (pw_IZR (Zpos (digits2_pos p))) by lia. split; [apply Rmult_le_compat_r; [lra|now apply IZR_le]|apply Rmult_lt_compat_r; [lra|now apply IZR_lt]]. }
  pose proof (Dig m e) as D1. pose proof (Dig m' e') as D2. rewrite <- A in D2.
  assert (D : (Zpos (digits2_pos m) + e = Zpos (digits2_pos m') + e')%Z).
  { assert (Zpos (digits2_pos m) - 1 + e < Zpos (digits2_pos m') + e')%Z by (apply pw_lt_inv; lra).
    assert (Zpos (digits2_pos m') - 1 + e' < Zpos (digits2_pos m) + e)%Z by (apply pw_lt_inv; lra). lia. }
  assert (Ee : e = e') by congruence. subst e'. f_equal. apply Rmult_eq_reg_r in A; [|lra]. apply eq_IZR in A. congruence.
Qed.

(** *** The nearest number is determined *)
Lemma representable N e : (Z.abs N < 2 ^ 53)%Z -> (-1074 <= e <= 971)%Z -> exists g, is_binary64 g /\ value g = IZR N * pw e.
Proof.
  assert (G : forall s p, (Zpos p < 2 ^ 53)%Z -> (-1074 <= e <= 971)%Z -> exists g, is_binary64 g /\ value g = sign s * IZR (Zpos p) * pw e).
  { intros s p Hp He. set (d := Zpos (digits2_pos p)). set (k := Z.min (53 - d) (e + 1074)).
    assert (D : (1 <= d <= 53)%Z). { split; [unfold d; lia|]. apply (digits_le (Zpos p) 53); lia. }
    assert (K : (0 <= k)%Z) by (unfold k; lia). assert (P2 : (0 < 2 ^ k)%Z) by (apply Z.pow_pos_nonneg; lia).
    destruct (Zpos p * 2 ^ k)%Z as [|m|m] eqn:E; [nia| |nia]. exists (S754_finite s m (e - k)). split.
    - apply valid_of; [|lia]. pose proof (digits_pos p) as Dp. fold d in Dp. rewrite (digits_is m (d + k)); [rewrite fexp_val; lia|lia|].
      rewrite <- E. replace (d + k - 1)%Z with ((d - 1) + k)%Z by lia. rewrite !Z.pow_add_r by lia. nia.
    - rewrite value_sign, <- E, mult_IZR, <- (pw_IZR k K). replace (e - k)%Z with (e + - k)%Z by lia. rewrite pw_add.
      replace (sign s * (IZR (Z.pos p) * pw k) * (pw e * pw (- k))) with (sign s * IZR (Z.pos p) * pw e * (pw (- k) * pw k)) by ring. rewrite pw_cancel. ring. }
  intros HN He. destruct N as [|p|p].
  - exists (S754_zero false). split; [split; [exact I|reflexivity]|cbn [value]; ring].
  - destruct (G false p) as (g & B & V); [lia|exact He|]. exists g. split; [exact B|]. rewrite V. cbn [sign]. ring.
  - destruct (G true p) as (g & B & V); [lia|exact He|]. exists g. split; [exact B|]. rewrite V. cbn [sign]. change (Z.neg p) with (- Z.pos p)%Z. rewrite opp_IZR. ring.
Qed.
Lemma even_form g : is_binary64 g -> even_digits g = true -> exists N k, value g = IZR N * pw k /\ (Z.abs N < 2 ^ 53)%Z /\ (-1074 <= k <= 971)%Z /\ Z.even N = true.
Proof.
  intros B Ev. destruct g as [s| | |s m e]; try (destruct B; contradiction).
  - exists 0%Z, 0%Z. cbn [value]. split; [ring|]. split; [lia|]. split; [lia|reflexivity].
  - exists (cond_Zopp s (Zpos m)), e. rewrite cond_value, value_sign. split; [reflexivity|]. pose proof (valid_mantissa s m e B).
    split; [destruct s; cbn [cond_Zopp]; lia|]. split; [lia|]. destruct s; exact Ev.
Qed.
Lemma no_even_tie x f g : nearest x f -> nearest x g -> value f < value g -> False.
Proof.
  intros [Bf F] [Bg G] L. destruct (F g Bg) as [A1 A2]. destruct (G f Bf) as [B1 B2].
  assert (E : Rabs (value f - x) = Rabs (value g - x)) by lra.
  destruct (even_form f Bf (A2 E ltac:(lra))) as (N & k & Ef & HN & Hk & EN).
  destruct (even_form g Bg (B2 (eq_sym E) ltac:(lra))) as (N' & k' & Eg & HN' & Hk' & EN').
  assert (Mid : forall h, is_binary64 h -> value f < value h < value g -> False).
  { intros h Bh Lh. destruct (F h Bh) as [C _]. unfold Rabs in *; repeat destruct Rcase_abs in *; lra. }
  assert (Scale : forall N k e, (e <= k)%Z -> IZR N * pw k = IZR (N * 2 ^ (k - e)) * pw e).
  { intros N0 k0 e0 H. rewrite mult_IZR, <- pw_IZR by lia. rewrite Rmult_assoc, <- pw_add. do 2 f_equal. lia. }
  destruct (Z.le_gt_cases k k') as [C|C].
  - rewrite (Scale N' k' k C) in Eg. set (N2 := (N' * 2 ^ (k' - k))%Z) in *.
    assert (Ev : Z.even N2 = true) by (unfold N2; rewrite Z.even_mul, EN'; reflexivity).
    pose proof (pw_pos k) as P. assert (Lt : (N < N2)%Z) by (apply lt_IZR; rewrite Ef, Eg in L; apply Rmult_lt_reg_r in L; auto).
    apply Z.even_spec in EN. apply Z.even_spec in Ev. destruct EN as [a ->]. destruct Ev as [b Eb]. rewrite Eb in *.
    destruct (representable (2 * a + 1) k) as (h & Bh & Vh); [lia|lia|]. apply (Mid h Bh). rewrite Vh, Ef, Eg.
    split; apply Rmult_lt_compat_r; auto; apply IZR_lt; lia.
  - rewrite (Scale N k k' ltac:(lia)) in Ef. set (N2 := (N * 2 ^ (k - k'))%Z) in *.
    assert (Ev : Z.even N2 = true) by (unfold N2; rewrite Z.even_mul, EN; reflexivity).
    pose proof (pw_pos k') as P. assert (Lt : (N2 < N')%Z) by (apply lt_IZR; rewrite Ef, Eg in L; apply Rmult_lt_reg_r in L; auto).
    apply Z.even_spec in EN'. apply Z.even_spec in Ev. destruct EN' as [a ->]. destruct Ev as [b Eb]. rewrite Eb in *.
    destruct (representable (2 * a - 1) k') as (h & Bh & Vh); [lia|lia|]. apply (Mid h Bh). rewrite Vh, Ef, Eg.
    split; apply Rmult_lt_compat_r; auto; apply IZR_lt; lia.
Qed.
Lemma nearest_unique x f g : nearest x f -> nearest x g -> value f = value g.
Proof.
  intros F G. destruct (Rtotal_order (value f) (value g)) as [L|[E|L]]; [|exact E|]; exfalso.
  - exact (no_even_tie x f g F G L).
  - exact (no_even_tie x g f G F L).
Qed.
Lemma nearest_monotone x y f g : nearest x f -> nearest y g -> x <= y -> value f <= value g.
Proof. intros F G [L|E]; [exact (nearest_mono x y f g F G L)|]. subst y. rewrite (nearest_unique x f g F G). lra. Qed.
Lemma nearest_exact x f g : nearest x f -> is_binary64 g -> value g = x -> value f = x.
Proof. intros F B E. subst x. exact (nearest_unique _ _ _ F (nearest_self g B)). Qed.
Lemma same_value f g : is_binary64 f -> is_binary64 g -> value f = value g -> value f <> 0 -> f = g.
Proof.
  intros Bf Bg E N. destruct f as [s| | |s m e]; try (destruct Bf; contradiction).
  destruct g as [s'| | |s' m' e']; try (destruct Bg; contradiction). now apply canonical_unique.
Qed.

(** *** Scaling by powers of two *)
Definition scale (k : Z) (x : spec_float) : spec_float :=
  match x with S754_finite s m e => S754_finite s m (e + k) | _ => x end.
Lemma scale_value k x : value (scale k x) = value x * pw k.
Proof. destruct x as [s| | |s m e]; cbn [scale]; rewrite ?value_sign, ?pw_add; cbn [value]; ring. Qed.
Lemma shr_fexp_scale m e l k : ((-1074 <= Zdigits2 m + e - 53 /\ -1074 <= Zdigits2 m + e + k - 53) \/ (-1074 <= e /\ -1074 <= e + k))%Z ->
  shr_fexp prec emax m (e + k) l = (fst (shr_fexp prec emax m e l), snd (shr_fexp prec emax m e l) + k)%Z.
Proof.
  intros H. unfold shr_fexp. fold fexp64. 
  assert (C : (fexp64 (Zdigits2 m + (e + k)) - (e + k) = fexp64 (Zdigits2 m + e) - e \/
              (fexp64 (Zdigits2 m + (e + k)) - (e + k) <= 0 /\ fexp64 (Zdigits2 m + e) - e <= 0))%Z).
  { rewrite !fexp_val. lia. }
  set (n := (fexp64 (Zdigits2 m + e) - e)%Z) in *. set (n' := (fexp64 (Zdigits2 m + (e + k)) - (e + k))%Z) in *.
  destruct C as [->|[C1 C2]].
  - destruct n as [|p|p]; cbn [shr fst snd]; f_equal; lia.
  - destruct n as [|p|p]; destruct n' as [|p'|p']; try lia; reflexivity.
Qed.
Lemma round_aux_scale s m e l k : (0 <= m)%Z -> (exists x, located m l x) -> (-1074 <= Zdigits2 m + e - 53)%Z -> (-1074 <= Zdigits2 m + e + k - 53)%Z ->
  finite (binary_round_aux prec emax s m e l) -> finite (binary_round_aux prec emax s m (e + k) l) ->
  binary_round_aux prec emax s m (e + k) l = scale k (binary_round_aux prec emax s m e l).
Proof.
  intros H [x L] A A'. unfold binary_round_aux. rewrite (shr_fexp_scale m e l k) by (left; split; assumption).
  pose proof (shr_fexp_target m e l _ H L) as S1. destruct (shr_fexp prec emax m e l) as [r1 e1]. destruct S1 as (-> & _ & _). cbn [fst snd].
  assert (T : (target m e >= fexp64 (Zdigits2 m + e))%Z) by (unfold target; lia). rewrite fexp_val in T.
  set (M := round_nearest_even (shr_m r1) (loc_of_shr_record r1)). rewrite (shr_fexp_scale M (target m e) loc_Exact k) by (right; split; lia).
  destruct (shr_fexp prec emax M (target m e) loc_Exact) as [r2 e2]. cbn [fst snd].
  destruct (shr_m r2) as [|p|p]; [reflexivity| |contradiction].
  destruct (e2 <=? emax - prec)%Z; [|contradiction]. destruct (e2 + k <=? emax - prec)%Z; [reflexivity|contradiction].
Qed.
Lemma div_scale x y k : finite x -> finite y -> value y <> 0 ->
  (value x = 0 \/ (pw (-1021) <= Rabs (value x / value y) < pw 900 /\ pw (-1021) <= Rabs (value x / value y) * pw k < pw 900)) ->
  SFdiv prec emax x (scale (- k) y) = scale k (SFdiv prec emax x y).
Proof.
  intros Fx Fy Ny B. destruct y as [sy| | |sy my ey]; try contradiction.
  destruct x as [sx| | |sx mx ex]; try contradiction; [reflexivity|].
  assert (Nx : value (S754_finite sx mx ex) <> 0).
  { rewrite value_sign. pose proof (pw_pos ex). assert (0 < IZR (Zpos mx)) by now apply IZR_lt. assert (0 < IZR (Z.pos mx) * pw ex) by now apply Rmult_lt_0_compat. destruct sx; cbn [sign]; lra. }
  destruct B as [B|[B B']]; [contradiction|].
  assert (F1 : finite (SFdiv prec emax (S754_finite sx mx ex) (S754_finite sy my ey))) by (apply div_finite; auto; apply B).
  assert (F2 : finite (SFdiv prec emax (S754_finite sx mx ex) (scale (- k) (S754_finite sy my ey)))).
  { apply div_finite; auto.
    - rewrite scale_value. pose proof (pw_pos (- k)). intros Q. apply Rmult_integral in Q. destruct Q; [contradiction|lra].
    - rewrite scale_value. replace (value (S754_finite sx mx ex) / (value (S754_finite sy my ey) * pw (- k))) with (value (S754_finite sx mx ex) / value (S754_finite sy my ey) * pw k).
      + rewrite Rabs_mult, (Rabs_pos_eq (pw k)) by apply Rlt_le, pw_pos. apply B'.
      + pose proof (pw_pos (- k)). apply Rmult_eq_reg_r with (pw (- k)); [|lra]. rewrite Rmult_assoc, (Rmult_comm (pw k)), pw_cancel. field. lra. }
  rewrite div_value in B, B'. pose proof (div_core mx ex my ey) as D. cbv zeta in D.
  cbn [SFdiv scale] in *. 
  set (X := IZR (Zpos mx) * pw ex / (IZR (Zpos my) * pw ey)) in *.
  destruct (SFdiv_core_binary prec emax (Zpos mx) ex (Zpos my) ey) as [[q e'] l] eqn:Ec. destruct D as (PX & Q0 & L & Le & Dq).
  rewrite abs_sign in B, B' by lra.
  set (t := (Zdigits2 (Zpos mx) + ex - (Zdigits2 (Zpos my) + ey))%Z) in *.
  assert (Xt : X < pw (t + 1)).
  { unfold X. apply Rmult_lt_reg_r with (IZR (Zpos my) * pw ey); [apply Rmult_lt_0_compat; [now apply IZR_lt|apply pw_pos]|].
    unfold Rdiv. rewrite Rmult_assoc, Rinv_l, Rmult_1_r by (apply Rgt_not_eq, Rmult_lt_0_compat; [now apply IZR_lt|apply pw_pos]).
    pose proof (digits_upper (Zpos mx) ltac:(lia)) as U. pose proof (digits_lower (Zpos my) ltac:(lia)) as W.
    assert (1 <= Zdigits2 (Zpos my))%Z by (cbn; lia). pose proof (digits_nonneg (Zpos mx)).
    apply Rlt_le_trans with (pw (Zdigits2 (Zpos mx)) * pw ex); [apply Rmult_lt_compat_r; [apply pw_pos|]; rewrite pw_IZR by lia; now apply IZR_lt|].
    apply Rle_trans with (pw (t + 1) * (pw (Zdigits2 (Zpos my) - 1) * pw ey)).
    - rewrite <- !pw_add. apply pw_le. unfold t. lia.
    - apply Rmult_le_compat_l; [apply Rlt_le, pw_pos|]. apply Rmult_le_compat_r; [apply Rlt_le, pw_pos|]. rewrite pw_IZR by lia. now apply IZR_le. }
  assert (T1 : (-1021 < t + 1)%Z) by (apply pw_lt_inv; lra).
  assert (T2 : (-1021 < t + 1 + k)%Z).
  { apply pw_lt_inv. rewrite pw_add. pose proof (pw_pos k). assert (X * pw k < pw (t + 1) * pw k) by (apply Rmult_lt_compat_r; assumption). lra. }
  assert (Ec' : SFdiv_core_binary prec emax (Zpos mx) ex (Zpos my) (ey + - k) = (q, (e' + k)%Z, l)).
  { unfold SFdiv_core_binary in Ec |- *. fold fexp64 in Ec |- *. fold t in Ec.
    replace (Zdigits2 (Z.pos mx) + ex - (Zdigits2 (Z.pos my) + (ey + - k)))%Z with (t + k)%Z by (unfold t; lia).
    assert (Em : (Z.min (fexp64 (t + k)) (ex - (ey + - k)) = Z.min (fexp64 t) (ex - ey) + k)%Z) by (rewrite !fexp_val; lia). rewrite Em.
    replace (ex - (ey + - k) - (Z.min (fexp64 t) (ex - ey) + k))%Z with (ex - ey - Z.min (fexp64 t) (ex - ey))%Z by lia.
    set (num := match (ex - ey - Z.min (fexp64 t) (ex - ey))%Z with 0%Z => _ | Zpos _ => _ | Zneg _ => _ end) in *.
    destruct (Z.div_eucl num (Zpos my)) as [q0 r0]. injection Ec as <- <- <-. reflexivity. }
  rewrite Ec' in *. apply round_aux_scale; auto; [now exists (X * pw (- e'))|lia|lia].
Qed.
