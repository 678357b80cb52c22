(** Lemmas about binary64 arithmetic. *)
Require Import ZArith Reals Lra Lia SpecFloat Bool QArith Qreals Machin.
Require Import Verif.Base Verif.BaseFacts Verif.CoordModel Verif.CoordFloatModel Verif.RoundModel Verif.RoundSpec
  Verif.FloatModel Verif.FloatSpec.
Local Close Scope Q_scope.
Local Open Scope R_scope.

(** *** Powers of two *)
Notation pw := (powerRZ 2).
Lemma pw_pos e : 0 < pw e.
Proof. apply powerRZ_lt. lra. Qed.
Lemma pw_add a b : pw (a + b) = pw a * pw b.
Proof. apply powerRZ_add. lra. Qed.
Lemma pw_IZR n : (0 <= n)%Z -> pw n = IZR (2 ^ n).
Proof.
  intros H. rewrite <- (Z2Nat.id n H). rewrite <- pow_powerRZ. generalize (Z.to_nat n). intros k.
  rewrite <- pow_IZR. reflexivity.
Qed.
Lemma pw_le a b : (a <= b)%Z -> pw a <= pw b.
Proof.
  intros H. replace b with (a + (b - a))%Z by lia. rewrite pw_add. pose proof (pw_pos a).
  assert (1 <= pw (b - a)). { rewrite pw_IZR by lia. apply IZR_le. assert (0 < 2 ^ (b - a))%Z by (apply Z.pow_pos_nonneg; lia). lia. }
  nra.
Qed.
Lemma pw_lt a b : (a < b)%Z -> pw a < pw b.
Proof.
  intros H. replace b with (a + (b - a))%Z by lia. rewrite pw_add. pose proof (pw_pos a).
  assert (2 <= pw (b - a)).
  { rewrite pw_IZR by lia. apply IZR_le. change 2%Z with (2 ^ 1)%Z at 1. apply Z.pow_le_mono_r; lia. }
  nra.
Qed.
Lemma pw_lt_inv a b : pw a < pw b -> (a < b)%Z.
Proof. intros H. destruct (Z.lt_ge_cases a b) as [|G]; [assumption|]. apply pw_le in G. lra. Qed.

(** *** Digits *)
Lemma digits_pos m : (2 ^ (Zpos (digits2_pos m) - 1) <= Zpos m < 2 ^ Zpos (digits2_pos m))%Z.
Proof.
  induction m as [m IH|m IH|]; cbn [digits2_pos]; [| |cbn; lia]; rewrite Pos2Z.inj_succ;
    rewrite Z.pow_succ_r by lia; replace (Z.succ (Z.pos (digits2_pos m)) - 1)%Z with (Z.succ (Z.pos (digits2_pos m) - 1))%Z by lia;
    rewrite Z.pow_succ_r by lia; lia.
Qed.
Lemma digits_nonneg m : (0 <= Zdigits2 m)%Z.
Proof. destruct m; cbn; lia. Qed.
Lemma digits_upper m : (0 <= m)%Z -> (m < 2 ^ Zdigits2 m)%Z.
Proof. destruct m as [|p|p]; intros H; [cbn; lia | apply digits_pos | lia]. Qed.
Lemma digits_lower m : (0 < m)%Z -> (2 ^ (Zdigits2 m - 1) <= m)%Z.
Proof. destruct m as [|p|p]; intros H; [lia | apply digits_pos | lia]. Qed.
(** Numbers below 2^d have at most d digits. *)
Lemma digits_le m d : (0 <= m < 2 ^ d)%Z -> (0 <= d)%Z -> (Zdigits2 m <= d)%Z.
Proof.
  intros [H1 H2] D. destruct (Z.eq_dec m 0) as [->|N]; [exact D|].
  pose proof (digits_lower m ltac:(lia)) as L. pose proof (digits_nonneg m).
  assert (X : (2 ^ (Zdigits2 m - 1) < 2 ^ d)%Z) by lia. apply Z.pow_lt_mono_r_iff in X; lia.
Qed.

(** *** Where a real number lies between two integers *)
Definition located (m : Z) (l : location) (x : R) : Prop :=
  match l with
  | loc_Exact => x = IZR m
  | loc_Inexact Lt => IZR m < x < IZR m + 1 / 2
  | loc_Inexact Eq => x = IZR m + 1 / 2
  | loc_Inexact Gt => IZR m + 1 / 2 < x < IZR m + 1
  end.
Definition shifted (r : shr_record) (x : R) : Prop := (0 <= shr_m r)%Z /\ located (shr_m r) (loc_of_shr_record r) x.
Lemma located_floor m l x : located m l x -> IZR m <= x < IZR m + 1.
Proof. destruct l as [|[]]; cbn; intros; lra. Qed.
Lemma shifted_record m l x : (0 <= m)%Z -> located m l x -> shifted (shr_record_of_loc m l) x.
Proof. intros H L. destruct l as [|[]]; split; exact H || exact L. Qed.
Lemma shr_1_half r x : shifted r x -> shifted (shr_1 r) (x / 2).
Proof.
  assert (O : forall p, IZR (Z.pos p~1) = 2 * IZR (Z.pos p) + 1) by (intros; rewrite (Pos2Z.inj_xI p), plus_IZR, mult_IZR; reflexivity).
  assert (E : forall p, IZR (Z.pos p~0) = 2 * IZR (Z.pos p)) by (intros; rewrite (Pos2Z.inj_xO p), mult_IZR; reflexivity).
  destruct r as [m b s]. intros [H L]. cbn [shr_m] in H, L.
  destruct m as [|[p|p|]|p]; [| | | |lia]; (split; [cbn; lia|]); cbn [shr_1 shr_m];
    destruct b, s; cbn [loc_of_shr_record orb located] in L |- *; try rewrite !(O p) in L; try rewrite !(E p) in L; lra.
Qed.
Lemma iter_pos_nat {A} (f : A -> A) p : forall x, SpecFloat.iter_pos f p x = Nat.iter (Pos.to_nat p) f x.
Proof.
  assert (Q : forall n x, Nat.iter n f (f x) = f (Nat.iter n f x)) by (induction n; intros x; [reflexivity|change (f (Nat.iter n f (f x)) = f (f (Nat.iter n f x))); now rewrite IHn]).
  assert (D : forall a b x, Nat.iter a f (Nat.iter b f x) = Nat.iter (a + b) f x) by (induction a; intros b x; [reflexivity|change (f (Nat.iter a f (Nat.iter b f x)) = f (Nat.iter (a + b) f x)); now rewrite IHa]).
  induction p as [p IH|p IH|]; intros x; cbn [SpecFloat.iter_pos].
  - rewrite !IH, D, Q. replace (Pos.to_nat p~1) with (S (Pos.to_nat p + Pos.to_nat p)) by lia. reflexivity.
  - rewrite !IH, D. f_equal. lia.
  - reflexivity.
Qed.
Lemma shr_shifted r x e n : shifted r x -> (0 <= n)%Z -> let '(r', e') := shr r e n in e' = (e + n)%Z /\ shifted r' (x * pw (- n)).
Proof.
  intros H N. destruct n as [|p|p]; [|clear N|lia]; cbn [shr].
  - split; [lia|]. cbn. now rewrite Rmult_1_r.
  - split; [reflexivity|]. rewrite iter_pos_nat, <- (positive_nat_Z p). generalize (Pos.to_nat p). intros k.
    induction k as [|k IH].
    + change (- Z.of_nat 0)%Z with 0%Z. change (Nat.iter 0 shr_1 r) with r. change (pw 0) with 1. now rewrite Rmult_1_r.
    + replace (x * pw (- Z.of_nat (S k))) with (x * pw (- Z.of_nat k) / 2);
        [change (Nat.iter (S k) shr_1 r) with (shr_1 (Nat.iter k shr_1 r)); now apply shr_1_half|].
      replace (- Z.of_nat (S k))%Z with (- Z.of_nat k + -1)%Z by lia. rewrite pw_add. change (pw (-1)) with (/ (2 * 1)). field.
Qed.

(** Rounding to the nearest integer. *)
Lemma round_near r x : shifted r x ->
  let m := round_nearest_even (shr_m r) (loc_of_shr_record r) in
  Rabs (IZR m - x) <= 1 / 2 /\ (shr_m r <= m <= shr_m r + 1)%Z /\ (loc_of_shr_record r = loc_Exact -> IZR m = x).
Proof.
  intros [H L] m. unfold m. destruct (loc_of_shr_record r) as [|[]]; cbn in L |- *.
  - subst x. rewrite Rminus_diag_eq, Rabs_R0 by reflexivity. split; [lra|]. split; [lia|reflexivity].
  - subst x. destruct (Z.even (shr_m r)).
    + split; [apply Rabs_le; lra|]. split; [lia|discriminate].
    + rewrite plus_IZR. split; [apply Rabs_le; lra|]. split; [lia|discriminate].
  - split; [apply Rabs_le; lra|]. split; [lia|discriminate].
  - rewrite plus_IZR. split; [apply Rabs_le; lra|]. split; [lia|discriminate].
Qed.

(** *** Rounding *)
Notation fexp64 := (fexp prec emax).
Lemma fexp_val e : fexp64 e = Z.max (e - 53) (-1074).
Proof. reflexivity. Qed.
Definition sign (s : bool) : R := if s then -1 else 1.

(** The exponent to which a number with mantissa [m] and exponent [e] is rounded. *)
Definition target (m e : Z) : Z := Z.max e (fexp64 (Zdigits2 m + e)).

Lemma shr_fexp_target m e l x : (0 <= m)%Z -> located m l x ->
  let '(r, e') := shr_fexp prec emax m e l in
  e' = target m e /\ shifted r (x * pw (e - target m e)) /\ (target m e = e -> r = shr_record_of_loc m l).
Proof.
  intros H L. unfold shr_fexp, target. apply shifted_record in L; [|exact H]. set (k := fexp64 (Zdigits2 m + e)).
  destruct (Z.le_gt_cases k e) as [K|K].
  - rewrite Z.max_l by lia. replace (e - e)%Z with 0%Z by lia. cbn [powerRZ]. rewrite Rmult_1_r.
    unfold shr. destruct (k - e)%Z eqn:D; [| lia |]; repeat split; try apply L; reflexivity.
  - rewrite Z.max_r by lia. pose proof (shr_shifted _ _ e (k - e) L ltac:(lia)) as S. destruct (shr _ e (k - e)) as [r e']. destruct S as [-> S].
    split; [lia|]. split; [|lia]. replace (e - k)%Z with (- (k - e))%Z by lia. exact S.
Qed.

Lemma round_aux s m e l X : (0 <= m)%Z -> located m l (X * pw (- e)) -> (l = loc_Exact \/ (e <= fexp64 (Zdigits2 m + e))%Z) ->
  finite (binary_round_aux prec emax s m e l) ->
  exists M, (0 <= M)%Z /\ Rabs (IZR M - X * pw (- target m e)) <= 1 / 2 /\ (l = loc_Exact -> target m e = e -> M = m) /\
    value (binary_round_aux prec emax s m e l) = sign s * IZR M * pw (target m e) /\ proper (binary_round_aux prec emax s m e l).
Proof.
  intros H L Le F. unfold binary_round_aux in *. pose proof (shr_fexp_target m e l _ H L) as S1.
  destruct (shr_fexp prec emax m e l) as [r1 e1]. destruct S1 as (-> & S1 & R1). set (f := target m e) in *.
  replace (X * pw (- e) * pw (e - f)) with (X * pw (- f)) in S1 by (rewrite Rmult_assoc, <- pw_add; do 2 f_equal; lia).
  destruct (round_near _ _ S1) as (N & B & Ex). set (M := round_nearest_even (shr_m r1) (loc_of_shr_record r1)) in *.
  assert (M0 : (0 <= M)%Z) by (destruct S1; lia).
  assert (Fl : (-1074 <= f)%Z) by (unfold f, target; rewrite fexp_val; lia).
  (** the mantissa has at most 53 digits, or is 2^53 *)
  assert (M53 : (M <= 2 ^ 53)%Z).
  { assert (D : (shr_m r1 < 2 ^ 53)%Z); [|lia].
    destruct (Z.eq_dec f e) as [E|E].
    - rewrite (R1 E). replace (shr_m (shr_record_of_loc m l)) with m by (destruct l as [|[]]; reflexivity).
      pose proof (digits_upper m H) as U. apply Z.lt_le_trans with (1 := U). apply Z.pow_le_mono_r; [lia|].
      unfold f, target in E. rewrite fexp_val in E. lia.
    - assert (Fe : f = fexp64 (Zdigits2 m + e)) by (unfold f, target in *; lia).
      apply lt_IZR. pose proof (located_floor _ _ _ (proj2 S1)) as [LF _]. apply Rle_lt_trans with (1 := LF).
      pose proof (located_floor _ _ _ L) as [_ LU].
      assert (U : X * pw (- e) < pw (Zdigits2 m)).
      { rewrite (pw_IZR (Zdigits2 m)) by apply digits_nonneg. pose proof (digits_upper m H) as U. destruct l as [|c].
        - cbn in L. rewrite L. now apply IZR_lt.
        - apply Rlt_le_trans with (1 := LU). rewrite <- plus_IZR. apply IZR_le. lia. }
      replace (X * pw (- f)) with (X * pw (- e) * pw (e - f)) by (rewrite Rmult_assoc, <- pw_add; do 2 f_equal; lia).
      rewrite <- (pw_IZR 53) by lia. apply Rlt_le_trans with (pw (Zdigits2 m) * pw (e - f)).
      + apply Rmult_lt_compat_r; [apply pw_pos|exact U].
      + rewrite <- pw_add. apply pw_le. rewrite fexp_val in Fe. lia. }
  exists M. split; [exact M0|]. split; [exact N|]. split.
  { intros -> E. apply eq_IZR. rewrite Ex by (rewrite (R1 E); reflexivity). cbn in L. rewrite E. exact L. }
  (** the second normalisation is exact *)
  assert (D53 : IZR (2 ^ 53) = 2 * IZR (2 ^ 52)) by (rewrite <- mult_IZR; reflexivity).
  assert (S2 := shr_fexp_target M f loc_Exact (IZR M) M0 eq_refl).
  destruct (shr_fexp prec emax M f loc_Exact) as [r2 e2]. destruct S2 as (-> & S2 & R2).
  assert (V : IZR (shr_m r2) * pw (target M f) = IZR M * pw f /\ (0 <= shr_m r2)%Z).
  { destruct (Z.eq_dec M (2 ^ 53)) as [E|E].
    - assert (T : target M f = (f + 1)%Z).
      { unfold target. rewrite fexp_val, E. change (Zdigits2 (2 ^ 53)) with 54%Z. lia. }
      rewrite T in *. replace (f - (f + 1))%Z with (-1)%Z in S2 by lia. rewrite E in *.
      replace (IZR (2 ^ 53) * pw (-1)) with (IZR (2 ^ 52)) in S2 by (rewrite D53; change (pw (-1)) with (/ (2 * 1)); field).
      pose proof (located_floor _ _ _ (proj2 S2)) as [A B'].
      assert (Q : shr_m r2 = (2 ^ 52)%Z). { rewrite <- plus_IZR in B'. apply le_IZR in A. apply lt_IZR in B'. lia. }
      rewrite Q. split; [|lia]. rewrite pw_add, D53. change (pw 1) with (2 * 1). ring.
    - assert (T : target M f = f).
      { unfold target. rewrite fexp_val. assert (Zdigits2 M <= 53)%Z by (apply digits_le; lia). lia. }
      rewrite T, (R2 T). cbn. split; [reflexivity|exact M0]. }
  destruct V as [V V0]. destruct (shr_m r2) as [|q|q] eqn:Q; [| |lia].
  - rewrite Rmult_0_l in V. cbn [value]. split; [|exact I]. rewrite Rmult_assoc, <- V. ring.
  - destruct (target M f <=? emax - prec)%Z eqn:T; [|contradiction].
    cbn [value proper]. split; [|unfold target; lia]. rewrite Rmult_assoc, V. unfold sign. ring.
Qed.

(** *** The relative error of a rounding *)
Lemma value_sign s p e : value (S754_finite s p e) = sign s * IZR (Zpos p) * pw e.
Proof. reflexivity. Qed.
Lemma rounded_exact x : rounded x x.
Proof. exists 0. split; [rewrite Rabs_R0; apply Rlt_le, pw_pos|ring]. Qed.
Lemma pw_cancel e : pw (- e) * pw e = 1.
Proof. rewrite <- pw_add. replace (- e + e)%Z with 0%Z by lia. reflexivity. Qed.

Lemma round_relative s m e l X : (0 <= m)%Z -> 0 < X -> located m l (X * pw (- e)) -> (l = loc_Exact \/ (e <= fexp64 (Zdigits2 m + e))%Z) ->
  (smallest_normal <= X \/ (l = loc_Exact /\ (-1074 <= e)%Z)) ->
  finite (binary_round_aux prec emax s m e l) ->
  rounded (sign s * X) (value (binary_round_aux prec emax s m e l)) /\ proper (binary_round_aux prec emax s m e l).
Proof.
  intros H PX L Le Nm F. destruct (round_aux s m e l X H L Le F) as (M & M0 & B & Ex & V & Pr). split; [|exact Pr]. rewrite V.
  set (f := target m e) in *.
  assert (Exact : l = loc_Exact -> f = e -> rounded (sign s * X) (sign s * IZR M * pw f)).
  { intros -> E. rewrite (Ex eq_refl E), E. cbn in L. rewrite <- L.
    replace (sign s * (X * pw (- e)) * pw e) with (sign s * X * (pw (- e) * pw e)) by ring. rewrite pw_cancel, Rmult_1_r. apply rounded_exact. }
  assert (Dl : l = loc_Exact /\ f = e \/ f = fexp64 (Zdigits2 m + e)).
  { unfold f, target. destruct Le as [->|Le]; [|right; lia]. destruct (Z.le_gt_cases (fexp64 (Zdigits2 m + e)) e); [left; split; [reflexivity|lia]|right; lia]. }
  destruct Dl as [[E1 E2]|E]; [now apply Exact|].
  assert (Fe : (e <= f)%Z) by (unfold f, target; lia).
  (** the number is at least 2^52 units of the last place *)
  assert (W : (l = loc_Exact /\ f = e) \/ pw (f + 52) <= X).
  { rewrite fexp_val in E.
    assert (Lo : (0 < m)%Z -> pw (Zdigits2 m - 1 + e) <= X).
    { intros Hm. pose proof (located_floor _ _ _ L) as [A _]. pose proof (digits_lower m Hm) as D.
      assert (1 <= Zdigits2 m)%Z by (destruct m; cbn; lia).
      assert (pw (Zdigits2 m - 1) <= X * pw (- e)) by (rewrite pw_IZR by lia; apply Rle_trans with (2 := A); now apply IZR_le).
      rewrite pw_add. replace X with (X * pw (- e) * pw e) by (rewrite Rmult_assoc, pw_cancel; ring).
      apply Rmult_le_compat_r; [apply Rlt_le, pw_pos|assumption]. }
    destruct (Z.le_gt_cases (Zdigits2 m + e - 53) (-1074)) as [C|C].
    - assert (f = -1074)%Z by lia. destruct Nm as [Nm|[-> Ne]]; [right; rewrite H0; exact Nm|left]. split; [reflexivity|lia].
    - right. assert (f = Zdigits2 m + e - 53)%Z by lia.
      assert (0 < m)%Z. { destruct (Z.eq_dec m 0) as [->|]; [cbn in *; lia|lia]. }
      rewrite H0. replace (Zdigits2 m + e - 53 + 52)%Z with (Zdigits2 m - 1 + e)%Z by lia. auto. }
  destruct W as [[W1 W2]|W]; [now apply Exact|].
  exists ((IZR M * pw f - X) / X). split.
  - unfold Rdiv. rewrite Rabs_mult, (Rabs_pos_eq (/ X)) by (apply Rlt_le, Rinv_0_lt_compat, PX).
    apply Rmult_le_reg_r with X; [exact PX|]. rewrite Rmult_assoc, Rinv_l, Rmult_1_r by lra.
    replace (IZR M * pw f - X) with ((IZR M - X * pw (- f)) * pw f).
    2:{ replace ((IZR M - X * pw (- f)) * pw f) with (IZR M * pw f - X * (pw (- f) * pw f)) by ring. rewrite pw_cancel. ring. }
    rewrite Rabs_mult, (Rabs_pos_eq (pw f)) by apply Rlt_le, pw_pos.
    apply Rle_trans with (1 / 2 * pw f); [apply Rmult_le_compat_r; [apply Rlt_le, pw_pos|exact B]|].
    apply Rle_trans with (pw (-53) * pw (f + 52)); [|apply Rmult_le_compat_l; [apply Rlt_le, pw_pos|exact W]].
    rewrite <- pw_add. replace (-53 + (f + 52))%Z with (-1 + f)%Z by lia. rewrite pw_add. change (pw (-1)) with (/ (2 * 1)). apply Req_le. field.
  - field. lra.
Qed.

(** *** Multiplication *)
Lemma sign_xorb a b : sign (xorb a b) = sign a * sign b.
Proof. destruct a, b; cbn; ring. Qed.
Lemma pos_product p q e f : 0 < IZR (Zpos p) * pw e * (IZR (Zpos q) * pw f).
Proof. repeat apply Rmult_lt_0_compat; try apply pw_pos; now apply IZR_lt. Qed.
Lemma abs_sign s x : 0 <= x -> Rabs (sign s * x) = x.
Proof. intros H. rewrite Rabs_mult, (Rabs_pos_eq x H). destruct s; cbn [sign]; [rewrite (Rabs_left (-1)) by lra|rewrite Rabs_R1]; ring. Qed.
Lemma normal_pos s x : 0 < x -> normal (sign s * x) -> smallest_normal <= x.
Proof.
  intros H [N|N].
  - exfalso. destruct s; cbn in N; lra.
  - now rewrite abs_sign in N by lra.
Qed.

Lemma mul_rounded x y : finite (SFmul prec emax x y) -> finite x -> finite y -> normal (value x * value y) ->
  rounded (value x * value y) (value (SFmul prec emax x y)) /\ proper (SFmul prec emax x y).
Proof.
  intros F Fx Fy N. destruct x as [sx| | |sx mx ex]; try contradiction; destruct y as [sy| | |sy my ey]; try contradiction;
    try (cbn; rewrite ?Rmult_0_l, ?Rmult_0_r; split; [apply rounded_exact|exact I]).
  rewrite !value_sign in *. set (X := IZR (Zpos mx) * pw ex * (IZR (Zpos my) * pw ey)).
  replace (sign sx * IZR (Z.pos mx) * pw ex * (sign sy * IZR (Z.pos my) * pw ey)) with (sign (xorb sx sy) * X) in * by (rewrite sign_xorb; unfold X; ring).
  pose proof (pos_product mx my ex ey) as PX. fold X in PX. cbn [SFmul] in *.
  apply round_relative; auto; [discriminate| |left; apply (normal_pos (xorb sx sy)); assumption].
  cbn [located]. unfold X. rewrite Pos2Z.inj_mul, mult_IZR. 
  replace (IZR (Z.pos mx) * pw ex * (IZR (Z.pos my) * pw ey) * pw (- (ex + ey))) with (IZR (Z.pos mx) * IZR (Z.pos my) * (pw (- (ex + ey)) * (pw ex * pw ey))) by ring.
  rewrite <- (pw_add ex ey), pw_cancel. ring.
Qed.

(** *** Division *)
Lemma new_location_located q r n : (0 < n)%Z -> (0 <= r < n)%Z -> located q (new_location n r) ((IZR q * IZR n + IZR r) / IZR n).
Proof.
  intros N R. assert (Pn : 0 < IZR n) by now apply IZR_lt.
  assert (Ex : r = 0%Z -> (IZR q * IZR n + IZR r) / IZR n = IZR q) by (intros ->; field; lra).
  assert (G : forall c, (IZR q * IZR n + IZR r) / IZR n = IZR q + c <-> IZR r = c * IZR n).
  { intros c. split; intros E.
    - apply (f_equal (fun t => t * IZR n)) in E. unfold Rdiv in E. rewrite Rmult_assoc, Rinv_l in E by lra. lra.
    - rewrite E. field. lra. }
  set (v := (IZR q * IZR n + IZR r) / IZR n) in *. set (f := v - IZR q).
  assert (Ef : IZR r = f * IZR n) by (apply G; unfold f; ring). replace v with (IZR q + f) in * by (unfold f; ring).
  assert (K : r <> 0%Z -> 0 < IZR r) by (intros; apply IZR_lt; lia).
  assert (K2 : IZR r < IZR n) by (apply IZR_lt; lia).
  assert (C : forall z, (2 * r < z)%Z -> (z <= n)%Z -> 2 * IZR r < IZR n).
  { intros z A B. rewrite <- mult_IZR. apply IZR_lt. lia. }
  assert (C2 : (n < 2 * r)%Z -> IZR n < 2 * IZR r). { intros A. rewrite <- mult_IZR. now apply IZR_lt. }
  assert (Fin : r <> 0%Z -> 0 < f < 1) by (intros Hr; specialize (K Hr); split; nra).
  unfold new_location. destruct (Z.even n) eqn:Ev.
  - unfold new_location_even. destruct (Zeq_bool r 0) eqn:Z0; [apply Zeq_bool_eq in Z0; cbn; auto|].
    apply Zeq_bool_neq in Z0. specialize (Fin Z0). destruct (2 * r ?= n)%Z eqn:Cm; cbn.
    + apply Z.compare_eq in Cm. apply (f_equal IZR) in Cm. rewrite mult_IZR in Cm. nra.
    + apply (proj1 (Z.compare_lt_iff _ _)) in Cm. specialize (C n Cm (Z.le_refl n)). nra.
    + apply (proj1 (Z.compare_gt_iff _ _)) in Cm. specialize (C2 Cm). nra.
  - assert (Od : exists k, n = (2 * k + 1)%Z). { rewrite <- Z.negb_odd in Ev. apply Bool.negb_false_iff, Z.odd_spec in Ev. exact Ev. }
    destruct Od as [k Hk].
    unfold new_location_odd. destruct (Zeq_bool r 0) eqn:Z0; [apply Zeq_bool_eq in Z0; cbn; auto|].
    apply Zeq_bool_neq in Z0. specialize (Fin Z0). destruct (2 * r + 1 ?= n)%Z eqn:Cm; cbn.
    + apply Z.compare_eq in Cm. specialize (C n ltac:(lia) (Z.le_refl n)). nra.
    + apply (proj1 (Z.compare_lt_iff _ _)) in Cm. specialize (C n ltac:(lia) (Z.le_refl n)). nra.
    + apply (proj1 (Z.compare_gt_iff _ _)) in Cm. specialize (C2 ltac:(lia)). nra.
Qed.

Lemma digits_ge m d : (0 <= d)%Z -> (2 ^ d <= m)%Z -> (d + 1 <= Zdigits2 m)%Z.
Proof.
  intros D H. assert (0 < 2 ^ d)%Z by (apply Z.pow_pos_nonneg; lia). pose proof (digits_upper m ltac:(lia)) as U.
  assert (X : (2 ^ d < 2 ^ Zdigits2 m)%Z) by lia. pose proof (digits_nonneg m). apply Z.pow_lt_mono_r_iff in X; lia.
Qed.

Lemma div_core mx ex my ey : let X := IZR (Zpos mx) * pw ex / (IZR (Zpos my) * pw ey) in
  let '(q, e', l) := SFdiv_core_binary prec emax (Zpos mx) ex (Zpos my) ey in
  0 < X /\ (0 <= q)%Z /\ located q l (X * pw (- e')) /\ (e' <= fexp64 (Zdigits2 q + e'))%Z /\
  (Zdigits2 (Zpos mx) + ex - (Zdigits2 (Zpos my) + ey) <= Zdigits2 q + e')%Z.
Proof.
  assert (Px : 0 < IZR (Zpos mx)) by now apply IZR_lt. assert (Py : 0 < IZR (Zpos my)) by now apply IZR_lt.
  pose proof (pw_pos ex) as Pex. pose proof (pw_pos ey) as Pey. intros X.
  assert (PX : 0 < X). { unfold X. apply Rmult_lt_0_compat; [now apply Rmult_lt_0_compat|]. apply Rinv_0_lt_compat. now apply Rmult_lt_0_compat. }
  unfold SFdiv_core_binary.
  set (d1 := Zdigits2 (Zpos mx)) in *. set (d2 := Zdigits2 (Zpos my)) in *.
  set (e' := Z.min (fexp64 (d1 + ex - (d2 + ey))) (ex - ey)) in *. set (s := (ex - ey - e')%Z) in *.
  assert (S0 : (0 <= s)%Z) by (unfold s, e'; lia).
  assert (Em : match s with 0%Z => Zpos mx | Zpos _ => Z.shiftl (Zpos mx) s | Zneg _ => 0%Z end = (Zpos mx * 2 ^ s)%Z).
  { destruct s as [|p|p]; [cbn; lia| |lia]. apply Z.shiftl_mul_pow2. lia. }
  rewrite Em in *. pose proof (Z_div_mod (Z.pos mx * 2 ^ s) (Zpos my) ltac:(lia)) as D. unfold Z.div, Z.modulo in *.
  destruct (Z.div_eucl (Z.pos mx * 2 ^ s) (Z.pos my)) as [q r]. destruct D as [D1 D2].
  assert (P2 : (0 < 2 ^ s)%Z) by (apply Z.pow_pos_nonneg; lia).
  assert (Q0 : (0 <= q)%Z) by nia.
  assert (XE : X * pw (- e') = (IZR q * IZR (Zpos my) + IZR r) / IZR (Zpos my)).
  { rewrite <- mult_IZR, <- plus_IZR. replace (q * Z.pos my + r)%Z with (Z.pos mx * 2 ^ s)%Z by lia. rewrite mult_IZR, <- pw_IZR by exact S0.
    unfold s. replace (ex - ey - e')%Z with (ex + - ey + - e')%Z by lia. rewrite !pw_add. unfold X.
    assert (IE : pw (- ey) = / pw ey) by (apply Rmult_eq_reg_r with (pw ey); [rewrite pw_cancel, Rinv_l; lra|lra]).
    rewrite IE. field. lra. }
  split; [exact PX|]. split; [exact Q0|]. split.
  - rewrite XE. apply new_location_located; lia.
  - rewrite fexp_val. enough ((d1 + ex - (d2 + ey)) <= Zdigits2 q + e')%Z
      by (assert (e' <= Z.max (d1 + ex - (d2 + ey) - 53) (-1074))%Z by (unfold e'; rewrite fexp_val; lia); split; lia).
    pose proof (digits_lower (Zpos mx) ltac:(lia)) as A1. pose proof (digits_upper (Zpos my) ltac:(lia)) as A2. fold d1 in A1. fold d2 in A2.
    assert (1 <= d1)%Z by (unfold d1; cbn; lia). assert (1 <= d2)%Z by (unfold d2; cbn; lia).
    destruct (Z.le_gt_cases 0 (d1 - 1 + s - d2)) as [G|G].
    + enough (d1 - 1 + s - d2 + 1 <= Zdigits2 q)%Z by (unfold s in *; lia). apply digits_ge; [exact G|].
      assert (E : (2 ^ (d1 - 1 + s - d2) * 2 ^ d2 = 2 ^ (d1 - 1) * 2 ^ s)%Z) by (rewrite <- !Z.pow_add_r by lia; f_equal; lia).
      assert (0 < 2 ^ (d1 - 1 + s - d2))%Z by (apply Z.pow_pos_nonneg; lia).
      set (a := (2 ^ (d1 - 1 + s - d2))%Z) in *. set (b := (2 ^ d2)%Z) in *.
      assert (a * b <= Z.pos mx * 2 ^ s)%Z by (rewrite E; now apply Z.mul_le_mono_nonneg_r; lia).
      assert (L : (a * b < (q + 1) * b)%Z) by nia. apply Z.mul_lt_mono_pos_r in L; lia.
    + pose proof (digits_nonneg q). unfold s in *. lia.
Qed.
Lemma div_value sx mx ex sy my ey : value (S754_finite sx mx ex) / value (S754_finite sy my ey) =
  sign (xorb sx sy) * (IZR (Zpos mx) * pw ex / (IZR (Zpos my) * pw ey)).
Proof.
  rewrite !value_sign, sign_xorb. assert (Py : 0 < IZR (Zpos my)) by now apply IZR_lt. pose proof (pw_pos ey) as Pey.
  destruct sx, sy; cbn [sign]; field; lra.
Qed.
Lemma div_rounded x y : finite (SFdiv prec emax x y) -> finite x -> finite y -> value y <> 0 -> normal (value x / value y) ->
  rounded (value x / value y) (value (SFdiv prec emax x y)) /\ proper (SFdiv prec emax x y).
Proof.
  intros F Fx Fy Ny N. destruct y as [sy| | |sy my ey]; try contradiction.
  destruct x as [sx| | |sx mx ex]; try contradiction; [unfold Rdiv; cbn; rewrite Rmult_0_l; split; [apply rounded_exact|exact I]|].
  rewrite div_value in *. pose proof (div_core mx ex my ey) as D. cbv zeta in D. cbn [SFdiv] in *.
  destruct (SFdiv_core_binary prec emax (Zpos mx) ex (Zpos my) ey) as [[q e'] l]. destruct D as (PX & Q0 & L & Le & _).
  apply round_relative; auto. left. apply (normal_pos (xorb sx sy)); assumption.
Qed.

(** *** Addition and subtraction *)
Lemma shift_pos_mul d m : Zpos (shift_pos d m) = (Zpos m * 2 ^ Zpos d)%Z.
Proof.
  unfold shift_pos. rewrite <- (positive_nat_Z d). rewrite Pos2Nat.inj_iter.
  induction (Pos.to_nat d) as [|n IH].
  - cbn. lia.
  - cbn [nat_rect]. rewrite Pos2Z.inj_xO, IH, Nat2Z.inj_succ, Z.pow_succ_r by lia. ring.
Qed.
Lemma shl_align_value m e k : let '(m', e') := shl_align m e k in IZR (Zpos m') * pw e' = IZR (Zpos m) * pw e /\ e' = Z.min e k.
Proof.
  unfold shl_align. destruct (k - e)%Z as [|p|p] eqn:D; [split; [reflexivity|lia]..|].
  split; [|lia]. rewrite shift_pos_mul, mult_IZR, <- pw_IZR, Rmult_assoc, <- pw_add by lia. do 2 f_equal. lia.
Qed.

Lemma normalize_rounded m e z : (-1074 <= e)%Z -> finite (binary_normalize prec emax m e z) ->
  rounded (IZR m * pw e) (value (binary_normalize prec emax m e z)) /\ proper (binary_normalize prec emax m e z).
Proof.
  intros E. assert (G : forall s p, finite (binary_round prec emax s p e) ->
    rounded (sign s * (IZR (Zpos p) * pw e)) (value (binary_round prec emax s p e)) /\ proper (binary_round prec emax s p e)).
  { intros s p. unfold binary_round. pose proof (shl_align_value p e (fexp64 (Zpos (digits2_pos p) + e))) as A.
    destruct (shl_align p e (fexp64 (Zpos (digits2_pos p) + e))) as [p' e']. destruct A as [A1 A2]. intros F. rewrite <- A1.
    assert (E' : (-1074 <= e')%Z) by (rewrite A2, fexp_val; lia).
    apply round_relative; auto; [discriminate| |].
    - apply Rmult_lt_0_compat; [now apply IZR_lt|apply pw_pos].
    - cbn [located]. rewrite Rmult_assoc, (Rmult_comm (pw e')), pw_cancel. ring. }
  destruct m as [|p|p]; cbn [binary_normalize]; intros F.
  - cbn [value]. rewrite Rmult_0_l. split; [apply rounded_exact|exact I].
  - specialize (G false p F). cbn [sign] in G. now rewrite Rmult_1_l in G.
  - specialize (G true p F). cbn [sign] in G. replace (IZR (Z.neg p) * pw e) with (-1 * (IZR (Z.pos p) * pw e)); [exact G|].
    change (Z.neg p) with (- Z.pos p)%Z. rewrite opp_IZR. ring.
Qed.

Lemma cond_value s p e : IZR (cond_Zopp s (Zpos p)) * pw e = sign s * IZR (Zpos p) * pw e.
Proof. destruct s; cbn [cond_Zopp sign]; [rewrite opp_IZR|]; ring. Qed.
Lemma aligned s m e k : (k <= e)%Z -> IZR (cond_Zopp s (Zpos (fst (shl_align m e k)))) * pw k = sign s * IZR (Zpos m) * pw e.
Proof.
  intros K. pose proof (shl_align_value m e k) as A. destruct (shl_align m e k) as [m' e']. destruct A as [A1 A2]. cbn [fst].
  rewrite cond_value, Rmult_assoc. replace k with e' by lia. rewrite A1. ring.
Qed.

Lemma proper_finite x : proper x -> finite x.
Proof. destruct x; cbn; auto. Qed.

Lemma add_rounded x y : proper x -> proper y -> finite (SFadd prec emax x y) ->
  rounded (value x + value y) (value (SFadd prec emax x y)) /\ proper (SFadd prec emax x y).
Proof.
  intros Px Py F. destruct x as [sx| | |sx mx ex]; try contradiction; destruct y as [sy| | |sy my ey]; try contradiction.
  - cbn [SFadd]. destruct (Bool.eqb sx sy); cbn [value proper]; rewrite Rplus_0_l; (split; [apply rounded_exact|exact I]).
  - cbn [SFadd]. change (value (S754_zero sx)) with 0. rewrite Rplus_0_l. split; [apply rounded_exact|exact Py].
  - cbn [SFadd]. change (value (S754_zero sy)) with 0. rewrite Rplus_0_r. split; [apply rounded_exact|exact Px].
  - cbn [SFadd] in *. rewrite !value_sign. cbn [proper] in Px, Py.
    rewrite <- (aligned sx mx ex (Z.min ex ey)), <- (aligned sy my ey (Z.min ex ey)) by lia.
    rewrite <- Rmult_plus_distr_r, <- plus_IZR. apply normalize_rounded; [lia|exact F].
Qed.
Lemma sub_rounded x y : proper x -> proper y -> finite (SFsub prec emax x y) ->
  rounded (value x - value y) (value (SFsub prec emax x y)) /\ proper (SFsub prec emax x y).
Proof.
  intros Px Py F. destruct x as [sx| | |sx mx ex]; try contradiction; destruct y as [sy| | |sy my ey]; try contradiction.
  - cbn [SFsub]. destruct (Bool.eqb sx (negb sy)); cbn [value proper]; rewrite Rminus_0_r; (split; [apply rounded_exact|exact I]).
  - cbn [SFsub]. change (value (S754_zero sx)) with 0. rewrite Rminus_0_l.
    replace (- value (S754_finite sy my ey)) with (value (S754_finite (negb sy) my ey)) by (destruct sy; cbn [value negb]; ring).
    split; [apply rounded_exact|exact Py].
  - cbn [SFsub]. change (value (S754_zero sy)) with 0. rewrite Rminus_0_r. split; [apply rounded_exact|exact Px].
  - cbn [SFsub] in *. rewrite !value_sign. cbn [proper] in Px, Py.
    rewrite <- (aligned sx mx ex (Z.min ex ey)), <- (aligned sy my ey (Z.min ex ey)) by lia.
    rewrite <- Rmult_minus_distr_r, <- minus_IZR. apply normalize_rounded; [lia|exact F].
Qed.

(** *** Formulas *)
Lemma binary64_pw : pw (-53) = binary64.
Proof. unfold binary64. change (pw (-53)) with (/ 2 ^ Pos.to_nat 53). do 2 f_equal. Qed.
Lemma runs_computed e x : runs e x -> proper x /\ computed binary64 e (value x).
Proof.
  intros H. induction H as [x f P V|a b f g Ha [Pa Ca] Hb [Pb Cb] F|a b f g Ha [Pa Ca] Hb [Pb Cb] F
    |a b f g Ha [Pa Ca] Hb [Pb Cb] F N|a b f g Ha [Pa Ca] Hb [Pb Cb] Nz F N|a n f g d d' Ha [Pa Ca] P B B' V].
  - subst x. split; [exact P|constructor].
  - destruct (add_rounded f g Pa Pb F) as [(d & D & E) P]. split; [exact P|]. fold f_add in E. rewrite E. rewrite binary64_pw in D. now constructor.
  - destruct (sub_rounded f g Pa Pb F) as [(d & D & E) P]. split; [exact P|]. fold f_sub in E. rewrite E. rewrite binary64_pw in D. now constructor.
  - destruct (mul_rounded f g F (proper_finite f Pa) (proper_finite g Pb) N) as [(d & D & E) P]. split; [exact P|]. fold f_mul in E. rewrite E. rewrite binary64_pw in D. now constructor.
  - destruct (div_rounded f g F (proper_finite f Pa) (proper_finite g Pb) Nz N) as [(d & D & E) P]. split; [exact P|]. fold f_div in E. rewrite E. rewrite binary64_pw in D. now constructor.
  - split; [exact P|]. rewrite V. now constructor.
Qed.

(** *** Whole numbers *)
Lemma floor_value x : finite x -> f_floor x = Some (Rfloor (value x)).
Proof.
  destruct x as [s| | |s m e]; cbn [finite]; intros F; try contradiction.
  - cbn. now rewrite Rfloor_IZR.
  - cbn [f_floor]. f_equal. symmetry. apply Rfloor_unique. rewrite value_sign. set (v := if s then Z.neg m else Z.pos m).
    assert (V : sign s * IZR (Z.pos m) = IZR v) by (unfold v; destruct s; cbn [sign]; [change (Z.neg m) with (- Z.pos m)%Z; rewrite opp_IZR|]; ring).
    rewrite V. destruct (0 <=? e)%Z eqn:E.
    + apply Z.leb_le in E. rewrite (pw_IZR e E), <- mult_IZR. lra.
    + apply Z.leb_gt in E. assert (P2 : (0 < 2 ^ (- e))%Z) by (apply Z.pow_pos_nonneg; lia).
      pose proof (Z.div_mod v (2 ^ (- e)) ltac:(lia)) as D. pose proof (Z.mod_pos_bound v (2 ^ (- e)) P2) as B.
      set (q := (v / 2 ^ (- e))%Z) in *. pose proof (pw_pos e) as Pe.
      assert (Ip : IZR (2 ^ (- e)) * pw e = 1) by (rewrite <- pw_IZR, pw_cancel by lia; reflexivity).
      assert (A : IZR q * IZR (2 ^ (- e)) <= IZR v < (IZR q + 1) * IZR (2 ^ (- e))).
      { rewrite <- plus_IZR, <- !mult_IZR. split; [apply IZR_le|apply IZR_lt]; lia. }
      replace (IZR q) with (IZR q * (IZR (2 ^ (- e)) * pw e)) by (rewrite Ip; ring).
      replace (IZR q * (IZR (2 ^ (- e)) * pw e) + 1) with ((IZR q + 1) * IZR (2 ^ (- e)) * pw e)
        by (replace (IZR q * (IZR (2 ^ (- e)) * pw e) + 1) with ((IZR q + 1) * (IZR (2 ^ (- e)) * pw e)) by (rewrite Ip; ring); ring).
      rewrite <- Rmult_assoc. split; [apply Rmult_le_compat_r; lra|apply Rmult_lt_compat_r; lra].
Qed.
Lemma trunc_value x : finite x -> f_trunc x = Some (if Rlt_dec (value x) 0 then Rceil (value x) else Rfloor (value x)).
Proof.
  intros F. destruct x as [s| | |s m e]; try contradiction.
  - cbn. destruct (Rlt_dec 0 0); [lra|]. now rewrite Rfloor_IZR.
  - assert (Pv : 0 < IZR (Z.pos m) * pw e) by (apply Rmult_lt_0_compat; [now apply IZR_lt|apply pw_pos]).
    pose proof (floor_value (S754_finite false m e) I) as Fl. cbn [f_floor] in Fl.
    assert (Fl' : forall a b : Z, Some a = Some b -> a = b) by (now intros a b [=]). apply Fl' in Fl. clear Fl'.
    cbn [f_trunc]. rewrite Fl. f_equal. rewrite !value_sign.
    destruct s; cbn [sign]; destruct Rlt_dec; try lra; [|reflexivity].
    unfold Rceil. do 2 f_equal. ring.
Qed.

(** *** Pi *)
Fixpoint pi_sum (n : nat) : Q :=
  let t k := ((2 # (3 ^ Pos.of_nat (2 * k + 1) * Pos.of_nat (2 * k + 1))) + (1 # (7 ^ Pos.of_nat (2 * k + 1) * Pos.of_nat (2 * k + 1))))%Q in
  match n with
  | O => t O
  | S k => (pi_sum k + (if Nat.even n then t n else - t n))%Q
  end.
Lemma pi_term a b k : IZR a * ((/ IZR (Zpos b)) ^ k / INR k) = Q2R (a # (b ^ Pos.of_nat k * Pos.of_nat k)) \/ k = O.
Proof.
  destruct k as [|k]; [now right|left]. unfold Q2R. cbn [Qnum Qden]. rewrite Pos2Z.inj_mul, mult_IZR, Pos2Z.inj_pow.
  rewrite INR_IZR_INZ. replace (Z.pos (Pos.of_nat (S k))) with (Z.of_nat (S k)) by (rewrite <- Pos.of_nat_succ, Zpos_P_of_succ_nat; lia).
  rewrite <- pow_IZR, pow_inv.
  assert (IZR (Z.of_nat (S k)) <> 0) by (apply not_0_IZR; lia). assert (IZR (Z.pos b) ^ S k <> 0) by (apply pow_nonzero, not_0_IZR; lia).
  field. auto.
Qed.
Lemma pi_sum_value n : Q2R (pi_sum n) = sum_f_R0 (tg_alt PI_2_3_7_tg) n.
Proof.
  assert (T : forall k, Q2R ((2 # (3 ^ Pos.of_nat (2 * k + 1) * Pos.of_nat (2 * k + 1))) + (1 # (7 ^ Pos.of_nat (2 * k + 1) * Pos.of_nat (2 * k + 1))))%Q = PI_2_3_7_tg k).
  { intros k. rewrite Q2R_plus. unfold PI_2_3_7_tg, Ratan_seq.
    destruct (pi_term 2 3 (2 * k + 1)) as [<-|]; [|lia]. destruct (pi_term 1 7 (2 * k + 1)) as [<-|]; [|lia]. ring. }
  induction n as [|n IH].
  - cbn [sum_f_R0]. unfold tg_alt. rewrite <- T. cbn [pow]. rewrite Rmult_1_l. reflexivity.
  - change (pi_sum (S n)) with (pi_sum n + (if Nat.even (S n) then (2 # (3 ^ Pos.of_nat (2 * S n + 1) * Pos.of_nat (2 * S n + 1))) + (1 # (7 ^ Pos.of_nat (2 * S n + 1) * Pos.of_nat (2 * S n + 1)))
      else - ((2 # (3 ^ Pos.of_nat (2 * S n + 1) * Pos.of_nat (2 * S n + 1))) + (1 # (7 ^ Pos.of_nat (2 * S n + 1) * Pos.of_nat (2 * S n + 1))))))%Q.
    rewrite Q2R_plus, IH. cbn [sum_f_R0]. f_equal. unfold tg_alt. rewrite <- T. destruct (Nat.even (S n)) eqn:E.
    + apply Nat.even_spec in E. destruct E as [k ->]. rewrite pow_mult. replace ((-1) ^ 2) with 1 by ring. rewrite pow1. ring.
    + rewrite <- Nat.negb_odd in E. apply Bool.negb_false_iff, Nat.odd_spec in E. destruct E as [k ->]. rewrite Q2R_opp, pow_add, pow_mult.
      replace ((-1) ^ 2) with 1 by ring. rewrite pow1. ring.
Qed.
(** Twenty digits of pi. *)
Lemma pi_bounds : 3141592653589793238462 / 10 ^ 21 <= PI <= 3141592653589793238463 / 10 ^ 21.
Proof.
  pose proof (PI_2_3_7_ineq 11) as [A B]. rewrite <- pi_sum_value in A, B.
  assert (L : Q2R (3141592653589793238462 # 4000000000000000000000) <= Q2R (pi_sum (S (2 * 11)))) by (apply Qle_Rle; vm_compute; discriminate).
  assert (U : Q2R (pi_sum (2 * 11)) <= Q2R (3141592653589793238463 # 4000000000000000000000)) by (apply Qle_Rle; vm_compute; discriminate).
  unfold Q2R in L at 1. unfold Q2R in U at 2. cbn [Qnum Qden] in L, U. split; lra.
Qed.

(** *** No overflow *)
Lemma round_finite s m e l X : (0 <= m)%Z -> (0 < m \/ e <= 0)%Z -> located m l (X * pw (- e)) -> (l = loc_Exact \/ (e <= fexp64 (Zdigits2 m + e))%Z) ->
  X < pw 900 -> finite (binary_round_aux prec emax s m e l).
Proof.
  intros H H' L Le B. unfold binary_round_aux. pose proof (shr_fexp_target m e l _ H L) as S1.
  destruct (shr_fexp prec emax m e l) as [r1 e1]. destruct S1 as (-> & S1 & R1). set (f := target m e) in *.
  destruct (round_near _ _ S1) as (_ & N & _). set (M := round_nearest_even (shr_m r1) (loc_of_shr_record r1)) in *.
  assert (M0 : (0 <= M)%Z) by (destruct S1; lia).
  assert (De : (Zdigits2 m - 1 + e < 900)%Z).
  { destruct (Z.eq_dec m 0) as [Hm|Hm]; [rewrite Hm; change (Zdigits2 0) with 0%Z; lia|].
    apply pw_lt_inv. apply Rle_lt_trans with (2 := B). rewrite pw_add. replace X with (X * pw (- e) * pw e) by (rewrite Rmult_assoc, pw_cancel; ring).
    apply Rmult_le_compat_r; [apply Rlt_le, pw_pos|]. pose proof (located_floor _ _ _ L) as [A _]. apply Rle_trans with (2 := A).
    assert (1 <= Zdigits2 m)%Z by (destruct m; cbn; lia). rewrite pw_IZR by lia. apply IZR_le. apply digits_lower. lia. }
  assert (1 <= Zdigits2 m \/ (Zdigits2 m = 0 /\ e <= 0))%Z by (destruct m; cbn; lia).
  assert (Ff : (f < 900)%Z) by (unfold f, target; rewrite fexp_val; lia).
  assert (Mf : (Zdigits2 M + f < 902)%Z).
  { replace (X * pw (- e) * pw (e - f)) with (X * pw (- f)) in S1 by (rewrite Rmult_assoc, <- pw_add; do 2 f_equal; lia).
    destruct (Z.le_gt_cases M 1) as [C|C]; [assert (Zdigits2 M <= 1)%Z by (apply digits_le; lia); lia|].
    enough (Zdigits2 M - 1 < 900 - f + 1)%Z by lia. apply pw_lt_inv. rewrite pw_add.
    assert (D1 : (1 <= Zdigits2 M)%Z) by (clearbody M; destruct M; cbn; lia).
    pose proof (digits_lower M ltac:(lia)) as D. pose proof (located_floor _ _ _ (proj2 S1)) as [A _].
    apply Rle_lt_trans with (IZR M); [rewrite pw_IZR by lia; now apply IZR_le|].
    assert (IZR M <= IZR (shr_m r1) + 1) by (rewrite <- plus_IZR; apply IZR_le; lia).
    assert (1 <= IZR (shr_m r1)) by (apply IZR_le; lia).
    assert (X * pw (- f) < pw (900 - f)).
    { replace (900 - f)%Z with (900 + - f)%Z by lia. rewrite pw_add. apply Rmult_lt_compat_r; [apply pw_pos|exact B]. }
    change (pw 1) with (2 * 1). lra. }
  assert (S2 := shr_fexp_target M f loc_Exact (IZR M) M0 eq_refl).
  destruct (shr_fexp prec emax M f loc_Exact) as [r2 e2]. destruct S2 as (-> & S2 & R2).
  assert (T : (target M f <= 971)%Z) by (unfold target; rewrite fexp_val; lia).
  destruct S2 as [S2 _]. destruct (shr_m r2) as [|q|q]; [exact I| |lia].
  assert (E : (target M f <=? emax - prec)%Z = true) by (apply Z.leb_le; exact T). rewrite E. exact I.
Qed.
Lemma mul_finite x y : finite x -> finite y -> Rabs (value x * value y) < pw 900 -> finite (SFmul prec emax x y).
Proof.
  intros Fx Fy B. destruct x as [sx| | |sx mx ex]; try contradiction; destruct y as [sy| | |sy my ey]; try contradiction; try exact I.
  rewrite !value_sign in B. set (X := IZR (Zpos mx) * pw ex * (IZR (Zpos my) * pw ey)).
  replace (sign sx * IZR (Z.pos mx) * pw ex * (sign sy * IZR (Z.pos my) * pw ey)) with (sign (xorb sx sy) * X) in B by (rewrite sign_xorb; unfold X; ring).
  pose proof (pos_product mx my ex ey) as PX. fold X in PX. rewrite abs_sign in B by lra. cbn [SFmul].
  apply (round_finite _ _ _ _ X); auto; [lia|lia|].
  cbn [located]. unfold X. rewrite Pos2Z.inj_mul, mult_IZR.
  replace (IZR (Z.pos mx) * pw ex * (IZR (Z.pos my) * pw ey) * pw (- (ex + ey))) with (IZR (Z.pos mx) * IZR (Z.pos my) * (pw (- (ex + ey)) * (pw ex * pw ey))) by ring.
  rewrite <- (pw_add ex ey), pw_cancel. ring.
Qed.

(** *** Degrees and radians *)
Lemma pi_constant : Rabs (value f_pi - PI) <= pw (-52).
Proof.
  pose proof pi_bounds. unfold f_pi. rewrite value_sign. cbn [sign].
  assert (P : forall n, pw (- Z.pos n) = / IZR (2 ^ Z.pos n)) by (intros; rewrite <- pw_IZR by lia; cbn [powerRZ Z.opp]; reflexivity).
  change (-51)%Z with (- Z.pos 51)%Z. change (-52)%Z with (- Z.pos 52)%Z. rewrite !P.
  change (2 ^ 51)%Z with 2251799813685248%Z. change (2 ^ 52)%Z with 4503599627370496%Z. apply Rabs_le. lra.
Qed.
Lemma constant_error c k : 0 < k -> Rabs (c - k) <= binary64 * k -> exists d, Rabs d <= binary64 /\ c = k * (1 + d).
Proof.
  intros K H. exists ((c - k) / k). split; [|field; lra]. unfold Rdiv. rewrite Rabs_mult, (Rabs_pos_eq (/ k)) by (apply Rlt_le, Rinv_0_lt_compat, K).
  apply Rmult_le_reg_r with k; [exact K|]. rewrite Rmult_assoc, Rinv_l by lra. lra.
Qed.
Lemma deg_per_rad : exists d, Rabs d <= binary64 /\ value f_deg_per_rad = 180 / PI * (1 + d).
Proof.
  pose proof pi_bounds as B. assert (Pp : 0 < PI) by apply PI_RGT_0.
  assert (E : f_deg_per_rad = S754_finite false 8063664102031864 (-47)) by (vm_compute; reflexivity).
  assert (P : pw (-47) = / IZR (2 ^ 47)) by (rewrite <- pw_IZR by lia; reflexivity).
  apply constant_error; [apply Rdiv_lt_0_compat; lra|].
  rewrite E, value_sign, P. cbn [sign]. change (2 ^ 47)%Z with 140737488355328%Z. rewrite <- binary64_pw.
  assert (Q : pw (-53) = / IZR (2 ^ 53)) by (rewrite <- pw_IZR by lia; reflexivity). rewrite Q. change (2 ^ 53)%Z with 9007199254740992%Z.
  set (c := 1 * 8063664102031864 * / 140737488355328).
  replace (c - 180 / PI) with ((c * PI - 180) / PI) by (field; lra). unfold Rdiv at 1. rewrite Rabs_mult, (Rabs_pos_eq (/ PI)) by (apply Rlt_le, Rinv_0_lt_compat, Pp).
  replace (/ 9007199254740992 * (180 / PI)) with (180 / 9007199254740992 * / PI) by (field; lra).
  apply Rmult_le_compat_r; [apply Rlt_le, Rinv_0_lt_compat, Pp|]. apply Rabs_le. unfold c. lra.
Qed.
Lemma rad_per_deg : exists d, Rabs d <= binary64 /\ value f_rad_per_deg = PI / 180 * (1 + d).
Proof.
  pose proof pi_bounds as B. assert (Pp : 0 < PI) by apply PI_RGT_0.
  destruct f_rad_per_deg as [| | |s m e] eqn:E; try (vm_compute in E; discriminate). vm_compute in E. injection E as <- <- <-.
  apply constant_error; [lra|].
  rewrite value_sign. cbn [sign].
  assert (P : forall n, pw (- Z.pos n) = / IZR (2 ^ Z.pos n)) by (intros; rewrite <- pw_IZR by lia; cbn [powerRZ Z.opp]; reflexivity).
  change (-58)%Z with (- Z.pos 58)%Z. rewrite <- binary64_pw. change (-53)%Z with (- Z.pos 53)%Z. rewrite !P.
  change (2 ^ 58)%Z with 288230376151711744%Z. change (2 ^ 53)%Z with 9007199254740992%Z. apply Rabs_le. lra.
Qed.
Lemma abs_interval x a : Rabs x <= a -> - a <= x <= a.
Proof. unfold Rabs. destruct Rcase_abs; lra. Qed.
