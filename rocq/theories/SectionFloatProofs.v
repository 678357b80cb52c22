(** Lemmas for the RSM sections in binary64. *)
Require Import ZArith Reals List Lra Lia SpecFloat.
Require Import Verif.Base Verif.BaseFacts Verif.Vec Verif.RsmModel Verif.PolySpec Verif.RoundModel Verif.RoundSpec Verif.CoordFloatModel Verif.FloatModel Verif.FloatSpec Verif.FloatProofs Verif.FloatNearest
  Verif.TileFloatProofs Verif.DmsFloatProofs Verif.RpcFloatModel Verif.RpcFloatProofs Verif.RsmFloatModel Verif.SectionFloatModel.
Import ListNotations.
Local Open Scope R_scope.
Local Notation pw := (powerRZ 2).

Lemma whole_below_power k : (1 <= k)%Z -> exists j, (0 <= j)%Z /\ pw (j - 1) < IZR k <= pw j.
Proof.
  intros K. destruct (Z.eq_dec k 1) as [->|N].
  - exists 0%Z. split; [lia|]. change (pw (0 - 1)) with (/ (2 * 1)). cbn [powerRZ]. lra.
  - destruct (Z.log2_up_spec k) as [L U]; [lia|]. pose proof (Z.log2_up_pos k ltac:(lia)). exists (Z.log2_up k). split; [lia|].
    rewrite !pw_IZR by lia. split; [apply IZR_lt|apply IZR_le; exact U]. replace (Z.log2_up k - 1)%Z with (Z.pred (Z.log2_up k)) by lia. exact L.
Qed.

(** No binary64 number is very close below a whole number. *)
Lemma gap_below d N e B i : d = IZR N * pw e -> (Z.abs N < 2 ^ 53)%Z -> d < IZR B -> (0 <= i <= 53)%Z -> pw (i - 1) < IZR B ->
  pw (i - 53) <= IZR B - d.
Proof.
  intros D HN L I P. pose proof (pw_pos e) as Pe. pose proof (pw_pos (i - 53)) as Pi.
  destruct (Z.le_gt_cases (i - 53) e) as [C|C].
  - assert (E1 : IZR B = IZR (B * 2 ^ (53 - i)) * pw (i - 53)).
    { rewrite mult_IZR, <- pw_IZR by lia. rewrite Rmult_assoc, <- pw_add. replace (53 - i + (i - 53))%Z with 0%Z by lia. cbn [powerRZ]. ring. }
    assert (E2 : d = IZR (N * 2 ^ (e - (i - 53))) * pw (i - 53)).
    { rewrite mult_IZR, <- pw_IZR by lia. rewrite Rmult_assoc, <- pw_add. replace (e - (i - 53) + (i - 53))%Z with e by lia. exact D. }
    rewrite E1, E2 in L. apply Rmult_lt_reg_r in L; [|exact Pi]. apply lt_IZR in L. rewrite E1, E2, <- Rmult_minus_distr_r, <- minus_IZR.
    assert (1 <= IZR (B * 2 ^ (53 - i) - N * 2 ^ (e - (i - 53)))) by (apply IZR_le; lia). nra.
  - assert (D1 : d < pw (53 + e)).
    { rewrite D, pw_add, (pw_IZR 53) by lia. apply Rmult_lt_compat_r; [exact Pe|]. apply IZR_lt. lia. }
    assert (D2 : pw (53 + e) <= pw (i - 1)) by (apply pw_le; lia).
    destruct (Z.eq_dec i 0) as [->|Ni].
    + assert (1 <= IZR B). { apply IZR_le. assert (0 < IZR B) by (pose proof (pw_pos (0 - 1)); lra). apply lt_IZR in H. lia. }
      assert (pw (0 - 53) <= pw (0 - 1)) by (apply pw_le; lia). change (pw (0 - 1)) with (/ (2 * 1)) in *. lra.
    + assert (pw (i - 53) <= pw 0) by (apply pw_le; lia). cbn [powerRZ] in H.
      rewrite (pw_IZR (i - 1)) in * by lia. apply lt_IZR in P. assert (IZR (2 ^ (i - 1)) + 1 <= IZR B) by (rewrite <- plus_IZR; apply IZR_le; lia). lra.
Qed.

(** A quotient by a whole number never rounds up to the next whole number. *)
Lemma whole_quotient D s f : is_binary64 D -> 0 <= value D -> value D <= IZR (2 ^ 41) -> (1 <= s <= 2 ^ 40)%Z ->
  nearest (value D / IZR s) f -> Rfloor (value f) = Rfloor (value D / IZR s).
Proof.
  intros BD D0 D1 S Nf. set (d := value D) in *. set (k := Rfloor (d / IZR s)).
  assert (S1 : 1 <= IZR s) by (apply IZR_le; lia). assert (S2 : IZR s <= IZR (2 ^ 40)) by (apply IZR_le; lia).
  destruct (Rfloor_spec (d / IZR s)) as [L U]. fold k in L, U.
  assert (Q0 : 0 <= d / IZR s) by (apply Rmult_le_pos; [exact D0|apply Rlt_le, Rinv_0_lt_compat; lra]).
  assert (Eq : d = d / IZR s * IZR s) by (field; lra).
  assert (Q1 : d / IZR s <= IZR (2 ^ 41)) by nra.
  assert (K0 : (0 <= k)%Z) by (apply Z.lt_succ_r, lt_IZR; unfold Z.succ; rewrite plus_IZR; lra).
  assert (K1 : (k <= 2 ^ 41)%Z) by (apply le_IZR; lra).
  apply Rfloor_unique. split.
  - destruct (representable k 0) as (g & Bg & Vg); [lia|lia|]. cbn [powerRZ] in Vg. rewrite Rmult_1_r in Vg. rewrite <- Vg.
    apply (nearest_ge _ _ g Nf Bg). rewrite Vg. exact L.
  - replace (IZR k + 1) with (IZR (k + 1)) in * by (now rewrite plus_IZR). set (K := (k + 1)%Z) in *.
    destruct (Rlt_le_dec (value f) (IZR K)) as [|C]; [assumption|exfalso].
    destruct (whole_below_power K) as (j & J0 & J1 & J2); [lia|].
    assert (Hj : (j <= 42)%Z).
    { assert (X : pw (j - 1) < pw 42). { apply Rlt_trans with (1 := J1). rewrite pw_IZR by lia. apply IZR_lt. change (2 ^ 42)%Z with (2 ^ 41 + 2 ^ 41)%Z. lia. }
      apply pw_lt_inv in X. lia. }
    destruct (whole_below_power (K * s)) as (i & I0 & I1 & I2); [nia|].
    assert (Hi : (i <= 53)%Z).
    { assert (X : pw (i - 1) < pw 52).
      { apply Rlt_trans with (1 := I1). apply Rle_lt_trans with (IZR (2 ^ 41 + 2 ^ 40)); [|rewrite pw_IZR by lia; apply IZR_lt; reflexivity].
        rewrite mult_IZR, plus_IZR. unfold K. rewrite plus_IZR. nra. }
      apply pw_lt_inv in X. lia. }
    destruct (binary64_form D BD) as (N & e & VD & HN & He). fold d in VD.
    assert (LB : d < IZR (K * s)) by (rewrite mult_IZR; nra).
    pose proof (gap_below d N e (K * s) i VD HN LB (conj I0 Hi) I1) as G.
    assert (H : IZR s * pw (j - 54) < IZR (K * s) - d).
    { apply Rlt_le_trans with (2 := G). replace (i - 53)%Z with (i + -53)%Z by lia. replace (j - 54)%Z with ((j - 1) + -53)%Z by lia. rewrite !pw_add.
      rewrite <- Rmult_assoc. apply Rmult_lt_compat_r; [apply pw_pos|]. apply Rlt_le_trans with (2 := I2). rewrite mult_IZR. nra. }
    set (h := pw (j - 54)) in *. assert (X : d / IZR s < IZR K - h).
    { apply Rmult_lt_reg_r with (IZR s); [lra|]. rewrite <- Eq. rewrite mult_IZR in H. lra. }
    destruct (representable (K * 2 ^ (53 - j) - 1) (j - 53)) as (g & Bg & Vg); [|lia|].
    { assert (Y : (K * 2 ^ (53 - j) <= 2 ^ 53)%Z).
      { replace (2 ^ 53)%Z with (2 ^ j * 2 ^ (53 - j))%Z by (rewrite <- Z.pow_add_r by lia; f_equal; lia).
        apply Z.mul_le_mono_nonneg_r; [apply Z.pow_nonneg; lia|]. apply le_IZR. rewrite <- pw_IZR by lia. exact J2. }
      pose proof (Z.pow_pos_nonneg 2 (53 - j) ltac:(lia) ltac:(lia)). nia. }
    assert (Vg' : value g = IZR K - 2 * h).
    { assert (E2 : pw (j - 53) = 2 * h).
      { replace (j - 53)%Z with (1 + (j - 54))%Z by lia. rewrite pw_add. fold h. rewrite (pw_IZR 1) by lia. reflexivity. }
      rewrite Vg, minus_IZR, mult_IZR, <- pw_IZR by lia. rewrite Rmult_minus_distr_r, Rmult_assoc, <- pw_add.
      replace (53 - j + (j - 53))%Z with 0%Z by lia. rewrite E2. cbn [powerRZ]. ring. }
    assert (Hh : 0 < h) by apply pw_pos.
    destruct (Rle_lt_dec (d / IZR s) (value g)) as [A|A].
    + pose proof (nearest_le _ _ g Nf Bg A). lra.
    + destruct Nf as [_ Nf]. destruct (Nf g Bg) as [M _]. rewrite Rabs_pos_eq in M by lra. rewrite Rabs_left in M by lra. lra.
Qed.

(** Subtracting a whole number from a larger number is exact. *)
Lemma sub_whole y a : is_binary64 y -> (0 <= a)%Z -> IZR a <= value y -> value y <= IZR (2 ^ 40) ->
  exists g, is_binary64 g /\ value g = value y - IZR a.
Proof.
  intros By A L U. destruct (binary64_form y By) as (N & e & V & HN & He). destruct (Z.le_gt_cases 0 e) as [E|E].
  - rewrite (pw_IZR e E), <- mult_IZR in V. rewrite V in *. apply le_IZR in L. apply le_IZR in U.
    destruct (representable (N * 2 ^ e - a) 0) as (g & Bg & Vg); [lia|lia|]. exists g. split; [exact Bg|]. rewrite Vg, minus_IZR. cbn [powerRZ]. ring.
  - assert (Ea : IZR a = IZR (a * 2 ^ (- e)) * pw e).
    { rewrite mult_IZR, <- pw_IZR by lia. rewrite Rmult_assoc, <- pw_add. replace (- e + e)%Z with 0%Z by lia. cbn [powerRZ]. ring. }
    assert (L' : (a * 2 ^ (- e) <= N)%Z). { rewrite V, Ea in L. apply Rmult_le_reg_r in L; [|apply pw_pos]. now apply le_IZR. }
    assert (0 <= a * 2 ^ (- e))%Z by (apply Z.mul_nonneg_nonneg; [lia|apply Z.pow_nonneg; lia]).
    destruct (representable (N - a * 2 ^ (- e)) e) as (g & Bg & Vg); [lia|lia|]. exists g. split; [exact Bg|]. rewrite Vg, V, Ea, minus_IZR. ring.
Qed.

Lemma py_floor_finite x : finite x -> py_floor x = Ok (Rfloor (value x)).
Proof. intros F. pose proof (floor_value x F) as E. unfold py_floor. destruct x; try contradiction; now rewrite E. Qed.

Lemma clamped_section lo size n v : 0 < size -> (1 <= n)%Z -> section_of lo size n v (clamp_index (Rfloor ((v - lo) / size)) n).
Proof.
  intros S N. destruct (Rfloor_spec ((v - lo) / size)) as [L U]. set (k := Rfloor _) in *.
  assert (E : v - lo = (v - lo) / size * size) by (field; lra). unfold section_of, clamp_index.
  destruct (Z.ltb_spec k 0) as [A|A].
  - split; [lia|]. split; [now left|right]. assert (IZR k + 1 <= 0) by (replace 0 with (IZR 0) by reflexivity; rewrite <- plus_IZR; apply IZR_le; lia). rewrite plus_IZR. nra.
  - destruct (Z.geb_spec k n) as [B|B].
    + split; [lia|]. split; [right|now left]. assert (IZR (n - 1) <= IZR k) by (apply IZR_le; lia). nra.
    + split; [lia|]. split; right; rewrite ?plus_IZR; nra.
Qed.

Lemma clamp_mono a b n : (1 <= n)%Z -> (a <= b)%Z -> (clamp_index a n <= clamp_index b n)%Z.
Proof. intros N L. unfold clamp_index. destruct (Z.ltb_spec a 0), (Z.ltb_spec b 0), (Z.geb_spec a n), (Z.geb_spec b n); lia. Qed.

(** *** The low order polynomials *)
Definition low_order_formula (c : list spec_float) (v : FVec) : fexpr :=
  let a i := FNum (nth i c f_zero) in let x := FNum (fvx v) in let y := FNum (fvy v) in let z := FNum (fvz v) in
  fold_left FAdd [a 0%nat; FMul (a 1%nat) x; FMul (a 2%nat) y; FMul (a 3%nat) z; FMul (FMul (a 4%nat) x) x; FMul (FMul (a 5%nat) x) y;
    FMul (FMul (a 6%nat) x) z; FMul (FMul (a 7%nat) y) y; FMul (FMul (a 8%nat) y) z; FMul (FMul (a 9%nat) z) z] (FNum f_zero).

Lemma low_order_feval c v : f_low_order_evaluate c v = feval (low_order_formula c v).
Proof. unfold f_low_order_evaluate, low_order_formula. cbv zeta beta. cbn [fold_left feval]. reflexivity. Qed.

Lemma nth_value i c : nth i (map value c) 0 = value (nth i c f_zero).
Proof. change 0 with (value f_zero). apply map_nth. Qed.
Lemma nth_abs i c : nth i (map (fun f => Rabs (value f)) c) 0 = Rabs (value (nth i c f_zero)).
Proof. replace 0 with (Rabs (value f_zero)) by (cbn [value f_zero]; apply Rabs_R0). exact (map_nth (fun f => Rabs (value f)) c f_zero i). Qed.

Lemma low_order_exact c v : exact (shape (low_order_formula c v)) = low_order_evaluate (map value c) (mkVec (value (fvx v)) (value (fvy v)) (value (fvz v))).
Proof.
  unfold low_order_evaluate, low_order_formula. rewrite !nth_value. cbv zeta beta. cbn [fold_left shape exact vx vy vz]. change (value f_zero) with 0. reflexivity.
Qed.
Lemma low_order_magnitude c v :
  magnitude (shape (low_order_formula c v)) = low_order_evaluate (map (fun f => Rabs (value f)) c) (mkVec (Rabs (value (fvx v))) (Rabs (value (fvy v))) (Rabs (value (fvz v)))).
Proof.
  unfold low_order_evaluate. rewrite !nth_abs. unfold low_order_formula. cbv zeta beta. cbn [fold_left shape magnitude vx vy vz]. change (value f_zero) with 0. rewrite !Rplus_0_l. reflexivity.
Qed.

Lemma sum_is_moderate ts : forall e x y, 0 <= y -> moderate e -> magnitude (shape e) <= x -> x + INR (length ts) * y <= pw 100 ->
  Forall (fun f => moderate f /\ magnitude (shape f) <= y) ts -> moderate (fold_left FAdd ts e).
Proof.
  induction ts as [|t ts IH]; intros e x y Y M X B F; [exact M|]. inversion F as [|? ? [Mt Ht] F']. subst. cbn [fold_left length] in *. rewrite S_INR in B.
  assert (P : 0 <= INR (length ts) * y) by (apply Rmult_le_pos; [apply pos_INR|exact Y]).
  pose proof (add_magnitude (shape e) (shape t)) as A.
  apply (IH _ (x + y) y Y); [|cbn [shape]; lra|lra|exact F']. cbn [moderate shape]. split; [lra|now split].
Qed.

Lemma low_order_moderate c v : Forall (fun f => is_binary64 f /\ Rabs (value f) <= IZR (2 ^ 40)) c ->
  (forall f, In f [fvx v; fvy v; fvz v] -> is_binary64 f /\ Rabs (value f) <= IZR (2 ^ 24)) -> moderate (low_order_formula c v).
Proof.
  intros C V.
  assert (N : forall i, is_binary64 (nth i c f_zero) /\ Rabs (value (nth i c f_zero)) <= pw 40).
  { intros i. rewrite pw_IZR by lia. destruct (nth_in_or_default i c f_zero) as [I|E].
    - rewrite Forall_forall in C. exact (C _ I).
    - rewrite E. split; [split; [exact I|reflexivity]|]. cbn [f_zero value]. rewrite Rabs_R0. apply IZR_le. lia. }
  assert (G : forall f, In f [fvx v; fvy v; fvz v] -> is_binary64 f /\ Rabs (value f) <= pw 24) by (intros f I; rewrite pw_IZR by lia; now apply V).
  assert (P : pw 40 <= pw 88 /\ pw 64 <= pw 88 /\ pw 88 <= pw 100) by (repeat split; apply pw_le; lia).
  assert (A1 : forall i, moderate (FNum (nth i c f_zero)) /\ magnitude (shape (FNum (nth i c f_zero))) <= pw 40).
  { intros i. destruct (N i) as [B H]. cbn [moderate shape magnitude]. repeat split; try apply B; lra. }
  assert (A2 : forall i f, In f [fvx v; fvy v; fvz v] -> moderate (FMul (FNum (nth i c f_zero)) (FNum f)) /\ magnitude (shape (FMul (FNum (nth i c f_zero)) (FNum f))) <= pw 64).
  { intros i f I. destruct (N i) as [B H], (G f I) as [B' H']. assert (M : Rabs (value (nth i c f_zero)) * Rabs (value f) <= pw 64).
    { change 64%Z with (40 + 24)%Z. rewrite pw_add. apply Rmult_le_compat; auto using Rabs_pos. }
    pose proof (pw_le 24 100 ltac:(lia)). pose proof (pw_le 40 100 ltac:(lia)). cbn [moderate shape magnitude]. repeat split; try apply B; try apply B'; lra. }
  assert (A3 : forall i f g, In f [fvx v; fvy v; fvz v] -> In g [fvx v; fvy v; fvz v] ->
    moderate (FMul (FMul (FNum (nth i c f_zero)) (FNum f)) (FNum g)) /\ magnitude (shape (FMul (FMul (FNum (nth i c f_zero)) (FNum f)) (FNum g))) <= pw 88).
  { intros i f g I J. destruct (A2 i f I) as [M H], (G g J) as [B' H'].
    assert (Q : magnitude (shape (FMul (FNum (nth i c f_zero)) (FNum f))) * Rabs (value g) <= pw 88).
    { change 88%Z with (64 + 24)%Z. rewrite pw_add. apply Rmult_le_compat; auto using Rabs_pos. cbn [shape magnitude]. apply Rmult_le_pos; apply Rabs_pos. }
    pose proof (pw_le 24 100 ltac:(lia)). split; [|exact Q]. split; [cbn [shape] in *; cbn [magnitude] in *; lra|]. split; [exact M|]. cbn [moderate shape magnitude]. split; [lra|exact B']. }
  assert (X : forall f, f = fvx v \/ f = fvy v \/ f = fvz v -> In f [fvx v; fvy v; fvz v]) by (intros f [->|[->| ->]]; cbn [In]; auto).
  unfold low_order_formula. apply (sum_is_moderate _ _ 0 (pw 88)).
  - apply Rlt_le, pw_pos.
  - cbn [moderate shape magnitude f_zero value]. rewrite Rabs_R0. split; [apply Rlt_le, pw_pos|split; [exact I|reflexivity]].
  - cbn [shape magnitude f_zero value]. rewrite Rabs_R0. lra.
  - cbn [length]. rewrite Rplus_0_l. apply Rle_trans with (pw 4 * pw 88); [|rewrite <- pw_add; apply pw_le; lia].
    apply Rmult_le_compat_r; [apply Rlt_le, pw_pos|]. rewrite INR_IZR_INZ, pw_IZR by lia. apply IZR_le. vm_compute. discriminate.
  - repeat apply Forall_cons; [| | | | | | | | | |apply Forall_nil].
    + destruct (A1 0%nat). split; [assumption|lra].
    + destruct (A2 1%nat (fvx v)); [apply X; auto|]. split; [assumption|lra].
    + destruct (A2 2%nat (fvy v)); [apply X; auto|]. split; [assumption|lra].
    + destruct (A2 3%nat (fvz v)); [apply X; auto|]. split; [assumption|lra].
    + apply A3; apply X; auto.
    + apply A3; apply X; auto.
    + apply A3; apply X; auto.
    + apply A3; apply X; auto.
    + apply A3; apply X; auto.
    + apply A3; apply X; auto.
Qed.

Lemma growth_10 : growth binary64 10 <= pw (-49).
Proof.
  unfold growth, binary64. rewrite pw_neg. change (2 ^ 53) with (2 ^ 53)%R.
  replace (2 ^ 53)%R with 9007199254740992 by (cbn [pow]; ring). change (2 ^ 49)%Z with 562949953421312%Z.
  set (u := / 9007199254740992). assert (U : 0 < u <= / 1000000) by (unfold u; lra). assert (E : / 562949953421312 = 16 * u) by (unfold u; field). rewrite E. clearbody u. cbn [pow].
  assert (S2 : (1 + u) * (1 + u) <= 1 + 2.01 * u) by nra. assert (S4 : ((1 + u) * (1 + u)) * ((1 + u) * (1 + u)) <= 1 + 4.1 * u) by nra.
  assert (S8 : (((1 + u) * (1 + u)) * ((1 + u) * (1 + u))) * (((1 + u) * (1 + u)) * ((1 + u) * (1 + u))) <= 1 + 8.3 * u) by nra.
  assert (S10 : ((((1 + u) * (1 + u)) * ((1 + u) * (1 + u))) * (((1 + u) * (1 + u)) * ((1 + u) * (1 + u)))) * ((1 + u) * (1 + u)) <= 1 + 11 * u) by nra.
  nra.
Qed.

Lemma low_order_error c v : Forall (fun f => is_binary64 f /\ Rabs (value f) <= IZR (2 ^ 40)) c ->
  (forall f, In f [fvx v; fvy v; fvz v] -> is_binary64 f /\ Rabs (value f) <= IZR (2 ^ 24)) ->
  is_binary64 (f_low_order_evaluate c v) /\
  Rabs (value (f_low_order_evaluate c v) - low_order_evaluate (map value c) (mkVec (value (fvx v)) (value (fvy v)) (value (fvz v))))
  <= pw (-49) * low_order_evaluate (map (fun f => Rabs (value f)) c) (mkVec (Rabs (value (fvx v))) (Rabs (value (fvy v))) (Rabs (value (fvz v)))) + pw (-800).
Proof.
  intros C V. pose proof (low_order_moderate c v C V) as M. rewrite low_order_feval.
  destruct (feval_error (low_order_formula c v) M) as [B E]; [vm_compute; discriminate|vm_compute; repeat constructor|]. split; [exact B|].
  rewrite low_order_exact, low_order_magnitude in E. apply Rle_trans with (1 := E).
  assert (P : 0 <= low_order_evaluate (map (fun f => Rabs (value f)) c) (mkVec (Rabs (value (fvx v))) (Rabs (value (fvy v))) (Rabs (value (fvz v))))).
  { unfold low_order_evaluate. rewrite !nth_abs. cbn [vx vy vz]. repeat apply Rplus_le_le_0_compat; repeat apply Rmult_le_pos; try apply Rabs_pos. lra. }
  apply Rplus_le_compat; [apply Rmult_le_compat_r; [exact P|]|apply pw_le; vm_compute; discriminate].
  change (roundings (shape (low_order_formula c v))) with 10%nat. exact growth_10.
Qed.
