(** Adjustments seen from the pixels: C95. *)
Require Import ZArith Reals String List Lra Lia Bool Arith.
Require Import Verif.Base Verif.BaseFacts Verif.PolySpec Verif.DisplayModel Verif.DisplaySpec Verif.DisplayProofs Verif.DisplayProps Verif.HistSpec.
Import ListNotations.
Local Open Scope R_scope.

(** *** Buckets *)
Lemma bucket_lt n lo hi v : (0 < n)%nat -> (bucket n lo hi v < n)%nat.
Proof. intros H. unfold bucket. lia. Qed.
Lemma bucket_below n lo hi v m : (0 < n)%nat -> lo < hi -> lo <= v -> v < edge lo hi n (INR m) -> (bucket n lo hi v < m)%nat.
Proof.
  intros N O L B. unfold edge in B. unfold bucket.
  assert (P : 0 < INR n) by (apply lt_0_INR; lia).
  assert (X : (v - lo) * INR n / (hi - lo) < INR m).
  { apply Rmult_lt_reg_r with (hi - lo); [lra|]. unfold Rdiv. rewrite Rmult_assoc, Rinv_l, Rmult_1_r by lra.
    apply Rmult_lt_reg_r with (/ INR n); [apply Rinv_0_lt_compat; lra|]. rewrite Rmult_assoc, Rinv_r, Rmult_1_r by lra. unfold Rdiv in B. lra. }
  rewrite (INR_IZR_INZ m) in X. assert (F : (Rfloor ((v - lo) * INR n / (hi - lo)) < Z.of_nat m)%Z).
  { apply lt_IZR. destruct (Rfloor_spec ((v - lo) * INR n / (hi - lo))). lra. }
  assert (0 < Z.of_nat m)%Z.
  { apply lt_IZR. apply Rle_lt_trans with ((v - lo) * INR n / (hi - lo)); [|exact X]. apply Rle_mult_inv_pos; [apply Rmult_le_pos; lra|lra]. }
  lia.
Qed.
Lemma bucket_above n lo hi v m : (m < n)%nat -> lo < hi -> edge lo hi n (INR m) <= v -> (m <= bucket n lo hi v)%nat.
Proof.
  intros N O B. unfold edge in B. unfold bucket.
  assert (P : 0 < INR n) by (apply lt_0_INR; lia).
  assert (X : INR m <= (v - lo) * INR n / (hi - lo)).
  { apply Rmult_le_reg_r with (hi - lo); [lra|]. unfold Rdiv. rewrite (Rmult_assoc _ (/ (hi - lo))), Rinv_l, Rmult_1_r by lra.
    apply Rmult_le_reg_r with (/ INR n); [apply Rinv_0_lt_compat; lra|]. rewrite (Rmult_assoc _ (INR n)), Rinv_r, Rmult_1_r by lra. unfold Rdiv in B. lra. }
  rewrite (INR_IZR_INZ m) in X. apply Rfloor_ge_Z in X. lia.
Qed.

(** *** Counting *)
Lemma filter_mono {A} (f g : A -> bool) l : (forall x, In x l -> f x = true -> g x = true) -> (List.length (filter f l) <= List.length (filter g l))%nat.
Proof.
  induction l as [|x r IH]; intros H; [auto|]. specialize (IH (fun y I => H y (or_intror I))). cbn. specialize (H x (or_introl eq_refl)).
  destruct (f x); [rewrite (H eq_refl); cbn; lia|]. destruct (g x); cbn; lia.
Qed.
Lemma below_count seen n lo hi counts m : counted seen n lo hi counts -> (m <= n)%nat ->
  below counts m = INR (List.length (filter (fun v => Nat.ltb (bucket n lo hi v) m) seen)).
Proof.
  intros (L & C). induction m as [|m IH]; intros M.
  - unfold below. cbn. replace (filter _ seen) with (@nil R); [reflexivity|]. clear C; induction seen as [|x r IHr]; [reflexivity|exact IHr].
  - rewrite below_next, IH, C by lia. rewrite <- plus_INR. f_equal. clear. induction seen as [|x r IHr]; [reflexivity|]. cbn [filter].
    destruct (Nat.ltb_spec (bucket n lo hi x) m), (Nat.eqb_spec (bucket n lo hi x) m), (Nat.ltb_spec (bucket n lo hi x) (S m)); cbn [List.length]; lia.
Qed.
Lemma filter_all {A} (f : A -> bool) l : (forall x, f x = true) -> filter f l = l.
Proof. intros H. induction l as [|x r IH]; [reflexivity|]. cbn. rewrite H, IH. reflexivity. Qed.
Lemma counted_total seen n lo hi counts : (0 < n)%nat -> counted seen n lo hi counts -> total counts = INR (List.length seen).
Proof.
  intros N C. rewrite <- below_all. destruct C as (L & C). rewrite (below_count seen n lo hi) by (split; [exact L|exact C] || lia).
  rewrite L, filter_all; [reflexivity|]. intros x. apply Nat.ltb_lt, bucket_lt, N.
Qed.
Lemma counted_nonneg seen n lo hi counts : counted seen n lo hi counts -> forall c, In c counts -> 0 <= c.
Proof. intros (L & C) c I. apply (In_nth _ _ 0) in I. destruct I as (k & K & <-). rewrite C by lia. apply pos_INR. Qed.
Lemma counted_used seen n lo hi counts v : (0 < n)%nat -> counted seen n lo hi counts -> In v seen -> used counts (bucket n lo hi v).
Proof.
  intros N (L & C) I. pose proof (bucket_lt n lo hi v N) as B. split; [lia|]. rewrite C by exact B. apply not_0_INR.
  assert (J : In v (filter (fun w => Nat.eqb (bucket n lo hi w) (bucket n lo hi v)) seen)) by (apply filter_In; split; [exact I|apply Nat.eqb_refl]).
  intros E. apply length_zero_iff_nil in E. rewrite E in J. destruct J.
Qed.
Lemma edge_mono lo hi n x y : lo <= hi -> (0 < n)%nat -> x <= y -> edge lo hi n x <= edge lo hi n y.
Proof.
  intros O N H. unfold edge. apply Rplus_le_compat_l, Rmult_le_compat_r; [|exact H]. apply Rle_mult_inv_pos; [lra|]. apply lt_0_INR. exact N.
Qed.
Lemma edge_mono_inv lo hi n x y : lo < hi -> (0 < n)%nat -> edge lo hi n x <= edge lo hi n y -> x <= y.
Proof.
  intros O N H. unfold edge in H. assert (0 < (hi - lo) / INR n) by (apply Rdiv_lt_0_compat; [lra|apply lt_0_INR; exact N]).
  apply Rmult_le_reg_r with ((hi - lo) / INR n); [assumption|lra].
Qed.
Lemma darker_le x seen f : (forall v, In v seen -> v < x -> f v = true) -> (darker x seen <= List.length (filter f seen))%nat.
Proof. intros H. apply filter_mono. intros v I. destruct (Rlt_dec v x); [intros _; now apply H|discriminate]. Qed.
Lemma brighter_le x seen f : (forall v, In v seen -> x < v -> f v = true) -> (brighter x seen <= List.length (filter f seen))%nat.
Proof. intros H. apply filter_mono. intros v I. destruct (Rlt_dec x v); [intros _; now apply H|discriminate]. Qed.
Lemma complement {A} (f : A -> bool) l : (List.length (filter f l) + List.length (filter (fun x => negb (f x)) l) = List.length l)%nat.
Proof. induction l as [|x r IH]; [reflexivity|]. cbn. destruct (f x); cbn; lia. Qed.

(** ** C95 *)

(** The actual range is that of the pixels, less the width of one bucket at the upper end. *)
Theorem C95_actual :
  forall seen n lo hi counts p q a b d, counted seen n lo hi counts -> extremes seen lo hi -> lo < hi -> hi <> 0 ->
  from_counts counts (Some lo) (Some hi) p q a b = Ok d ->
  actual_min d = lo /\ actual_max d = hi - (hi - lo) / INR n.
Proof.
  intros seen n lo hi counts p q a b d C (Il & Ih & E) O Z H. pose proof (proj1 C) as L.
  assert (V : value_range (Some lo) (Some hi) (List.length counts) lo hi) by (split; [now left|left; now split]).
  assert (N : (0 < n)%nat) by (destruct n; [destruct counts; [discriminate H|discriminate L]|lia]).
  assert (U0 : used counts 0).
  { replace 0%nat with (bucket n lo hi lo); [now apply (counted_used seen)|]. unfold bucket. rewrite Rminus_diag_eq by reflexivity.
    unfold Rdiv. rewrite !Rmult_0_l, (Rfloor_IZR 0). cbn. lia. }
  assert (U1 : used counts (n - 1)).
  { assert (n - 1 <= bucket n lo hi hi)%nat.
    { apply bucket_above; [lia|exact O|]. unfold edge. rewrite minus_INR by lia. cbn [INR]. assert (0 < INR n) by now apply lt_0_INR.
      assert (0 < (hi - lo) / INR n) by (apply Rdiv_lt_0_compat; lra). replace ((INR n - 1) * ((hi - lo) / INR n)) with (hi - lo - (hi - lo) / INR n) by (field; lra). lra. }
    pose proof (bucket_lt n lo hi hi N). replace (n - 1)%nat with (bucket n lo hi hi) by lia. now apply (counted_used seen). }
  destruct (C44_actual_range _ _ _ _ _ _ _ _ _ _ H V (ex_intro _ _ U0)) as (i & j & I & J & _ & A & B).
  assert (i = 0)%nat by (apply Nat.le_0_r, I, U0). assert (j = n - 1)%nat.
  { apply Nat.le_antisymm; [|apply J, U1]. destruct J as ((Q & _) & _). lia. }
  subst i j. rewrite A, B, L. unfold edge. rewrite minus_INR by lia. cbn [INR]. split; [ring|]. field. apply not_0_INR. lia.
Qed.
Print Assumptions C95_actual.

(** What Translate makes of the extreme pixels when the range is the actual one: the darkest pixel gets
    the least value of the output type, the brightest lies beyond the greatest one. *)
Theorem C95_minmax :
  forall desired b sc lo hi seen n, band_scale desired MinMax b = Ok sc -> statistics b = Ok (lo, hi) -> extremes seen lo hi -> lo < hi -> hi <> 0 ->
  (forall z counts, histogram b z lo hi = Ok counts -> n = Z.to_nat z /\ counted seen n lo hi counts) -> (2 <= n)%nat ->
  apply_scale sc lo = output_min sc /\
  apply_scale sc hi = output_max sc + (output_max sc - output_min sc) / (INR n - 1) /\
  output_max sc < apply_scale sc hi /\
  (forall v, v <= hi - (hi - lo) / INR n <-> apply_scale sc v <= output_max sc).
Proof.
  intros desired b sc lo hi seen n H S E O Z Hist N.
  destruct (C69_adjusted desired MinMax b sc ltac:(discriminate) H) as (lo' & hi' & counts & d & S' & D & (bk & Hb & _) & A & B & Omin & Omax & _).
  rewrite S in S'. injection S' as <- <-. destruct (Hist _ _ Hb) as (_ & C). destruct (C95_actual _ _ _ _ _ _ _ _ _ _ C E O Z D) as (Am & AM).
  cbn [fst snd] in A, B. rewrite Am in A. rewrite AM in B. unfold apply_scale. rewrite A, B.
  assert (W : output_min sc < output_max sc).
  { rewrite Omin, Omax. apply IZR_lt. destruct (match desired with None => _ | Some t => t end); reflexivity. }
  assert (P : 2 <= INR n) by (replace 2 with (INR 2) by (cbn; lra); now apply le_INR).
  assert (K : hi - (hi - lo) / INR n - lo = (hi - lo) * (INR n - 1) / INR n) by (field; lra). rewrite K.
  assert (T : output_min sc + (hi - lo) * (output_max sc - output_min sc) / ((hi - lo) * (INR n - 1) / INR n) = output_max sc + (output_max sc - output_min sc) / (INR n - 1)).
  { field. repeat split; lra. }
  split. { rewrite Rminus_diag_eq by reflexivity. unfold Rdiv. rewrite !Rmult_0_l. ring. } split; [exact T|].
  rewrite T. split.
  { assert (0 < (output_max sc - output_min sc) / (INR n - 1)) by (apply Rdiv_lt_0_compat; lra). lra. }
  intros v. assert (Q : 0 < (hi - lo) * (INR n - 1) / INR n) by (apply Rdiv_lt_0_compat; [apply Rmult_lt_0_compat; lra|lra]).
  set (g := (output_max sc - output_min sc) / ((hi - lo) * (INR n - 1) / INR n)).
  assert (G : 0 < g) by (apply Rdiv_lt_0_compat; lra).
  replace ((v - lo) * (output_max sc - output_min sc) / ((hi - lo) * (INR n - 1) / INR n)) with ((v - lo) * g) by (unfold g, Rdiv; ring).
  assert (X : output_max sc = output_min sc + (hi - (hi - lo) / INR n - lo) * g) by (rewrite K; unfold g; field; repeat split; lra).
  rewrite X at 1. split; intros Y.
  - apply Rplus_le_compat_l, Rmult_le_compat_r; lra.
  - apply Rplus_le_reg_l, Rmult_le_reg_r in Y; lra.
Qed.
Print Assumptions C95_minmax.

(** With one bucket (a whole-number band of two neighbouring values) the source range is empty, with
    either adjustment: there is nothing Translate could scale. *)
Theorem C95_one_bucket :
  forall desired adjust b sc lo hi seen, adjust <> NoAdjustment -> band_scale desired adjust b = Ok sc -> statistics b = Ok (lo, hi) ->
  extremes seen lo hi -> lo < hi -> hi <> 0 -> hi - lo < 2 -> band_type b <> Float32 -> band_type b <> Float64 ->
  (forall z counts, histogram b z lo hi = Ok counts -> counted seen (Z.to_nat z) lo hi counts) ->
  source_min sc = lo /\ source_max sc = lo.
Proof.
  intros desired adjust b sc lo hi seen Na H S E O Z W F1 F2 Hist.
  destruct (C69_adjusted desired adjust b sc Na H) as (lo' & hi' & counts & d & S' & D & (bk & Hb & _ & Bk) & A & B & _).
  rewrite S in S'. injection S' as <- <-. specialize (Bk F1 F2 ltac:(lra)). pose proof (Hist _ _ Hb) as C.
  assert (bk <= 1)%Z by (apply Z.lt_succ_r, lt_IZR; cbn; lra).
  assert (L1 : (List.length counts = 1)%nat). { destruct C as (L & _). destruct counts as [|x r]; [discriminate D|]. cbn in *. lia. }
  replace (Z.to_nat bk) with 1%nat in C by (destruct C as (L & _); lia).
  destruct (C95_actual _ _ _ _ _ _ _ _ _ _ C E O Z D) as (Am & AM).
  assert (V : value_range (Some lo) (Some hi) (List.length counts) lo hi) by (split; [now left|left; now split]).
  destruct (from_counts_unfold _ _ _ _ _ _ _ _ _ _ D V) as (m & L & X1 & X2 & X3 & X4).
  assert (m = 0)%nat as -> by lia. cbn [find_low find_high last_nonzero] in *.
  assert (I : first_nonzero counts = 0%nat).
  { assert (U0 : used counts 0). { replace 0%nat with (bucket 1 lo hi lo) by reflexivity. apply (counted_used seen); [lia|exact C|apply E]. }
    apply Nat.le_0_r. apply (first_nonzero_spec counts); [now exists 0%nat|exact U0]. }
  rewrite I in *. assert (EZ : edge lo hi (List.length counts) 0 = lo) by (unfold edge; ring).
  replace (Rmax (INR 0) (INR 0 - 2 / 10 * (INR 0 - INR 0))) with 0 in X3 by (cbn [INR]; rewrite Rmax_left; lra).
  replace (Rmin (INR 0) (INR 0 + 4 / 10 * (INR 0 - INR 0))) with 0 in X4 by (cbn [INR]; rewrite Rmin_left; lra).
  cbn [INR] in X1, X2. rewrite EZ in X1, X2, X3, X4. rewrite A, B. destruct adjust; [congruence| |]; cbn [fst snd]; split; assumption.
Qed.
Print Assumptions C95_one_bucket.

(** Dynamic range adjustment cuts off little at the dark end: less than the share [p] of the pixels
    lies below a suggested range that is in order. *)
Theorem C95_dark :
  forall seen n lo hi counts p q a b d, counted seen n lo hi counts -> seen <> [] -> (forall v, In v seen -> lo <= v <= hi) -> lo < hi -> hi <> 0 ->
  0 < p -> 0 <= a -> 0 <= b -> from_counts counts (Some lo) (Some hi) p q a b = Ok d -> suggested_min d <= suggested_max d ->
  INR (darker (suggested_min d) seen) < p * INR (List.length seen).
Proof.
  intros seen n lo hi counts p q a b d C Ne E O Z P A B H Ord. pose proof (proj1 C) as L.
  assert (V : value_range (Some lo) (Some hi) (List.length counts) lo hi) by (split; [now left|left; now split]).
  assert (N : (0 < n)%nat) by (destruct n; [destruct counts; [discriminate H|discriminate L]|lia]).
  assert (U : exists k, used counts k). { destruct seen as [|v r]; [congruence|]. exists (bucket n lo hi v). apply (counted_used (v :: r)); auto. now left. }
  destruct (C44_suggested_range _ _ _ _ _ _ _ _ _ _ H V U) as (i & j & l & h & I & J & Ll & Hl & L1 & L2 & H1 & H2 & SM & SX).
  rewrite SM, SX in Ord. cbv zeta in *. rewrite SM. rewrite L in *. rewrite (counted_total _ _ _ _ _ N C) in *.
  apply edge_mono_inv in Ord; [|exact O|exact N].
  assert (W : 0 <= INR h - INR l).
  { pose proof (Rmax_r (INR i) (INR l - a * (INR h - INR l))). pose proof (Rmin_r (INR j) (INR h + b * (INR h - INR l))).
    destruct (Rle_lt_dec 0 (INR h - INR l)) as [X|X]; [exact X|]. exfalso.
    assert (a * (INR h - INR l) <= 0) by (rewrite Rmult_comm; replace 0 with (0 * a) by ring; apply Rmult_le_compat_r; lra).
    assert (b * (INR h - INR l) <= 0) by (rewrite Rmult_comm; replace 0 with (0 * b) by ring; apply Rmult_le_compat_r; lra). lra. }
  assert (Aw : 0 <= a * (INR h - INR l)) by (apply Rmult_le_pos; assumption).
  set (m := Nat.max i l).
  assert (M : Rmax (INR i) (INR l - a * (INR h - INR l)) <= INR m).
  { unfold m. apply Rmax_lub; [apply le_INR; lia|]. assert (INR l <= INR (Nat.max i l)) by (apply le_INR; lia). lra. }
  assert (Mn : (m <= n)%nat). { unfold m. destruct I as ((Q & _) & _). lia. }
  apply Rle_lt_trans with (below counts m).
  - rewrite (below_count seen n lo hi) by assumption. apply le_INR, darker_le. intros v Iv Hv. apply Nat.ltb_lt, bucket_below; [exact N|exact O|now apply E|].
    eapply Rlt_le_trans; [exact Hv|]. apply edge_mono; [lra|exact N|exact M].
  - assert (Np : 0 < p * INR (List.length seen)). { apply Rmult_lt_0_compat; [exact P|]. apply lt_0_INR. destruct seen; [congruence|cbn; lia]. }
    destruct (le_lt_dec l i) as [X|X].
    + replace m with i by (unfold m; lia). now rewrite (below_used counts i I).
    + replace m with (S (l - 1)) by (unfold m; lia). apply L1. lia.
Qed.
Print Assumptions C95_dark.

(** At the bright end the same holds two buckets further up. *)
Theorem C95_bright :
  forall seen n lo hi counts p q a b d, counted seen n lo hi counts -> seen <> [] -> (forall v, In v seen -> lo <= v <= hi) -> lo < hi -> hi <> 0 ->
  q < 1 -> 0 <= a -> 0 <= b -> from_counts counts (Some lo) (Some hi) p q a b = Ok d -> suggested_min d <= suggested_max d ->
  INR (brighter (suggested_max d + 2 * ((hi - lo) / INR n)) seen) < (1 - q) * INR (List.length seen).
Proof.
  intros seen n lo hi counts p q a b d C Ne E O Z Q A B H Ord. pose proof (proj1 C) as L.
  assert (V : value_range (Some lo) (Some hi) (List.length counts) lo hi) by (split; [now left|left; now split]).
  assert (N : (0 < n)%nat) by (destruct n; [destruct counts; [discriminate H|discriminate L]|lia]).
  assert (U : exists k, used counts k). { destruct seen as [|v r]; [congruence|]. exists (bucket n lo hi v). apply (counted_used (v :: r)); auto. now left. }
  destruct (C44_suggested_range _ _ _ _ _ _ _ _ _ _ H V U) as (i & j & l & h & I & J & Ll & Hl & L1 & L2 & H1 & H2 & SM & SX).
  rewrite SM, SX in Ord. cbv zeta in *. rewrite SX. rewrite L in *. rewrite (counted_total _ _ _ _ _ N C) in *.
  apply edge_mono_inv in Ord; [|exact O|exact N].
  assert (W : 0 <= INR h - INR l).
  { pose proof (Rmax_r (INR i) (INR l - a * (INR h - INR l))). pose proof (Rmin_r (INR j) (INR h + b * (INR h - INR l))).
    destruct (Rle_lt_dec 0 (INR h - INR l)) as [X|X]; [exact X|]. exfalso.
    assert (a * (INR h - INR l) <= 0) by (rewrite Rmult_comm; replace 0 with (0 * a) by ring; apply Rmult_le_compat_r; lra).
    assert (b * (INR h - INR l) <= 0) by (rewrite Rmult_comm; replace 0 with (0 * b) by ring; apply Rmult_le_compat_r; lra). lra. }
  assert (Bw : 0 <= b * (INR h - INR l)) by (apply Rmult_le_pos; assumption).
  assert (Np : 0 < (1 - q) * INR (List.length seen)). { apply Rmult_lt_0_compat; [lra|]. apply lt_0_INR. destruct seen; [congruence|cbn; lia]. }
  set (m := Nat.min (j + 1) (h + 2)).
  assert (Jn : (j < n)%nat). { destruct J as ((X & _) & _). lia. }
  assert (M : INR m <= Rmin (INR j) (INR h + b * (INR h - INR l)) + 2).
  { unfold m. assert (X1 : INR (Nat.min (j + 1) (h + 2)) <= INR j + 1) by (rewrite <- S_INR; apply le_INR; lia).
    assert (X2 : INR (Nat.min (j + 1) (h + 2)) <= INR h + 2) by (replace 2 with (INR 2) by (cbn; lra); rewrite <- plus_INR; apply le_INR; lia).
    unfold Rmin. destruct (Rle_dec _ _); lra. }
  assert (S2 : edge lo hi n (Rmin (INR j) (INR h + b * (INR h - INR l))) + 2 * ((hi - lo) / INR n) = edge lo hi n (Rmin (INR j) (INR h + b * (INR h - INR l)) + 2)) by (unfold edge; ring).
  rewrite S2. assert (Up : forall v, In v seen -> edge lo hi n (Rmin (INR j) (INR h + b * (INR h - INR l)) + 2) < v -> (m < n /\ m <= bucket n lo hi v)%nat).
  { intros v Iv Hv. assert (K : edge lo hi n (INR m) < v) by (eapply Rle_lt_trans; [|exact Hv]; apply edge_mono; [lra|exact N|exact M]).
    assert (m < n)%nat.
    { destruct (le_lt_dec n m) as [X|X]; [|exact X]. exfalso. assert (hi <= edge lo hi n (INR m)).
      { apply Rle_trans with (edge lo hi n (INR n)); [unfold edge; right; field; apply not_0_INR; lia|apply edge_mono; [lra|exact N|now apply le_INR]]. }
      destruct (E v Iv). lra. }
    split; [assumption|]. apply bucket_above; [assumption|exact O|lra]. }
  set (x := edge lo hi n (_ + 2)) in *.
  destruct (le_lt_dec n m) as [X|X].
  - replace (brighter x seen) with 0%nat; [exact Np|]. unfold brighter. replace (filter _ seen) with (@nil R); [reflexivity|].
    symmetry. assert (F : forall v, In v seen -> (if Rlt_dec x v then true else false) = false) by (intros v Iv; destruct (Rlt_dec x v) as [Y|]; [destruct (Up v Iv Y); lia|reflexivity]).
    clear - F. induction seen as [|y r IH]; [reflexivity|]. cbn. rewrite (F y (or_introl eq_refl)). apply IH. intros v Iv. apply F. now right.
  - apply Rle_lt_trans with (INR (List.length seen) - below counts m).
    + rewrite (below_count seen n lo hi) by (assumption || lia). rewrite <- minus_INR.
      * apply le_INR. pose proof (complement (fun v => Nat.ltb (bucket n lo hi v) m) seen) as K.
        assert ((brighter x seen <= List.length (filter (fun v => negb (Nat.ltb (bucket n lo hi v) m)) seen))%nat); [|lia].
        apply brighter_le. intros v Iv Hv. destruct (Up v Iv Hv). apply negb_true_iff, Nat.ltb_ge. assumption.
      * rewrite <- (complement (fun v => Nat.ltb (bucket n lo hi v) m) seen). apply Nat.le_add_r.
    + assert (K : q * INR (List.length seen) < below counts m); [|lra].
      unfold m in *. destruct (Nat.min_spec (j + 1) (h + 2)) as [[Y ->]|[Y ->]].
      * rewrite Nat.add_1_r. rewrite (below_last counts j J). rewrite (counted_total _ _ _ _ _ N C). lra.
      * replace (h + 2)%nat with (S (h + 1)) by lia. apply H1. lia.
Qed.
Print Assumptions C95_bright.

(** Both for a tile that Translate writes: less than two percent of the pixels fall below the output type's
    range, and less than two percent exceed it by more than two buckets. *)
Theorem C95_dra :
  forall desired b sc lo hi seen, band_scale desired DRA b = Ok sc -> statistics b = Ok (lo, hi) -> extremes seen lo hi -> lo < hi -> hi <> 0 ->
  (forall z counts, histogram b z lo hi = Ok counts -> counted seen (Z.to_nat z) lo hi counts) -> source_min sc < source_max sc ->
  (forall v, apply_scale sc v < output_min sc <-> v < source_min sc) /\ (forall v, output_max sc < apply_scale sc v <-> source_max sc < v) /\
  INR (darker (source_min sc) seen) < 2/100 * INR (List.length seen) /\
  exists n, (0 < n)%nat /\ (band_type b <> Float32 -> band_type b <> Float64 -> INR n <= hi - lo < INR n + 1) /\
  ((band_type b = Float32 \/ band_type b = Float64) -> n = 255%nat) /\
  INR (brighter (source_max sc + 2 * ((hi - lo) / INR n)) seen) < 2/100 * INR (List.length seen).
Proof.
  intros desired b sc lo hi seen H S E O Z Hist Or.
  destruct (C69_adjusted desired DRA b sc ltac:(discriminate) H) as (lo' & hi' & counts & d & S' & D & (bk & Hb & Bf & Bi) & A & B & Omin & Omax & _).
  rewrite S in S'. injection S' as <- <-. pose proof (Hist _ _ Hb) as C. cbn [fst snd] in A, B.
  assert (W : output_min sc < output_max sc).
  { rewrite Omin, Omax. apply IZR_lt. destruct (match desired with None => _ | Some t => t end); reflexivity. }
  assert (N : (0 < Z.to_nat bk)%nat). { destruct C as (L & _). destruct counts as [|x r]; [discriminate D|]. cbn in L. lia. }
  assert (Ne : seen <> []) by (destruct E as (I & _); intros ->; destruct I).
  set (g := (output_max sc - output_min sc) / (source_max sc - source_min sc)). assert (G : 0 < g) by (apply Rdiv_lt_0_compat; lra).
  assert (F : forall v, apply_scale sc v = output_min sc + (v - source_min sc) * g) by (intros v; unfold apply_scale, g, Rdiv; ring).
  assert (T : output_max sc = output_min sc + (source_max sc - source_min sc) * g) by (unfold g; field; lra).
  split; [|split; [|split]].
  - intros v. rewrite F. split; intros X.
    + apply Rnot_le_lt. intros Y. assert (0 <= (v - source_min sc) * g) by (apply Rmult_le_pos; lra). lra.
    + assert (0 < (source_min sc - v) * g) by (apply Rmult_lt_0_compat; lra). lra.
  - intros v. rewrite F, T. split; intros X.
    + apply Rnot_le_lt. intros Y. assert (0 <= (source_max sc - v) * g) by (apply Rmult_le_pos; lra). lra.
    + assert (0 < (v - source_max sc) * g) by (apply Rmult_lt_0_compat; lra). lra.
  - rewrite A. apply (C95_dark seen (Z.to_nat bk) lo hi counts (2/100) (98/100) (2/10) (4/10)); try assumption; try lra. apply E.
  - exists (Z.to_nat bk). assert (In_ : INR (Z.to_nat bk) = IZR bk) by (rewrite INR_IZR_INZ, Z2Nat.id by lia; reflexivity). split; [exact N|]. split; [|split].
    + intros F1 F2. rewrite In_. apply Bi; [assumption|assumption|lra].
    + intros X. rewrite (Bf X). reflexivity.
    + rewrite B. replace (2/100) with (1 - 98/100) by lra.
      apply (C95_bright seen (Z.to_nat bk) lo hi counts (2/100) (98/100) (2/10) (4/10)); try assumption; try lra. apply E.
Qed.
Print Assumptions C95_dra.

(** *** Examples *)
Definition pixels40 : list R := repeat 0 40 ++ repeat 1 40 ++ repeat 2 10 ++ repeat 3 10.
Definition histogram40 : list R := [40; 40; 20].

Lemma bucket_IZR k n z lo hi : (0 < n)%nat -> hi = IZR (Z.of_nat n) + lo -> (lo + IZR (Z.of_nat k) = z) -> bucket n lo hi z = Nat.min (n - 1) k.
Proof.
  intros N -> <-. unfold bucket. replace (lo + IZR (Z.of_nat k) - lo) with (IZR (Z.of_nat k)) by ring. replace (IZR (Z.of_nat n) + lo - lo) with (INR n) by (rewrite INR_IZR_INZ; ring).
  replace (IZR (Z.of_nat k) * INR n / INR n) with (IZR (Z.of_nat k)) by (field; apply not_0_INR; lia). rewrite Rfloor_IZR. lia.
Qed.
Lemma counted40 : counted pixels40 3 0 3 histogram40.
Proof.
  assert (B0 : bucket 3 0 3 0 = 0%nat) by (rewrite (bucket_IZR 0); [reflexivity|lia|cbn; lra|cbn; lra]).
  assert (B1 : bucket 3 0 3 1 = 1%nat) by (rewrite (bucket_IZR 1); [reflexivity|lia|cbn; lra|cbn; lra]).
  assert (B2 : bucket 3 0 3 2 = 2%nat) by (rewrite (bucket_IZR 2); [reflexivity|lia|cbn; lra|cbn; lra]).
  assert (B3 : bucket 3 0 3 3 = 2%nat) by (rewrite (bucket_IZR 3); [reflexivity|lia|cbn; lra|cbn; lra]).
  assert (F : forall f v m, filter f (repeat v m) = if f v then repeat v m else @nil R).
  { intros f v m. induction m as [|m IH]; [now destruct (f v)|]. cbn. rewrite IH. now destruct (f v). }
  split; [reflexivity|]. intros k K. unfold pixels40. rewrite !filter_app, !F, B0, B1, B2, B3.
  destruct k as [|[|[|k]]]; try lia; cbn [Nat.eqb]; rewrite !app_length, ?repeat_length; cbn [List.length nth histogram40]; rewrite INR_IZR_INZ; reflexivity.
Qed.
Lemma extremes40 : extremes pixels40 0 3.
Proof.
  unfold extremes, pixels40. split; [apply in_or_app; left; now left|]. split; [do 3 (apply in_or_app; right); now left|].
  intros v I. rewrite !in_app_iff in I. destruct I as [I|[I|[I|I]]]; apply repeat_spec in I; subst; lra.
Qed.
Lemma suggested40 : exists d, from_counts histogram40 (Some 0) (Some 3) (2/100) (98/100) (2/10) (4/10) = Ok d /\ suggested_min d = 0 /\ suggested_max d = 14/10.
Proof.
  assert (exists d, from_counts histogram40 (Some 0) (Some 3) (2/100) (98/100) (2/10) (4/10) = Ok d) as (d & H) by (eexists; reflexivity).
  exists d. split; [exact H|]. assert (V : value_range (Some 0) (Some 3) (List.length histogram40) 0 3) by (split; [now left|left; split; [reflexivity|lra]]).
  destruct (from_counts_unfold _ _ _ _ _ _ _ _ _ _ H V) as (m & L & _ & _ & X & Y). cbn in L. injection L as <-.
  assert (T : total histogram40 = 100) by (unfold total; cbn; lra). rewrite T in *.
  assert (C0 : nth 0 (cumulative 0 histogram40) 0 = 40) by (cbn; lra). assert (C1 : nth 1 (cumulative 0 histogram40) 0 = 80) by (cbn; lra). assert (C2 : nth 2 (cumulative 0 histogram40) 0 = 100) by (cbn; lra).
  assert (L0 : find_low (cumulative 0 histogram40) (2 / 100 * 100) 0 2 = 0%nat) by (cbn [find_low]; rewrite C0; destruct (Rlt_dec 40 _); [lra|reflexivity]).
  assert (H0 : find_high (cumulative 0 histogram40) (98 / 100 * 100) 2 = 1%nat).
  { cbn [find_high]. rewrite C2, C1. destruct (Rgt_dec 100 _); [|lra]. destruct (Rgt_dec 80 _); [lra|reflexivity]. }
  assert (F0 : first_nonzero histogram40 = 0%nat) by (cbn; destruct (Req_EM_T 40 0); [lra|reflexivity]).
  assert (N2 : last_nonzero histogram40 2 = 2%nat) by (cbn; destruct (Req_EM_T 20 0); [lra|reflexivity]).
  rewrite L0, H0, F0 in X. rewrite L0, H0, N2 in Y. unfold edge in X, Y. cbn [List.length histogram40 INR] in X, Y.
  rewrite Rmax_left in X by lra. rewrite Rmin_right in Y by lra. lra.
Qed.

Lemma brighter40 : brighter (14/10) pixels40 = 20%nat.
Proof.
  assert (F : forall f v m, filter f (repeat v m) = if f v then repeat v m else @nil R).
  { intros f v m. induction m as [|m IH]; [now destruct (f v)|]. cbn. rewrite IH. now destruct (f v). }
  unfold brighter, pixels40. rewrite !filter_app, !F.
  destruct (Rlt_dec (14/10) 0); [lra|]. destruct (Rlt_dec (14/10) 1); [lra|]. destruct (Rlt_dec (14/10) 2); [|lra]. destruct (Rlt_dec (14/10) 3); [|lra].
  rewrite !app_length, !repeat_length. reflexivity.
Qed.
Lemma length40 : List.length pixels40 = 100%nat.
Proof. unfold pixels40. rewrite !app_length, !repeat_length. reflexivity. Qed.
Lemma twenty : INR 20 = 20.
Proof. rewrite INR_IZR_INZ. reflexivity. Qed.
Lemma hundred : INR 100 = 100.
Proof. rewrite INR_IZR_INZ. reflexivity. Qed.

(** The bright end can lose far more than two percent: a fifth of these pixels. *)
Theorem C95_bright_refuted :
  ~ (forall seen n lo hi counts d, counted seen n lo hi counts -> extremes seen lo hi -> lo < hi -> hi <> 0 ->
     from_counts counts (Some lo) (Some hi) (2/100) (98/100) (2/10) (4/10) = Ok d -> suggested_min d <= suggested_max d ->
     INR (brighter (suggested_max d) seen) < (1 - 98/100) * INR (List.length seen)).
Proof.
  intros H. destruct suggested40 as (d & D & A & B). specialize (H _ _ _ _ _ d counted40 extremes40 ltac:(lra) ltac:(lra) D ltac:(lra)).
  rewrite B, brighter40, length40, twenty, hundred in H. lra.
Qed.
Print Assumptions C95_bright_refuted.

Example C95_non_vacuous :
  let b := mkBand Byte (Ok (0, 3)) (fun z _ _ => if (z =? 3)%Z then Ok histogram40 else Err OtherError) in
  counted pixels40 3 0 3 histogram40 /\ extremes pixels40 0 3 /\ (exists sc, band_scale None MinMax b = Ok sc) /\ (exists sc, band_scale None DRA b = Ok sc) /\
  (forall z counts, histogram b z 0 3 = Ok counts -> 3%nat = Z.to_nat z /\ counted pixels40 3 0 3 counts).
Proof.
  assert (T : truncate (3 - 0) = 3%Z). { unfold truncate. replace (3 - 0) with (IZR 3) by lra. destruct (Rlt_dec 3 0); [lra|apply Rfloor_IZR]. }
  intros b. split; [exact counted40|]. split; [exact extremes40|]. split; [|split].
  - unfold band_scale, b. cbn [band_type statistics histogram bind]. rewrite T. eexists. reflexivity.
  - unfold band_scale, b. cbn [band_type statistics histogram bind]. rewrite T. eexists. reflexivity.
  - intros z counts. unfold b. cbn [histogram]. destruct (Z.eqb_spec z 3) as [->|]; [|discriminate]. intros [= <-]. split; [reflexivity|exact counted40].
Qed.

(** Two neighbouring values: the single bucket of [C95_one_bucket]. *)
Example C95_one_bucket_non_vacuous :
  let b := mkBand Byte (Ok (4, 5)) (fun z _ _ => if (z =? 1)%Z then Ok [3] else Err OtherError) in
  exists sc sc', band_scale None MinMax b = Ok sc /\ band_scale None DRA b = Ok sc' /\
  source_min sc = 4 /\ source_max sc = 4 /\ source_min sc' = 4 /\ source_max sc' = 4.
Proof.
  intros b.
  assert (T : truncate (5 - 4) = 1%Z). { unfold truncate. replace (5 - 4) with (IZR 1) by lra. destruct (Rlt_dec 1 0); [lra|apply Rfloor_IZR]. }
  assert (C : counted [4; 5; 5] 1 4 5 [3]).
  { split; [reflexivity|]. intros k K. assert (k = 0%nat) by lia. subst k.
    assert (B : forall v, bucket 1 4 5 v = 0%nat) by reflexivity. cbn [filter]. rewrite !B. cbn. lra. }
  assert (S : forall a, a <> NoAdjustment -> exists sc, band_scale None a b = Ok sc).
  { intros a N. unfold band_scale, b. cbn [band_type statistics histogram bind]. rewrite T. cbn. destruct a; [congruence| |]; eexists; reflexivity. }
  assert (E : extremes [4; 5; 5] 4 5). { split; [now left|]. split; [right; now left|]. intros v [<-|[<-|[<-|[]]]]; lra. }
  assert (A : forall a sc, a <> NoAdjustment -> band_scale None a b = Ok sc -> source_min sc = 4 /\ source_max sc = 4).
  { intros a sc N H. apply (C95_one_bucket None a b sc 4 5 [4; 5; 5]); auto; try lra; try discriminate.
    intros z counts H'. cbn in H'. destruct (z =? 1)%Z eqn:Z; [|discriminate]. injection H' as <-. apply Z.eqb_eq in Z. subst z. exact C. }
  destruct (S MinMax) as (sc & H); [discriminate|]. destruct (S DRA) as (sc' & H'); [discriminate|].
  exists sc, sc'. destruct (A MinMax sc) as (? & ?); [discriminate|exact H|]. destruct (A DRA sc') as (? & ?); [discriminate|exact H'|]. auto 10.
Qed.
