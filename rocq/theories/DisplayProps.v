(** Property theorems for pixel ranges and display: C44, C45, C63 and C69. *)
Require Import ZArith Reals String List Lra Lia Bool.
Require Import Verif.Base Verif.BaseFacts Verif.PolySpec Verif.DisplayModel Verif.DisplaySpec Verif.DisplayProofs.
Import ListNotations.
Local Open Scope R_scope.

(** ** C44: dynamic range parameters *)
Lemma from_counts_unfold counts first last p q a b d lo hi :
  from_counts counts first last p q a b = Ok d -> value_range first last (List.length counts) lo hi ->
  exists m, List.length counts = S m /\
  let at_ x := edge lo hi (List.length counts) x in
  let emin := find_low (cumulative 0 counts) (p * total counts) 0 m in
  let emax := find_high (cumulative 0 counts) (q * total counts) m in
  actual_min d = at_ (INR (first_nonzero counts)) /\ actual_max d = at_ (INR (last_nonzero counts m)) /\
  suggested_min d = at_ (Rmax (INR (first_nonzero counts)) (INR emin - a * (INR emax - INR emin))) /\
  suggested_max d = at_ (Rmin (INR (last_nonzero counts m)) (INR emax + b * (INR emax - INR emin))).
Proof.
  intros H (F & L). unfold from_counts, from_counts_with in H. destruct (List.length counts) as [|m] eqn:E; [discriminate|]. exists m. split; [reflexivity|].
  assert (bucket_value first 0 = lo) as B1.
  { destruct F as [-> | [-> ->]]; [|reflexivity]. cbn. destruct (Req_EM_T lo 0); auto. }
  assert (bucket_value last (INR (S m)) = hi) as B2.
  { destruct L as [[-> N] | [-> ->]]; [|reflexivity]. cbn. destruct (Req_EM_T hi 0); [contradiction|reflexivity]. }
  rewrite B1, B2 in H. rewrite cumulative_nth in H by lia. rewrite Rplus_0_l in H.
  replace (below counts (S m)) with (total counts) in H by (rewrite <- E; symmetry; apply below_all).
  injection H as <-. cbv zeta. unfold edge. cbn [actual_min actual_max suggested_min suggested_max]. repeat split; apply Rplus_comm.
Qed.

(** The actual range runs from the lower edge of the first used bucket to the lower edge of the
    last one. *)
Theorem C44_actual_range :
  forall counts first last p q a b d lo hi,
  from_counts counts first last p q a b = Ok d -> value_range first last (List.length counts) lo hi -> (exists k, used counts k) ->
  exists i j, first_used counts i /\ last_used counts j /\ (i <= j)%nat /\
  actual_min d = edge lo hi (List.length counts) (INR i) /\ actual_max d = edge lo hi (List.length counts) (INR j).
Proof.
  intros counts first last p q a b d lo hi H V U. destruct (from_counts_unfold _ _ _ _ _ _ _ _ _ _ H V) as (m & L & A & B & _ & _).
  exists (first_nonzero counts), (last_nonzero counts m).
  pose proof (first_nonzero_spec counts U) as F. pose proof (last_nonzero_used counts m L U) as G.
  split; [exact F|]. split; [exact G|]. split; [|split; assumption]. apply F. apply G.
Qed.
Print Assumptions C44_actual_range.

Theorem C44_suggested_inside_actual :
  forall counts first last p q a b d lo hi,
  from_counts counts first last p q a b = Ok d -> value_range first last (List.length counts) lo hi -> lo <= hi ->
  actual_min d <= suggested_min d /\ suggested_max d <= actual_max d.
Proof.
  intros counts first last p q a b d lo hi H V O. destruct (from_counts_unfold _ _ _ _ _ _ _ _ _ _ H V) as (m & L & A & B & C & D).
  rewrite A, B, C, D. unfold edge. set (s := (hi - lo) / INR (List.length counts)).
  assert (S : 0 <= s). { unfold s. apply Rle_mult_inv_pos; [lra|]. apply lt_0_INR. lia. }
  split; apply Rplus_le_compat_l, Rmult_le_compat_r; auto using Rmax_l, Rmin_l.
Qed.
Print Assumptions C44_suggested_inside_actual.

(** The suggested range: bucket [l] is the first at which the share [p] of the pixels is reached,
    [h] the last at which the share [q] is not exceeded; the range is widened by the given factors
    and cut to the used buckets. *)
Theorem C44_suggested_range :
  forall counts first last p q a b d lo hi,
  from_counts counts first last p q a b = Ok d -> value_range first last (List.length counts) lo hi -> (exists k, used counts k) ->
  exists i j l h, first_used counts i /\ last_used counts j /\ (l < List.length counts)%nat /\ (h < List.length counts)%nat /\
  (forall k, (k < l)%nat -> below counts (S k) < p * total counts) /\
  (S l = List.length counts \/ p * total counts <= below counts (S l)) /\
  (forall k, (h < k < List.length counts)%nat -> q * total counts < below counts (S k)) /\
  (h = O \/ below counts (S h) <= q * total counts) /\
  let width := INR h - INR l in
  suggested_min d = edge lo hi (List.length counts) (Rmax (INR i) (INR l - a * width)) /\
  suggested_max d = edge lo hi (List.length counts) (Rmin (INR j) (INR h + b * width)).
Proof.
  intros counts first last p q a b d lo hi H V U. destruct (from_counts_unfold _ _ _ _ _ _ _ _ _ _ H V) as (m & L & A & B & C & D).
  exists (first_nonzero counts), (last_nonzero counts m).
  exists (find_low (cumulative 0 counts) (p * total counts) 0 m), (find_high (cumulative 0 counts) (q * total counts) m).
  split; [now apply first_nonzero_spec|]. split; [now apply last_nonzero_used|].
  destruct (find_low_spec (cumulative 0 counts) (p * total counts) m 0) as (L1 & L2 & L3).
  destruct (find_high_spec (cumulative 0 counts) (q * total counts) m) as (H1 & H2 & H3).
  set (l := find_low _ _ 0 m) in *. set (h := find_high _ _ m) in *.
  assert (N : forall k, (k < List.length counts)%nat -> nth k (cumulative 0 counts) 0 = below counts (S k)) by (intros; rewrite cumulative_nth by assumption; ring).
  split; [lia|]. split; [lia|]. split; [intros k Hk; rewrite <- N by lia; apply L2; lia|].
  split; [destruct L3 as [->|L3]; [left; lia|right; rewrite <- N by lia; exact L3]|].
  split; [intros k Hk; rewrite <- N by lia; apply Rgt_lt, H2; lia|].
  split; [destruct H3 as [H3|H3]; [now left|right; rewrite <- N by lia; exact H3]|]. split; assumption.
Qed.
Print Assumptions C44_suggested_range.

(** One bucket that starts below the lower share and ends above the upper one. *)
Definition dominant (counts : list R) (p q : R) (k : nat) : Prop :=
  (1 <= k < List.length counts)%nat /\ below counts k < p * total counts /\ q * total counts < below counts (S k).

(** The suggested range is in order exactly when there is no dominant bucket. *)
Theorem C44_order :
  forall counts first last p q a b d lo hi,
  from_counts counts first last p q a b = Ok d -> value_range first last (List.length counts) lo hi -> lo < hi ->
  (exists k, used counts k) -> (forall c, In c counts -> 0 <= c) -> 0 < p <= q -> p <= 1 -> 0 <= a -> 0 <= b ->
  (suggested_min d <= suggested_max d <-> ~ exists k, dominant counts p q k).
Proof.
  intros counts first last p q a b d lo hi H V O U NN P1 P2 A B.
  destruct (C44_suggested_range _ _ _ _ _ _ _ _ _ _ H V U) as (i & j & l & h & I & J & Ll & Hl & L1 & L2 & H1 & H2 & SM & SX).
  cbv zeta in SM, SX. rewrite SM, SX. clear SM SX H V.
  assert (T : 0 < total counts).
  { rewrite <- (below_last counts j J). destruct J as ((Jl & Jn) & _).
    assert (0 <= below counts j) by (pose proof (below_mono counts 0 j NN ltac:(lia)) as Hb; unfold below in Hb at 1; cbn in Hb; lra).
    assert (0 < nth j counts 0). { pose proof (NN _ (nth_In counts 0 Jl)). lra. }
    rewrite below_next. lra. }
  set (n := List.length counts) in *. assert (Np : 0 < INR n) by (apply lt_0_INR; lia).
  assert (S : 0 < (hi - lo) / INR n) by (apply Rdiv_lt_0_compat; lra). unfold edge. set (s := (hi - lo) / INR n) in *.
  assert (PT : p * total counts <= total counts) by (rewrite <- (Rmult_1_l (total counts)) at 2; apply Rmult_le_compat_r; lra).
  assert (PT0 : 0 < p * total counts) by (apply Rmult_lt_0_compat; lra).
  assert (QT : p * total counts <= q * total counts) by (apply Rmult_le_compat_r; lra).
  assert (L2' : p * total counts <= below counts (Datatypes.S l)).
  { destruct L2 as [L2|L2]; [|exact L2]. rewrite L2. unfold n. rewrite below_all. exact PT. }
  assert (IL : (i <= l)%nat).
  { destruct (le_lt_dec i l); [assumption|]. pose proof (below_mono counts (Datatypes.S l) i NN ltac:(lia)). rewrite (below_used counts i I) in *. lra. }
  assert (LJ : (l <= j)%nat).
  { destruct (le_lt_dec l j); [assumption|]. specialize (L1 j ltac:(lia)). rewrite (below_last counts j J) in L1. lra. }
  split.
  - intros Le (k & Hk & K1 & K2).
    assert (l = k).
    { apply Nat.le_antisymm.
      - destruct (le_lt_dec l k); [assumption|]. specialize (L1 k ltac:(lia)). lra.
      - destruct (le_lt_dec k l); [assumption|]. pose proof (below_mono counts (Datatypes.S l) k NN ltac:(lia)). lra. }
    assert (HK : (h <= k - 1)%nat).
    { destruct (le_lt_dec h (k - 1)); [assumption|]. destruct H2 as [->|H2]; [lia|].
      pose proof (below_mono counts (Datatypes.S k) (Datatypes.S h) NN ltac:(lia)). lra. }
    subst l. assert (D : INR h - INR k <= -1). { apply le_INR in HK. rewrite minus_INR in HK by lia. cbn in HK. lra. }
    assert (X : Rmin (INR j) (INR h + b * (INR h - INR k)) <= INR h).
    { eapply Rle_trans; [apply Rmin_r|]. assert (b * (INR h - INR k) <= b * 0) by (apply Rmult_le_compat_l; lra). lra. }
    assert (Y : INR k <= Rmax (INR i) (INR k - a * (INR h - INR k))).
    { eapply Rle_trans; [|apply Rmax_r]. assert (a * (INR h - INR k) <= a * 0) by (apply Rmult_le_compat_l; lra). lra. }
    assert (Rmin (INR j) (INR h + b * (INR h - INR k)) * s < Rmax (INR i) (INR k - a * (INR h - INR k)) * s) by (apply Rmult_lt_compat_r; lra). lra.
  - intros No. assert (LH : (l <= h)%nat).
    { destruct (le_lt_dec l h); [assumption|]. elim No. exists l. split; [unfold n in *; lia|]. split.
      - specialize (L1 (l - 1)%nat ltac:(lia)). now replace (Datatypes.S (l - 1)) with l in L1 by lia.
      - apply H1. lia. }
    apply le_INR in LH, IL, LJ. assert (ILH : INR i <= INR j) by lra.
    apply Rplus_le_compat_l, Rmult_le_compat_r; [lra|].
    assert (0 <= a * (INR h - INR l)) by (apply Rmult_le_pos; lra). assert (0 <= b * (INR h - INR l)) by (apply Rmult_le_pos; lra).
    apply Rmin_glb; apply Rmax_lub; lra.
Qed.
Print Assumptions C44_order.

(** An image of one value has its suggested range inverted and off the data on both sides. *)
Theorem C44_constant_image :
  forall counts first last p q a b d lo hi k,
  from_counts counts first last p q a b = Ok d -> value_range first last (List.length counts) lo hi -> lo < hi ->
  (forall i, used counts i <-> i = k) -> (1 <= k)%nat -> 0 < nth k counts 0 -> 0 < p <= q -> q < 1 -> 0 < a -> 0 <= b ->
  suggested_max d < actual_min d /\ actual_min d = actual_max d /\ actual_max d < suggested_min d.
Proof.
  intros counts first last p q a b d lo hi k H V O U K Kp P Q A B.
  assert (Uk : used counts k) by now apply U.
  destruct (C44_suggested_range _ _ _ _ _ _ _ _ _ _ H V (ex_intro _ k Uk)) as (i & j & l & h & I & J & Ll & Hl & L1 & L2 & H1 & H2 & SM & SX).
  destruct (C44_actual_range _ _ _ _ _ _ _ _ _ _ H V (ex_intro _ k Uk)) as (i' & j' & I' & J' & _ & AM & AX).
  assert (i = k) as -> by (apply U; apply I). assert (j = k) as -> by (apply U; apply J).
  assert (i' = k) as -> by (apply U; apply I'). assert (j' = k) as -> by (apply U; apply J').
  pose proof (below_used counts k I) as B0. pose proof (below_last counts k J) as B1.
  assert (T : 0 < total counts).
  { rewrite <- B1, below_next. lra. }
  assert (PT0 : 0 < p * total counts) by (apply Rmult_lt_0_compat; lra).
  assert (QT : q * total counts < total counts) by (rewrite <- (Rmult_1_l (total counts)) at 2; apply Rmult_lt_compat_r; lra).
  assert (QP : p * total counts <= q * total counts) by (apply Rmult_le_compat_r; lra).
  assert (NN : forall c, In c counts -> 0 <= c).
  { intros c Hc. apply (In_nth _ _ 0) in Hc. destruct Hc as (x & Hx & <-). destruct (Req_EM_T (nth x counts 0) 0) as [->|N]; [lra|].
    assert (x = k) as -> by (apply U; split; assumption). lra. }
  assert (l = k) as ->.
  { apply Nat.le_antisymm.
    - destruct (le_lt_dec l k); [assumption|]. specialize (L1 k ltac:(lia)). lra.
    - destruct (le_lt_dec k l) as [|Lt]; [assumption|]. destruct Uk as (Kl & _).
      pose proof (below_mono counts (S l) k NN ltac:(lia)). destruct L2 as [L2|L2]; [lia|lra]. }
  assert (h = k - 1)%nat as ->.
  { apply Nat.le_antisymm.
    - destruct (le_lt_dec h (k - 1)); [assumption|]. destruct H2 as [->|H2]; [lia|]. pose proof (below_mono counts (S k) (S h) NN ltac:(lia)). lra.
    - destruct (le_lt_dec (k - 1) h); [assumption|]. destruct Uk as (Kl & _). specialize (H1 (k - 1)%nat ltac:(lia)).
      replace (S (k - 1)) with k in H1 by lia. lra. }
  rewrite minus_INR in SM, SX by lia. cbn [INR] in SM, SX.
  assert (Np : 0 < INR (List.length counts)) by (apply lt_0_INR; lia).
  assert (Sp : 0 < (hi - lo) / INR (List.length counts)) by (apply Rdiv_lt_0_compat; lra).
  rewrite SM, SX, AM, AX. unfold edge. set (s := (hi - lo) / INR (List.length counts)) in *.
  split; [|split; [reflexivity|]]; apply Rplus_lt_compat_l, Rmult_lt_compat_r; try lra.
  - eapply Rle_lt_trans; [apply Rmin_r|]. lra.
  - eapply Rlt_le_trans; [|apply Rmax_r]. lra.
Qed.

Ltac decide_reals :=
  repeat match goal with
  | |- context [Req_EM_T ?a ?b] => destruct (Req_EM_T a b); [try (exfalso; lra)|try (exfalso; lra)]
  | |- context [Rlt_dec ?a ?b] => destruct (Rlt_dec a b); [try (exfalso; lra)|try (exfalso; lra)]
  | |- context [Rgt_dec ?a ?b] => destruct (Rgt_dec a b); [try (exfalso; lra)|try (exfalso; lra)]
  end.
Example C44_constant_image_non_vacuous :
  exists d, from_counts [0; 0; 9; 0] (Some 10) (Some 18) (2/100) (98/100) (2/10) (4/10) = Ok d /\
  suggested_max d < actual_min d /\ actual_min d = 14 /\ actual_max d = 14 /\ actual_max d < suggested_min d.
Proof.
  eexists. split; [reflexivity|].
  assert (U : forall i, used [0; 0; 9; 0] i <-> i = 2%nat).
  { intros i. split; [|intros ->; split; [cbn; lia|cbn; lra]].
    intros (A & B). cbn in A. destruct i as [|[|[|[|i]]]]; cbn in B; try lra; try lia; reflexivity. }
  assert (V : value_range (Some 10) (Some 18) (List.length [0; 0; 9; 0]) 10 18) by (split; [now left|left; split; [reflexivity|lra]]).
  destruct (C44_constant_image [0; 0; 9; 0] (Some 10) (Some 18) (2/100) (98/100) (2/10) (4/10) _ 10 18 2 eq_refl V) as (A & B & C);
    try lra; try lia; try exact U; try (cbn; lra).
  destruct (C44_actual_range [0; 0; 9; 0] (Some 10) (Some 18) (2/100) (98/100) (2/10) (4/10) _ 10 18 eq_refl V) as (i & j & (I & _) & (J & _) & _ & D & E);
    [exists 2%nat; apply U; reflexivity|].
  apply U in I, J. subst i j. split; [exact A|]. rewrite D, E in *. unfold edge in *. cbn [List.length INR] in *. split; [lra|]. split; [lra|]. exact C.
Qed.
Print Assumptions C44_constant_image.

(** An empty histogram, and one whose counts are all zero. *)
Theorem C44_no_pixels :
  forall counts first last p q a b d lo hi,
  from_counts [] first last p q a b = Err IndexError /\
  (from_counts counts first last p q a b = Ok d -> value_range first last (List.length counts) lo hi -> (forall k, ~ used counts k) ->
   actual_min d = hi /\ actual_max d = lo).
Proof.
  intros counts first last p q a b d lo hi. split; [reflexivity|]. intros H V U.
  destruct (from_counts_unfold _ _ _ _ _ _ _ _ _ _ H V) as (m & L & A & B & _ & _).
  rewrite first_nonzero_none in A by assumption. rewrite last_nonzero_none in B by (assumption || lia). rewrite A, B. unfold edge.
  split; [|cbn; ring]. field. apply not_0_INR. lia.
Qed.

Example C44_no_pixels_non_vacuous :
  exists d, from_counts [0; 0] (Some 10) (Some 20) (2/100) (98/100) (2/10) (4/10) = Ok d /\ actual_min d = 20 /\ actual_max d = 10.
Proof.
  eexists. split; [reflexivity|].
  refine (proj2 (C44_no_pixels [0; 0] (Some 10) (Some 20) (2/100) (98/100) (2/10) (4/10) _ 10 20) eq_refl _ _).
  - split; [now left|left; split; [reflexivity|lra]].
  - intros k (A & B). cbn in A. destruct k as [|[|k]]; cbn in B; try lra; lia.
Qed.
Print Assumptions C44_no_pixels.

(** A last bucket value of zero counts as not given: values up to zero are taken for values up to
    the number of buckets. *)
Theorem C44_zero_last_value :
  forall counts first p q a b, from_counts counts first (Some 0) p q a b = from_counts counts first None p q a b.
Proof. intros. unfold from_counts, from_counts_with, bucket_value. destruct (Req_EM_T 0 0); [reflexivity|lra]. Qed.
Print Assumptions C44_zero_last_value.
Theorem C44_zero_last_value_refuted :
  ~ (forall counts lo hi p q a b d, from_counts counts (Some lo) (Some hi) p q a b = Ok d -> lo < hi ->
     (exists k, used counts k) -> actual_max d <= hi).
Proof.
  intros H. set (r := from_counts [1; 1] (Some (-1)) (Some 0) (2/100) (98/100) (2/10) (4/10)).
  assert (exists d, r = Ok d) as (d & E) by (eexists; reflexivity).
  specialize (H _ _ _ _ _ _ _ d E ltac:(lra)). assert (U : exists k, used [1; 1] k) by (exists O; split; [cbn; lia|cbn; lra]). specialize (H U).
  assert (V : value_range (Some (-1)) None (List.length [1; 1]) (-1) (INR 2)) by (split; [now left|now right]).
  unfold r in E. rewrite C44_zero_last_value in E. destruct (C44_actual_range _ _ _ _ _ _ _ _ _ _ E V U) as (i & j & _ & J & _ & _ & AX).
  assert (j = 1)%nat as ->. { apply Nat.le_antisymm; [destruct J as ((Hj & _) & _); cbn in Hj; lia|]. apply J. split; [cbn; lia|cbn; lra]. }
  rewrite AX in H. unfold edge in H. cbn in H. lra.
Qed.
Print Assumptions C44_zero_last_value_refuted.

Example C44_non_vacuous :
  (exists d, from_counts [0; 3; 5; 2; 0] (Some 10) (Some 20) (2/100) (98/100) (2/10) (4/10) = Ok d) /\
  value_range (Some 10) (Some 20) 5 10 20 /\ first_used [0; 3; 5; 2; 0] 1 /\ last_used [0; 3; 5; 2; 0] 3 /\
  dominant [0; 0; 9; 0] (2/100) (98/100) 2 /\ ~ (exists k, dominant [0; 3; 5; 2; 0] (2/100) (98/100) k).
Proof.
  split; [eexists; reflexivity|]. split; [split; [now left|left; split; [reflexivity|lra]]|].
  split. { split; [split; [cbn; lia|cbn; lra]|]. intros [|k] (A & B); [cbn in B; lra|lia]. }
  split. { split; [split; [cbn; lia|cbn; lra]|]. intros k (A & B). cbn in A. destruct k as [|[|[|[|[|k]]]]]; try lia. cbn in B. lra. }
  split. { split; [cbn; lia|]. unfold below, total. cbn. lra. }
  intros (k & A & B & C). cbn in A. destruct k as [|[|[|[|[|k]]]]]; try lia; unfold below, total in *; cbn in *; lra.
Qed.

(** ** C45: display normalisation *)
Lemma scale_mono x y k : x <= y -> 0 <= k -> (to_uint8 (clip 0 255 (x * k)) <= to_uint8 (clip 0 255 (y * k)))%Z.
Proof. intros. apply Rfloor_mono, clip_mono, Rmult_le_compat_r; assumption. Qed.
Lemma gain_pos m : 0 < 255 / Rmax m 1.
Proof. apply Rdiv_lt_0_compat; [lra|]. pose proof (Rmax_r m 1). lra. Qed.

(** Min-max: every output is a byte, and the order of the pixels is kept when the differences from
    the tile's own minimum do not overflow the pixel type (always when the band has a minimum). *)
Theorem C45_minmax :
  forall d lo hi pixels out, normalize_band_minmax d lo hi pixels = Ok out ->
  List.length out = List.length pixels /\ Forall byte out /\
  (lo <> None \/ differences_fit d pixels /\ (match d with Integer _ w => 1 <= w | _ => True end)%Z -> order_kept Z.le pixels out).
Proof.
  intros d lo hi pixels out H. unfold normalize_band_minmax in H.
  destruct (match lo with Some _ => _ | None => _ end) as [difference|] eqn:D; [|discriminate]. cbn [bind] in H.
  destruct (match hi with Some _ => _ | None => _ end) as [maximum|]; [|discriminate]. cbn [bind] in H. injection H as <-.
  split; [apply map_length|]. split.
  - apply Forall_forall. intros z Hz. apply in_map_iff in Hz. destruct Hz as (p & <- & _). apply uint8_byte, clip_bounds. lra.
  - intros N. apply map_order. intros p q Hp Hq L. apply scale_mono; [|left; apply gain_pos].
    destruct lo as [m|]; [injection D as <-; lra|]. destruct N as [N|[N W]]; [congruence|].
    destruct (np_min pixels) as [m|] eqn:E; [|discriminate]. injection D as <-. apply np_min_spec in E. destruct E as (I & M).
    rewrite !wrap_fits; try assumption; try (apply N; auto). lra.
Qed.
Print Assumptions C45_minmax.

(** Without a band minimum 16 bit signed tiles can overflow: the brightest pixel comes out black. *)
Theorem C45_minmax_overflow_refuted :
  ~ (forall d lo hi pixels out, normalize_band_minmax d lo hi pixels = Ok out -> (forall p, In p pixels -> fits_type d p) -> order_kept Z.le pixels out).
Proof.
  intros H. assert (E : exists out, normalize_band_minmax (Integer true 16) None None [-30000; 0; 30000] = Ok out /\
                        nth_error out 1 = Some 255%Z /\ nth_error out 2 = Some 0%Z).
  { unfold normalize_band_minmax, np_min, np_max. cbn [fold_left bind].
    replace (Rmin (Rmin (-30000) 0) 30000) with (-30000) by (rewrite !Rmin_left; lra || (rewrite Rmin_left; lra)).
    replace (Rmax (Rmax (-30000) 0) 30000) with 30000 by (rewrite !Rmax_right; lra || (rewrite Rmax_right; lra)).
    replace (Rmax 30000 1) with 30000 by (rewrite Rmax_left; lra). eexists. split; [reflexivity|]. cbn [nth_error List.map].
    replace (0 - -30000) with (IZR 30000) by lra. replace (30000 - -30000) with (IZR 60000) by lra. cbn [wrap]. rewrite !Rfloor_IZR.
    change ((30000 + 2 ^ (16 - 1)) mod 2 ^ 16 - 2 ^ (16 - 1))%Z with 30000%Z.
    change ((60000 + 2 ^ (16 - 1)) mod 2 ^ 16 - 2 ^ (16 - 1))%Z with (-5536)%Z. unfold to_uint8. split; f_equal.
    - replace (30000 * (255 / 30000)) with 255 by lra. rewrite clip_inside by lra. apply (Rfloor_IZR 255).
    - rewrite clip_low by lra. apply (Rfloor_IZR 0). }
  destruct E as (out & E & E1 & E2). specialize (H _ _ _ _ _ E).
  assert (F : forall p, In p [-30000; 0; 30000] -> fits_type (Integer true 16) p).
  { intros p [<-|[<-|[<-|[]]]]; cbn; eexists; (split; [reflexivity|]); cbn; lia. }
  specialize (H F 1%nat 2%nat _ _ _ _ eq_refl eq_refl ltac:(lra) E1 E2). lia.
Qed.
Print Assumptions C45_minmax_overflow_refuted.

(** Black and white of the min-max mode: the band maximum becomes floor(255 (hi - lo) / hi). *)
Theorem C45_minmax_ends :
  forall d lo hi pixels out i p z, normalize_band_minmax d (Some lo) (Some hi) pixels = Ok out -> 1 <= hi -> lo <= hi ->
  nth_error pixels i = Some p -> nth_error out i = Some z ->
  (p <= lo -> z = 0%Z) /\ (p = hi -> 0 < lo -> (z < 255)%Z) /\ (p = hi -> 0 <= lo -> z = Rfloor (255 * (hi - lo) / hi)) /\ (p = hi -> lo <= 0 -> z = 255%Z).
Proof.
  intros d lo hi pixels out i p z H H1 L P Z. injection H as <-. rewrite nth_error_map, P in Z. injection Z as <-.
  rewrite Rmax_left by lra. unfold to_uint8.
  split; [|split; [|split]].
  - intros A. rewrite clip_low; [apply (Rfloor_IZR 0)|lra|]. assert (0 < 255 / hi) by (apply Rdiv_lt_0_compat; lra).
    replace 0 with (0 * (255 / hi)) by ring. apply Rmult_le_compat_r; lra.
  - intros -> A. assert (B : (hi - lo) * (255 / hi) < 255).
    { replace 255 with (hi * (255 / hi)) at 2 by (field; lra). apply Rmult_lt_compat_r; [apply Rdiv_lt_0_compat; lra|lra]. }
    assert (C : 0 <= (hi - lo) * (255 / hi)) by (apply Rmult_le_pos; [lra|left; apply Rdiv_lt_0_compat; lra]).
    rewrite clip_inside by lra. destruct (Rfloor_spec ((hi - lo) * (255 / hi))) as (F & _). apply lt_IZR. lra.
  - intros -> A. assert (B : (hi - lo) * (255 / hi) <= 255).
    { replace 255 with (hi * (255 / hi)) at 2 by (field; lra). apply Rmult_le_compat_r; [left; apply Rdiv_lt_0_compat; lra|lra]. }
    assert (C : 0 <= (hi - lo) * (255 / hi)) by (apply Rmult_le_pos; [lra|left; apply Rdiv_lt_0_compat; lra]).
    rewrite clip_inside by lra. f_equal. field. lra.
  - intros -> A. assert (B : 255 <= (hi - lo) * (255 / hi)).
    { replace 255 with (hi * (255 / hi)) at 1 by (field; lra). apply Rmult_le_compat_r; [left; apply Rdiv_lt_0_compat; lra|lra]. }
    rewrite clip_high by lra. apply (Rfloor_IZR 255).
Qed.
Print Assumptions C45_minmax_ends.

(** Dynamic range adjustment: bytes, in order, with the suggested range on black to white. *)
Theorem C45_dra :
  forall T hist lo hi pixels out, normalize_band_dra T hist lo hi pixels = Ok out ->
  List.length out = List.length pixels /\ Forall byte out /\ order_kept Z.le pixels out.
Proof.
  intros T hist lo hi pixels out H. unfold normalize_band_dra in H.
  destruct (match lo with Some _ => _ | None => _ end) as [minimum|]; [|discriminate]. cbn [bind] in H.
  destruct (match hi with Some _ => _ | None => _ end) as [maximum|]; [|discriminate]. cbn [bind] in H.
  destruct (hist _ _ _) as [counts|]; [|discriminate]. cbn [bind] in H. destruct (from_counts_with _ _ _ _ _ _ _ _) as [d|]; [|discriminate]. cbn [bind] in H.
  injection H as <-. split; [apply map_length|]. split.
  - apply Forall_forall. intros z Hz. apply in_map_iff in Hz. destruct Hz as (p & <- & _). apply uint8_byte, clip_bounds. lra.
  - apply map_order. intros p q Hp Hq L. apply Rfloor_mono, clip_mono. apply Rmult_le_compat_r; [|lra].
    left. apply Rinv_0_lt_compat. pose proof (Rmax_r (suggested_max d - suggested_min d) 1). lra.
Qed.
Print Assumptions C45_dra.

(** The histogram that is asked for has one bucket per whole value, at least 256, unless the difference
    of the tile's own ends overflows the pixel type. *)
Theorem C45_dra_buckets :
  forall T hist lo hi pixels out, normalize_band_dra T hist lo hi pixels = Ok out ->
  lo <> None \/ hi <> None \/ differences_fit T pixels /\ (match T with Integer _ w => 1 <= w | _ => True end)%Z ->
  exists m M counts, hist (Z.max 256 (truncate (M - m))) m M = Ok counts /\
  (lo = Some m \/ lo = None /\ In m pixels /\ forall p, In p pixels -> m <= p) /\ (hi = Some M \/ hi = None /\ In M pixels /\ forall p, In p pixels -> p <= M).
Proof.
  intros T hist lo hi pixels out H C. unfold normalize_band_dra in H.
  assert (L : exists m, match lo with Some m => Ok m | None => np_min pixels end = Ok m /\ (lo = Some m \/ lo = None /\ In m pixels /\ forall p, In p pixels -> m <= p)).
  { destruct lo as [m|]; [exists m; auto|]. destruct (np_min pixels) as [m|] eqn:E; [|discriminate]. exists m. split; [reflexivity|]. apply np_min_spec in E. auto. }
  destruct L as (m & Lm & Sm). rewrite Lm in H. cbn [bind] in H.
  assert (U : exists M, match hi with Some m => Ok m | None => np_max pixels end = Ok M /\ (hi = Some M \/ hi = None /\ In M pixels /\ forall p, In p pixels -> p <= M)).
  { destruct hi as [M|]; [exists M; auto|]. destruct (np_max pixels) as [M|] eqn:E; [|discriminate]. exists M. split; [reflexivity|]. apply np_max_spec in E. auto. }
  destruct U as (M & UM & SM). rewrite UM in H. cbn [bind] in H.
  assert (W : match lo, hi with None, None => wrap T (M - m) | _, _ => M - m end = M - m).
  { destruct lo; [reflexivity|]. destruct hi; [reflexivity|]. destruct Sm as [|(_ & I1 & Q1)]; [discriminate|]. destruct SM as [|(_ & I2 & Q2)]; [discriminate|].
    destruct C as [C|[C|[C Cw]]]; [congruence|congruence|]. apply wrap_fits; [exact Cw|apply C; auto]. }
  rewrite W in H. destruct (hist _ m M) as [counts|] eqn:E; [|discriminate]. exists m, M, counts. auto.
Qed.
Print Assumptions C45_dra_buckets.
(** A tile of 16 bit signed pixels from -30000 to 30000 asks for 256 buckets, not for 60000. *)
Theorem C45_dra_buckets_refuted :
  ~ (forall T hist pixels out, normalize_band_dra T hist None None pixels = Ok out -> (forall p, In p pixels -> fits_type T p) ->
     exists m M counts, hist (Z.max 256 (truncate (M - m))) m M = Ok counts /\ In m pixels /\ In M pixels /\ forall p, In p pixels -> m <= p <= M).
Proof.
  intros H. set (hist := fun (n : Z) (_ _ : R) => if (n =? 256)%Z then Ok (A := list R) [1] else Err OtherError).
  assert (E : exists out, normalize_band_dra (Integer true 16) hist None None [-30000; 30000] = Ok out).
  { unfold normalize_band_dra, np_min, np_max. cbn [fold_left bind]. rewrite (Rmin_left (-30000) 30000), (Rmax_right (-30000) 30000) by lra.
    cbn [wrap]. replace (30000 - -30000) with (IZR 60000) by lra. rewrite Rfloor_IZR.
    change ((60000 + 2 ^ (16 - 1)) mod 2 ^ 16 - 2 ^ (16 - 1))%Z with (-5536)%Z. unfold truncate. destruct (Rlt_dec (-5536) 0); [|lra].
    unfold Rceil. rewrite <- opp_IZR, Rfloor_IZR. cbn. eexists. reflexivity. }
  destruct E as (out & E). destruct (H _ _ _ _ E) as (m & M & counts & A & I1 & I2 & Q).
  { intros p [<-|[<-|[]]]; cbn; eexists; (split; [reflexivity|]); cbn; lia. }
  pose proof (Q (-30000) ltac:(now left)) as [Q1 _]. pose proof (Q 30000 ltac:(right; now left)) as [_ Q2].
  assert (m = -30000) as -> by (destruct I1 as [<-|[<-|[]]]; lra). assert (M = 30000) as -> by (destruct I2 as [<-|[<-|[]]]; lra).
  replace (30000 - -30000) with (IZR 60000) in A by lra. unfold truncate in A. rewrite Rfloor_IZR in A. destruct (Rlt_dec (IZR 60000) 0) as [L|_]; [lra|]. discriminate.
Qed.
Print Assumptions C45_dra_buckets_refuted.

Theorem C45_dra_ends :
  forall T hist lo hi pixels out counts d i p z, normalize_band_dra T hist (Some lo) (Some hi) pixels = Ok out ->
  hist (Z.max 256 (truncate (hi - lo))) lo hi = Ok counts -> from_counts counts (Some lo) (Some hi) (2/100) (97/100) (2/10) (4/10) = Ok d ->
  nth_error pixels i = Some p -> nth_error out i = Some z ->
  (p <= suggested_min d -> z = 0%Z) /\ (suggested_max d <= p -> 1 <= suggested_max d - suggested_min d -> z = 255%Z).
Proof.
  intros T hist lo hi pixels out counts d i p z H Hh Hd P Z. rewrite normalize_band_dra_given in H. rewrite Hh in H. cbn [bind] in H.
  rewrite Hd in H. cbn [bind] in H. injection H as <-. rewrite nth_error_map, P in Z. injection Z as <-. unfold to_uint8.
  set (w := Rmax (suggested_max d - suggested_min d) 1). assert (W : 0 < w) by (pose proof (Rmax_r (suggested_max d - suggested_min d) 1); unfold w; lra).
  assert (Wi : 0 < / w) by now apply Rinv_0_lt_compat. split.
  - intros A. rewrite clip_low; [apply (Rfloor_IZR 0)|lra|]. replace 0 with (0 * / w) by ring. unfold Rdiv. apply Rmult_le_compat_r; lra.
  - intros A B. assert (E : w = suggested_max d - suggested_min d) by (unfold w; now rewrite Rmax_left by lra).
    rewrite clip_high; [apply (Rfloor_IZR 255)|lra|]. rewrite E. apply Rmult_le_reg_r with (suggested_max d - suggested_min d); [lra|].
    unfold Rdiv. rewrite Rmult_assoc, Rinv_l by lra. lra.
Qed.
Print Assumptions C45_dra_ends.

(** In between both mappings are linear. *)
Theorem C45_values :
  (forall d lo hi pixels out i p z, normalize_band_minmax d (Some lo) (Some hi) pixels = Ok out -> 1 <= hi ->
   nth_error pixels i = Some p -> nth_error out i = Some z -> lo <= p <= lo + hi -> z = Rfloor (255 * (p - lo) / hi)) /\
  (forall T hist lo hi pixels out counts d i p z, normalize_band_dra T hist (Some lo) (Some hi) pixels = Ok out ->
   hist (Z.max 256 (truncate (hi - lo))) lo hi = Ok counts -> from_counts counts (Some lo) (Some hi) (2/100) (97/100) (2/10) (4/10) = Ok d ->
   nth_error pixels i = Some p -> nth_error out i = Some z -> 1 <= suggested_max d - suggested_min d ->
   suggested_min d <= p <= suggested_max d -> z = Rfloor (255 * (p - suggested_min d) / (suggested_max d - suggested_min d))).
Proof.
  assert (F : forall x w, 0 < w -> 0 <= x <= w -> 0 <= 255 * x / w <= 255).
  { intros x w W X. assert (0 < / w) by now apply Rinv_0_lt_compat. unfold Rdiv. split; [repeat apply Rmult_le_pos; lra|].
    apply Rmult_le_reg_r with w; [exact W|]. rewrite Rmult_assoc, Rinv_l by lra. lra. }
  split.
  - intros d lo hi pixels out i p z H H1 P Z B. injection H as <-. rewrite nth_error_map, P in Z. injection Z as <-.
    rewrite Rmax_left by lra. unfold to_uint8. replace ((p - lo) * (255 / hi)) with (255 * (p - lo) / hi) by (field; lra).
    rewrite clip_inside; [reflexivity|apply F; lra].
  - intros T hist lo hi pixels out counts d i p z H Hh Hd P Z W B. rewrite normalize_band_dra_given in H. rewrite Hh in H. cbn [bind] in H.
    rewrite Hd in H. cbn [bind] in H. injection H as <-. rewrite nth_error_map, P in Z. injection Z as <-. unfold to_uint8.
    rewrite Rmax_left by lra. rewrite clip_inside; [reflexivity|apply F; lra].
Qed.

(** Four equally full buckets from 0 to 4: the suggested range is 0 to 2.8. *)
Lemma four_buckets : from_counts [1; 1; 1; 1] (Some 0) (Some 4) (2/100) (97/100) (2/10) (4/10) = Ok (mkDra 0 (28/10) 0 3).
Proof.
  unfold from_counts, from_counts_with. cbn. unfold bucket_value. decide_reals.
  cbn [INR]. f_equal. f_equal; [rewrite Rmax_left by lra|rewrite Rmin_right by lra| |]; lra.
Qed.
Example C45_dra_non_vacuous :
  exists out, normalize_band_dra (Integer false 8) (fun _ _ _ => Ok [1; 1; 1; 1]) (Some 0) (Some 4) [0; 1; 2; 3] = Ok out /\
  nth_error out 0 = Some 0%Z /\ nth_error out 1 = Some 91%Z /\ nth_error out 3 = Some 255%Z.
Proof.
  set (h := fun _ _ _ => _). eexists. split; [reflexivity|]. set (out := List.map _ _).
  assert (L : List.length out = 4%nat) by reflexivity.
  assert (N : forall i, (i < 4)%nat -> exists z, nth_error out i = Some z).
  { intros i I. destruct (nth_error out i) eqn:E; [now exists z|]. apply nth_error_None in E. lia. }
  destruct (N 0%nat ltac:(lia)) as (x & X), (N 1%nat ltac:(lia)) as (y & Y), (N 3%nat ltac:(lia)) as (z & Z).
  rewrite X, Y, Z.
  destruct (C45_dra_ends (Integer false 8) h 0 4 [0; 1; 2; 3] out [1; 1; 1; 1] _ 0 0 x eq_refl eq_refl four_buckets eq_refl X) as (A & _).
  destruct (C45_dra_ends (Integer false 8) h 0 4 [0; 1; 2; 3] out [1; 1; 1; 1] _ 3 3 z eq_refl eq_refl four_buckets eq_refl Z) as (_ & B).
  pose proof (proj2 C45_values (Integer false 8) h 0 4 [0; 1; 2; 3] out [1; 1; 1; 1] _ 1%nat 1 y eq_refl eq_refl four_buckets eq_refl Y) as C.
  cbn [suggested_min suggested_max] in *. rewrite A, B, C by lra. split; [reflexivity|]. split; [|reflexivity]. f_equal. apply Rfloor_unique. lra.
Qed.

(** A tile's own range serves as well as the same range given by the band, as long as the pixels'
    differences fit in the pixel type. *)
Theorem C45_dra_own_range :
  forall T hist pixels m M, differences_fit T pixels -> (match T with Integer _ w => 1 <= w | _ => True end)%Z ->
  In m pixels -> In M pixels -> (forall p, In p pixels -> m <= p <= M) -> M <> 0 ->
  normalize_band_dra T hist None None pixels = normalize_band_dra T hist (Some m) (Some M) pixels.
Proof.
  intros T hist pixels m M D W Im IM B N.
  assert (np_min pixels = Ok m) as Lo.
  { destruct (np_min pixels) as [x|] eqn:E; [|destruct pixels; [destruct Im|discriminate]]. apply np_min_spec in E as [I Q].
    f_equal. apply Rle_antisym; [now apply Q|now apply B]. }
  assert (np_max pixels = Ok M) as Hi.
  { destruct (np_max pixels) as [x|] eqn:E; [|destruct pixels; [destruct Im|discriminate]]. apply np_max_spec in E as [I Q].
    f_equal. apply Rle_antisym; [now apply B|now apply Q]. }
  assert (wrap T (M - m) = M - m) as Wr by (apply wrap_fits; [exact W|apply D; auto; now apply B]).
  unfold normalize_band_dra. rewrite Lo, Hi. cbn [bind]. rewrite Wr. destruct (hist _ m M) as [counts|]; [|reflexivity]. cbn [bind].
  replace (from_counts_with (fun x y => wrap T (x - y)) counts) with (fun first last p q a b =>
    from_counts_with (fun x y => wrap T (x - y)) counts first last p q a b) by reflexivity.
  assert (from_counts_with (fun x y => wrap T (x - y)) counts (Some m) (Some M) (2/100) (97/100) (2/10) (4/10) =
          from_counts_with (fun x y => x - y) counts (Some m) (Some M) (2/100) (97/100) (2/10) (4/10)) as ->; [|reflexivity].
  unfold from_counts_with. destruct (List.length counts) as [|k]; [reflexivity|]. cbv zeta.
  replace (bucket_value (Some M) (INR (S k))) with M by (cbn; destruct (Req_EM_T M 0); [contradiction|reflexivity]).
  replace (bucket_value (Some m) 0) with m by (cbn; destruct (Req_EM_T m 0); auto). rewrite Wr. reflexivity.
Qed.

Print Assumptions C45_dra_own_range.
Example C45_dra_own_range_non_vacuous : let pixels := [3; 7; 4] in
  differences_fit (Integer false 8) pixels /\ In 3 pixels /\ In 7 pixels /\ (forall p, In p pixels -> 3 <= p <= 7) /\ 7 <> 0.
Proof.
  cbv zeta. split; [|split; [now left|split; [right; now left|split; [|lra]]]].
  - intros p q [<-|[<-|[<-|[]]]] [<-|[<-|[<-|[]]]] L; try lra; cbn; rewrite <- minus_IZR; eexists; (split; [reflexivity|]); cbn; lia.
  - intros p [<-|[<-|[<-|[]]]]; lra.
Qed.

Lemma four_buckets_with minus m M : m <> 0 -> M <> 0 ->
  from_counts_with minus [1; 1; 1; 1] (Some m) (Some M) (2/100) (97/100) (2/10) (4/10) =
  Ok (mkDra (0 * (minus M m / 4) + m) (28/10 * (minus M m / 4) + m) (0 * (minus M m / 4) + m) (3 * (minus M m / 4) + m)).
Proof.
  intros N1 N2. unfold from_counts_with. cbn. unfold bucket_value. decide_reals.
  repeat (match goal with |- context [Req_EM_T ?a ?b] => destruct (Req_EM_T a b); try contradiction; try lra end).
  cbn [INR]. f_equal. f_equal; [rewrite Rmax_left by lra|rewrite Rmin_right by lra| |]; lra.
Qed.

Lemma shade_is x z : (0 <= z <= 254)%Z -> IZR z <= x < IZR z + 1 -> to_uint8 (clip 0 255 x) = z.
Proof.
  intros Z X. apply Rfloor_unique. pose proof (IZR_le 0 z ltac:(lia)). pose proof (IZR_le z 254 ltac:(lia)).
  unfold clip. rewrite Rmax_left, Rmin_left by lra. lra.
Qed.
Lemma white x : 255 <= x -> to_uint8 (clip 0 255 x) = 255%Z.
Proof. intros X. unfold clip. rewrite Rmax_left, Rmin_right by lra. exact (Rfloor_IZR 255). Qed.

(** Otherwise the width of a bucket wraps around.  A signed 16 bit tile from -30000 to 30000 gets
    buckets of negative width, and every pixel above the darkest one is shown white. *)
Theorem C45_dra_own_range_refuted :
  exists hist out given, normalize_band_dra (Integer true 16) hist None None [-30000; -10000; 30000] = Ok out /\
  normalize_band_dra (Integer true 16) hist (Some (-30000)) (Some 30000) [-30000; -10000; 30000] = Ok given /\
  (forall p, In p [-30000; -10000; 30000] -> fits_type (Integer true 16) p) /\
  out = [0; 255; 255]%Z /\ given = [0; 121; 255]%Z.
Proof.
  exists (fun _ _ _ => Ok [1; 1; 1; 1]). eexists. eexists. split; [|split; [|split; [|split]]].
  - unfold normalize_band_dra, np_min, np_max. cbn [fold_left bind].
    rewrite (Rmin_left (-30000) (-10000)), (Rmin_left (-30000) 30000), (Rmax_right (-30000) (-10000)), (Rmax_right (-10000) 30000) by lra.
    rewrite four_buckets_with by lra. cbn [bind]. reflexivity.
  - unfold normalize_band_dra. cbn [bind]. rewrite four_buckets_with by lra. cbn [bind]. reflexivity.
  - intros p [<-|[<-|[<-|[]]]]; cbn; eexists; (split; [reflexivity|]); cbn; lia.
  - cbn [wrap]. replace (30000 - -30000) with (IZR 60000) by lra. rewrite Rfloor_IZR.
    change ((60000 + 2 ^ (16 - 1)) mod 2 ^ 16 - 2 ^ (16 - 1))%Z with (-5536)%Z. cbn [List.map suggested_min suggested_max].
    rewrite Rmax_right by lra.
    rewrite (white (255 * (-10000 - _) / 1)), (white (255 * (30000 - _) / 1)) by lra. rewrite shade_is with (z := 0%Z) by (try lra; lia). reflexivity.
  - cbn [List.map suggested_min suggested_max]. rewrite Rmax_left by lra. rewrite (white (255 * (30000 - _) / _)) by lra.
    rewrite shade_is with (z := 0%Z) by (try lra; lia). rewrite shade_is with (z := 121%Z) by (try lra; lia). reflexivity.
Qed.
Print Assumptions C45_dra_own_range_refuted.
Print Assumptions C45_values.

(** Bands without pixels have no minimum, and an image without bands has no shape. *)
Theorem C45_empty :
  forall adjust d stats lo hi hist, normalize_image adjust d stats lo hi hist [] = Err IndexError /\
  normalize_band_minmax d None (Some 1) [] = Err ValueError /\ normalize_band_minmax d (Some 0) None [] = Err ValueError /\
  normalize_band_dra d (hist O) None (Some 1) [] = Err ValueError /\ normalize_band_dra d (hist O) (Some 0) None [] = Err ValueError /\
  linear_mapping [] = Err ValueError.
Proof. intros adjust d stats lo hi hist. destruct adjust; repeat split. Qed.
Print Assumptions C45_empty.

(** Whatever the mode, whole images of one or at least three bands become byte channels. *)
Theorem C45_image :
  forall adjust d stats lo hi hist bands l, normalize_image adjust d stats lo hi hist bands = Ok (Channels l) ->
  Forall (Forall byte) l /\
  match adjust with NoAdjustment => List.length l = List.length bands | _ => List.length l = Nat.min 3 (List.length bands) end.
Proof.
  intros adjust d stats lo hi hist bands l H.
  assert (G : forall normalize, (forall n b c, normalize n b = Ok c -> Forall byte c) -> normalize_bands d stats normalize bands = Ok (Channels l) ->
              Forall (Forall byte) l /\ List.length l = Nat.min 3 (List.length bands)).
  { intros normalize N E. destruct bands as [|b1 [|b2 [|b3 r]]]; cbn [normalize_bands] in E; [discriminate| | |].
    - destruct (normalize 1%nat b1) as [c|] eqn:E1; [|discriminate]. injection E as <-. split; [|reflexivity]. repeat constructor. eauto.
    - destruct (sar_image _ _ _ _ _); discriminate.
    - destruct (normalize 1%nat b1) as [c1|] eqn:E1; [|discriminate]. cbn [bind] in E.
      destruct (normalize 2%nat b2) as [c2|] eqn:E2; [|discriminate]. cbn [bind] in E.
      destruct (normalize 3%nat b3) as [c3|] eqn:E3; [|discriminate]. injection E as <-. split; [|reflexivity]. repeat constructor; eauto. }
  destruct adjust; cbn [normalize_image] in H.
  - assert (l = List.map (List.map low_byte) bands) as -> by (destruct bands; [discriminate|now injection H]). split; [|apply map_length].
    apply Forall_forall. intros c Hc. apply in_map_iff in Hc. destruct Hc as (b & <- & _). apply Forall_forall. intros z Hz. apply in_map_iff in Hz.
    destruct Hz as (x & <- & _). unfold byte, low_byte. pose proof (Z.mod_pos_bound (Rfloor x) 256 eq_refl). lia.
  - apply G in H; [exact H|]. intros n b c E. now apply C45_minmax in E.
  - apply G in H; [exact H|]. intros n b c E. now apply C45_dra in E.
Qed.
Print Assumptions C45_image.

(** Channel [k] shows band [k], by that band's own statistics and histogram. *)
Theorem C45_channels :
  forall adjust d stats lo hi hist bands l k c,
  normalize_image adjust d stats lo hi hist bands = Ok (Channels l) -> nth_error l k = Some c ->
  exists b, nth_error bands k = Some b /\
  match adjust with
  | NoAdjustment => c = List.map low_byte b
  | MinMax => normalize_band_minmax d (lo (S k)) (hi (S k)) b = Ok c
  | DRA => normalize_band_dra d (hist (S k)) (lo (S k)) (hi (S k)) b = Ok c
  end.
Proof.
  intros adjust d stats lo hi hist bands l k c H K.
  assert (G : forall normalize, normalize_bands d stats normalize bands = Ok (Channels l) ->
              exists b, nth_error bands k = Some b /\ normalize (S k) b = Ok c).
  { intros normalize E. destruct bands as [|b1 [|b2 [|b3 r]]]; cbn [normalize_bands] in E; [discriminate| | |].
    - destruct (normalize 1%nat b1) as [c1|] eqn:E1; [|discriminate]. injection E as <-. destruct k as [|[|k]]; try discriminate. injection K as <-. exists b1. split; [reflexivity|exact E1].
    - destruct (sar_image _ _ _ _ _); discriminate.
    - destruct (normalize 1%nat b1) as [c1|] eqn:E1; [|discriminate]. cbn [bind] in E.
      destruct (normalize 2%nat b2) as [c2|] eqn:E2; [|discriminate]. cbn [bind] in E.
      destruct (normalize 3%nat b3) as [c3|] eqn:E3; [|discriminate]. injection E as <-.
      destruct k as [|[|[|[|k]]]]; try discriminate; injection K as <-; [exists b1|exists b2|exists b3]; (split; [reflexivity|assumption]). }
  destruct adjust; cbn [normalize_image] in H.
  - assert (l = List.map (List.map low_byte) bands) as -> by (destruct bands; [discriminate|now injection H]).
    rewrite nth_error_map in K. destruct (nth_error bands k) as [b|]; [|discriminate]. injection K as <-. eauto.
  - exact (G _ H).
  - exact (G _ H).
Qed.

Example C45_image_non_vacuous :
  exists c1 c2 c3, normalize_image MinMax (Integer false 16) [] (fun _ => Some 100) (fun _ => Some 200) (fun _ _ _ _ => Err ValueError)
    [[100; 200]; [150; 150]; [200; 100]; [9; 9]] = Ok (Channels [c1; c2; c3]).
Proof. do 3 eexists. reflexivity. Qed.
Print Assumptions C45_channels.

(** Without adjustment only the low byte is shown: eight bit images are unchanged, in others a
    brighter pixel can become darker. *)
Theorem C45_no_adjustment :
  (forall z, byte z -> low_byte (IZR z) = z) /\ ~ (forall x y, x <= y -> (low_byte x <= low_byte y)%Z).
Proof.
  split.
  - intros z B. unfold byte in B. unfold low_byte. rewrite Rfloor_IZR. apply Z.mod_small. lia.
  - intros H. specialize (H 255 256 ltac:(lra)). unfold low_byte in H. rewrite (Rfloor_IZR 255), (Rfloor_IZR 256) in H. cbn in H. lia.
Qed.
Print Assumptions C45_no_adjustment.

Example C45_non_vacuous :
  normalize_band_minmax (Integer false 16) (Some 100) (Some 200) [100; 200] = Ok [0; 127]%Z /\
  differences_fit (Integer false 16) [3; 1000] /\
  exists out, normalize_band_dra (Integer false 8) (fun _ _ _ => Ok [1; 1; 1; 1]) (Some 0) (Some 4) [0; 1; 2; 3] = Ok out.
Proof.
  split; [|split; [|eexists; reflexivity]].
  - unfold normalize_band_minmax. cbn [bind List.map]. rewrite Rmax_left by lra. unfold to_uint8. rewrite clip_low by lra. rewrite clip_inside by lra.
    rewrite (Rfloor_IZR 0). do 3 f_equal. rewrite (Rfloor_unique _ 127) by lra. reflexivity.
  - intros p q [<-|[<-|[]]] [<-|[<-|[]]] L; try lra; cbn; [exists 0%Z|exists 997%Z|exists 0%Z]; (split; [lra|cbn; lia]).
Qed.

(** ** C63: SAR pixels *)
Theorem C63_complex :
  forall table p a z, pixel_to_complex (Some "AMP8I_PHS8I"%string) table p = Ok z ->
  match table with None => a = fst p | Some l => nth_error l (Z.to_nat (Rfloor (fst p))) = Some a end ->
  fst z * fst z + snd z * snd z = a * a /\ z = (a * cos (2 * PI * (snd p / 256)), a * sin (2 * PI * (snd p / 256))).
Proof.
  intros table p a z H T. cbn in H. assert (z = (a * cos (2 * PI * (snd p / 256)), a * sin (2 * PI * (snd p / 256)))) as ->.
  { destruct table as [l|]; [rewrite T in H|rewrite T]; cbn in H; now injection H. }
  split; [|reflexivity]. cbn [fst snd]. set (t := 2 * PI * (snd p / 256)). pose proof (sin2_cos2 t) as S. unfold Rsqr in S.
  replace (a * cos t * (a * cos t) + a * sin t * (a * sin t)) with (a * a * (sin t * sin t + cos t * cos t)) by ring. rewrite S. ring.
Qed.
Print Assumptions C63_complex.

Theorem C63_pixel_types :
  forall t table p,
  pixel_to_complex None table p = Ok p /\ pixel_to_complex (Some "RE32F_IM32F"%string) table p = Ok p /\ pixel_to_complex (Some "RE16I_IM16I"%string) table p = Ok p /\
  (t <> "RE32F_IM32F" -> t <> "RE16I_IM16I" -> t <> "AMP8I_PHS8I" -> pixel_to_complex (Some t) table p = Err ValueError)%string /\
  (forall l, table = Some l -> nth_error l (Z.to_nat (Rfloor (fst p))) = None -> pixel_to_complex (Some "AMP8I_PHS8I"%string) table p = Err IndexError).
Proof.
  intros t table p. repeat split.
  - intros A B C. cbn. apply String.eqb_neq in A, B, C. now rewrite A, B, C.
  - intros l -> H. cbn. now rewrite H.
Qed.
Print Assumptions C63_pixel_types.

Theorem C63_power :
  forall d p, fits_type d (fst p * fst p) -> fits_type d (snd p * snd p) -> (match d with Integer _ w => 1 <= w | _ => True end)%Z ->
  power_value d p = fst p * fst p + snd p * snd p.
Proof. intros d p A B W. unfold power_value. now rewrite !wrap_fits. Qed.
Print Assumptions C63_power.

(** 16 bit SAR pixels: exact up to a magnitude of 181 per component, wrong beyond. *)
Theorem C63_power_16bit :
  forall x y : Z, (-32768 <= x <= 32767)%Z -> (-32768 <= y <= 32767)%Z ->
  ((Z.abs x <= 181)%Z -> (Z.abs y <= 181)%Z -> power_value (Integer true 16) (IZR x, IZR y) = IZR (x * x + y * y)) /\
  ((181 < Z.abs x)%Z \/ (181 < Z.abs y)%Z -> power_value (Integer true 16) (IZR x, IZR y) < IZR (x * x + y * y)).
Proof.
  intros x y Hx Hy. unfold power_value. cbn [fst snd wrap]. rewrite <- !mult_IZR, !Rfloor_IZR, <- plus_IZR.
  change (2 ^ (16 - 1))%Z with 32768%Z. change (2 ^ 16)%Z with 65536%Z.
  assert (Sm : forall v, (Z.abs v <= 181)%Z -> ((v * v + 32768) mod 65536 - 32768 = v * v)%Z) by (intros; rewrite Z.mod_small; nia).
  assert (Le : forall v, ((v * v + 32768) mod 65536 - 32768 <= v * v)%Z).
  { intros v. pose proof (Z.mod_le (v * v + 32768) 65536 ltac:(nia) ltac:(lia)). lia. }
  assert (Lt : forall v, (181 < Z.abs v)%Z -> ((v * v + 32768) mod 65536 - 32768 < v * v)%Z).
  { intros v H. pose proof (Z.mod_pos_bound (v * v + 32768) 65536 ltac:(lia)). nia. }
  split.
  - intros A B. now rewrite !Sm by assumption.
  - intros [A|A]; apply IZR_lt; [pose proof (Lt x A); pose proof (Le y)|pose proof (Lt y A); pose proof (Le x)]; lia.
Qed.
Print Assumptions C63_power_16bit.

Theorem C63_decibels :
  forall p q, 0 < p -> 0 < q -> (p <= q <-> decibels p <= decibels q) /\ decibels (10 * p) = decibels p + 10 /\ decibels (p * q) = decibels p + decibels q.
Proof.
  intros p q P Q. unfold decibels. assert (L : 0 < ln 10) by (rewrite <- ln_1; apply ln_increasing; lra).
  split; [split|split].
  - intros H. apply Rmult_le_compat_l; [lra|]. apply Rmult_le_compat_r; [left; now apply Rinv_0_lt_compat|].
    destruct H as [H| ->]; [left; now apply ln_increasing|right; reflexivity].
  - intros H. apply Rnot_lt_le. intros F. apply (ln_increasing q p Q) in F. apply (Rmult_lt_compat_r (/ ln 10)) in F; [|now apply Rinv_0_lt_compat]. unfold Rdiv in H. lra.
  - rewrite ln_mult by lra. field. lra.
  - rewrite ln_mult by lra. field. lra.
Qed.
Print Assumptions C63_decibels.

Theorem C63_linear_mapping :
  forall l out, linear_mapping l = Ok out ->
  List.length out = List.length l /\ Forall (fun v => 0 <= v <= 1) out /\ order_kept Rle l out /\
  (forall i p v, nth_error l i = Some p -> nth_error out i = Some v ->
     (exists q, In q l /\ q <> p) ->
     ((forall q, In q l -> p <= q) -> v = 0) /\ ((forall q, In q l -> q <= p) -> v = 1)) /\
  ((forall p q, In p l -> In q l -> p = q) -> Forall (fun v => v = 1/2) out).
Proof.
  intros l out H. unfold linear_mapping in H. destruct (np_min l) as [lo|] eqn:Elo; [|discriminate]. cbn [bind] in H.
  destruct (np_max l) as [hi|] eqn:Ehi; [|discriminate]. cbn [bind] in H. injection H as <-.
  apply np_min_spec in Elo. apply np_max_spec in Ehi. destruct Elo as (Ilo & Mlo). destruct Ehi as (Ihi & Mhi).
  destruct (Req_EM_T hi lo) as [E|E].
  - split; [apply map_length|]. split; [apply Forall_forall; intros v Hv; apply in_map_iff in Hv; destruct Hv as (? & <- & _); lra|].
    split; [apply map_order_R; intros; lra|]. split.
    + intros i p v Hp Hv (q & Iq & N). exfalso. apply N. pose proof (nth_error_In _ _ Hp) as Ip.
      pose proof (Mlo p Ip). pose proof (Mhi p Ip). pose proof (Mlo q Iq). pose proof (Mhi q Iq). lra.
    + intros _. apply Forall_forall. intros v Hv. apply in_map_iff in Hv. now destruct Hv as (? & <- & _).
  - assert (W : 0 < hi - lo) by (pose proof (Mlo hi Ihi); lra).
    split; [apply map_length|]. split; [apply Forall_forall; intros v Hv; apply in_map_iff in Hv; destruct Hv as (? & <- & _); apply clip_bounds; lra|].
    split; [apply map_order_R; intros; apply clip_mono; apply Rmult_le_compat_r; [left; now apply Rinv_0_lt_compat|lra]|]. split.
    + intros i p v Hp Hv _. pose proof (nth_error_In _ _ Hp) as Ip. rewrite nth_error_map, Hp in Hv. injection Hv as <-. split; intros M.
      * assert (p = lo) as -> by (pose proof (M lo Ilo); pose proof (Mlo p Ip); lra). rewrite clip_inside; [field; lra|].
        replace ((lo - lo) / (hi - lo)) with 0 by (field; lra). lra.
      * assert (p = hi) as -> by (pose proof (M hi Ihi); pose proof (Mhi p Ip); lra).
        replace ((hi - lo) / (hi - lo)) with 1 by (field; lra). rewrite clip_inside; lra.
    + intros C. elim E. now apply C.
Qed.
Print Assumptions C63_linear_mapping.

(** Both eight bit mappings: bounded, in order, white exactly from [scale] times the mean on. *)
Theorem C63_histogram_stretch :
  forall scale l, 0 < scale -> 0 < average l -> exists out, histogram_stretch scale l = Some out /\
  List.length out = List.length l /\ Forall (fun v => 0 <= v <= 255) out /\ order_kept Rle l out /\
  forall i v x, nth_error l i = Some v -> nth_error out i = Some x -> (x = 255 <-> scale * average l <= v) /\ (x = 0 <-> v <= 0) /\
    (0 <= v <= scale * average l -> x = 255 * v / (scale * average l)).
Proof.
  intros scale l Sc Av. unfold histogram_stretch. assert (M : np_mean l = Some (average l)).
  { destruct l; [unfold average in Av; cbn in Av; unfold Rdiv in Av; rewrite Rinv_0 in Av || idtac; lra|]. unfold np_mean. now rewrite sum_total. }
  rewrite M. set (m := average l) in *. assert (P : 0 < scale * m) by now apply Rmult_lt_0_compat. destruct (Req_EM_T (scale * m) 0); [lra|].
  set (k := scale * m) in *. assert (K : 0 < / k) by now apply Rinv_0_lt_compat.
  assert (Mo : forall p q, p <= q -> 255 * (1 / k) * p <= 255 * (1 / k) * q).
  { intros p q L. unfold Rdiv. rewrite Rmult_1_l. apply Rmult_le_compat_l; [lra|exact L]. }
  eexists. split; [reflexivity|]. split; [apply map_length|]. split.
  { apply Forall_forall. intros v Hv. apply in_map_iff in Hv. destruct Hv as (? & <- & _). apply clip_bounds. lra. }
  split; [apply map_order_R; intros; now apply clip_mono, Mo|].
  intros i v x Hv Hx. rewrite nth_error_map, Hv in Hx. injection Hx as <-.
  assert (W : 255 * (1 / k) * k = 255) by (field; lra).
  assert (St : forall p q, p < q -> 255 * (1 / k) * p < 255 * (1 / k) * q).
  { intros p q L. unfold Rdiv. rewrite Rmult_1_l. apply Rmult_lt_compat_l; [lra|exact L]. }
  split; [split|split; [split|]].
  - intros E. apply Rnot_lt_le. intros L. apply St in L. rewrite W in L. unfold clip, Rmin, Rmax in E. destruct (Rle_dec _ 0); destruct (Rle_dec _ 255); lra.
  - intros L. apply Mo in L. rewrite W in L. apply clip_high; lra.
  - intros E. apply Rnot_lt_le. intros L. apply St in L. rewrite Rmult_0_r in L. unfold clip, Rmin, Rmax in E. destruct (Rle_dec _ 0); destruct (Rle_dec _ 255); lra.
  - intros L. apply Mo in L. rewrite Rmult_0_r in L. apply clip_low; lra.
  - intros [A B]. apply Mo in A, B. rewrite Rmult_0_r in A. rewrite W in B. rewrite clip_inside by lra. field. lra.
Qed.
Print Assumptions C63_histogram_stretch.

Theorem C63_quarter_power :
  forall scale precomputed l mean, 0 < scale -> 0 < mean ->
  match precomputed with Some m => m = mean | None => l <> [] /\ average (List.map (fun v => sqrt (Rabs v)) l) = mean end ->
  exists out, quarter_power scale precomputed l = Some out /\
  List.length out = List.length l /\ Forall (fun v => 0 <= v <= 255) out /\
  ((forall v, In v l -> 0 <= v) -> order_kept Rle l out) /\
  forall i v x, nth_error l i = Some v -> nth_error out i = Some x ->
    x = Rmin 255 (255 * sqrt (Rabs v) / (scale * mean)).
Proof.
  intros scale pre l mean Sc Me Pr. unfold quarter_power. set (roots := List.map _ l).
  assert (M : match pre with Some m => Some m | None => np_mean roots end = Some mean).
  { destruct pre as [m|]; [now subst|]. destruct Pr as (N & <-). unfold np_mean. destruct l; [congruence|]. subst roots. cbn [List.map]. now rewrite sum_total. }
  rewrite M. assert (P : 0 < scale * mean) by now apply Rmult_lt_0_compat. destruct (Req_EM_T (scale * mean) 0); [lra|].
  set (k := scale * mean) in *. assert (K : 0 < / k) by now apply Rinv_0_lt_compat.
  assert (Mo : forall p q, p <= q -> 255 * (1 / k) * p <= 255 * (1 / k) * q).
  { intros p q L. unfold Rdiv. rewrite Rmult_1_l. apply Rmult_le_compat_l; [lra|exact L]. }
  subst roots. rewrite map_map. eexists. split; [reflexivity|]. split; [apply map_length|]. split.
  { apply Forall_forall. intros v Hv. apply in_map_iff in Hv. destruct Hv as (? & <- & _). apply clip_bounds. lra. }
  split.
  { intros NN. apply map_order_R. intros p q Ip Iq L. apply clip_mono, Mo, sqrt_le_1_alt. rewrite !Rabs_right; auto using Rle_ge. }
  intros i v x Hv Hx. rewrite nth_error_map, Hv in Hx. injection Hx as <-. pose proof (Mo 0 _ (sqrt_pos (Rabs v))) as Z. rewrite Rmult_0_r in Z.
  unfold clip. rewrite Rmax_left by exact Z. rewrite Rmin_comm. f_equal. field. lra.
Qed.

Example C63_quarter_power_non_vacuous :
  histogram_stretch 2 [1; 3] = Some [255 / 4; 3 * 255 / 4] /\ quarter_power 2 None [4; 16] = Some [85; 170] /\ quarter_power 2 (Some 2) [4; 25] = Some [255 / 2; 255].
Proof.
  assert (S4 : sqrt (Rabs 4) = 2) by (rewrite Rabs_right by lra; replace 4 with (2 * 2) by lra; apply sqrt_square; lra).
  assert (S16 : sqrt (Rabs 16) = 4) by (rewrite Rabs_right by lra; replace 16 with (4 * 4) by lra; apply sqrt_square; lra).
  assert (S25 : sqrt (Rabs 25) = 5) by (rewrite Rabs_right by lra; replace 25 with (5 * 5) by lra; apply sqrt_square; lra).
  assert (two : forall (l : option (list R)) out a b, l = Some out -> List.length out = 2%nat -> (forall x, nth_error out 0 = Some x -> x = a) -> (forall x, nth_error out 1 = Some x -> x = b) -> l = Some [a; b]).
  { intros l out a b -> L A B. destruct out as [|x [|y [|]]]; try discriminate L. now rewrite (A x eq_refl), (B y eq_refl). }
  split; [|split].
  - destruct (C63_histogram_stretch 2 [1; 3]) as (out & E & L & _ & _ & V); [lra|unfold average, total; cbn; lra|].
    apply (two _ _ _ _ E L); intros x X; [rewrite (proj2 (proj2 (V 0%nat 1 x eq_refl X)))|rewrite (proj2 (proj2 (V 1%nat 3 x eq_refl X)))]; unfold average, total; cbn; lra.
  - destruct (C63_quarter_power 2 None [4; 16] 3) as (out & E & L & _ & _ & V); try lra; [split; [discriminate|unfold average, total; cbn -[sqrt]; rewrite S4, S16; lra]|].
    apply (two _ _ _ _ E L); intros x X; [rewrite (V 0%nat 4 x eq_refl X), S4|rewrite (V 1%nat 16 x eq_refl X), S16]; rewrite Rmin_right by lra; lra.
  - destruct (C63_quarter_power 2 (Some 2) [4; 25] 2) as (out & E & L & _ & _ & V); try lra.
    apply (two _ _ _ _ E L); intros x X; [rewrite (V 0%nat 4 x eq_refl X), S4; rewrite Rmin_right by lra; lra|rewrite (V 1%nat 25 x eq_refl X), S25; rewrite Rmin_left by lra; lra].
Qed.
Print Assumptions C63_quarter_power.

(** Two bands are taken for a complex SAR image; the result is within 0..255 but is not converted to
    bytes.  A pixel is 255 times the root of its power over three times the mean amplitude: that of
    the band statistics, the root of the sum of the squares of mean plus 50/68 deviation, else that
    of the pixels. *)
Theorem C45_two_bands :
  forall d stats normalize re im, exists i, normalize_bands d stats normalize [re; im] = Ok (PowerImage i) /\
  (forall l v, i = Some l -> In v l -> 0 <= v <= 255) /\
  let powers := List.map (power_value d) (combine re im) in
  forall mean, 0 < mean ->
  (stats <> [] -> mean * mean = total (List.map (fun s => (fst s + snd s * 50 / 68) ^ 2) stats)) ->
  (stats = [] -> powers <> [] /\ mean = average (List.map (fun v => sqrt (Rabs v)) powers)) ->
  exists l, i = Some l /\ List.length l = List.length powers /\
  forall k v x, nth_error powers k = Some v -> nth_error l k = Some x -> x = Rmin 255 (255 * sqrt (Rabs v) / (3 * mean)).
Proof.
  intros d stats normalize re im. exists (quarter_power 3 (sar_mean stats) (List.map (power_value d) (combine re im))). split.
  { unfold normalize_bands, sar_image. rewrite (map_res_all (fun p => p)) by reflexivity. now rewrite map_id. }
  split.
  - intros l v H I. unfold quarter_power in H.
    destruct (match sar_mean stats with Some _ => _ | None => _ end) as [mean|]; [|discriminate]. destruct (Req_EM_T _ 0); [discriminate|].
    injection H as <-. apply in_map_iff in I. destruct I as (r & <- & _). apply clip_bounds. lra.
  - intros powers mean P S N. fold powers.
    destruct (C63_quarter_power 3 (sar_mean stats) powers mean ltac:(lra) P) as (out & E & L & _ & _ & V).
    + destruct stats as [|s r]; cbn [sar_mean]; [destruct (N eq_refl) as (A & B); split; [exact A|now symmetry]|].
      specialize (S ltac:(discriminate)). rewrite <- (sqrt_square mean) by lra. f_equal. rewrite S, sum_total. f_equal. apply map_ext. intros q. cbv zeta. ring.
    + exists out. auto.
Qed.

Example C45_two_bands_non_vacuous :
  exists l, normalize_bands Floating [] (fun _ _ => Err ValueError) [[3; 0]; [4; 15]] = Ok (PowerImage (Some l)) /\ nth_error l 0 = Some (255 / 6).
Proof.
  destruct (C45_two_bands Floating [] (fun _ _ => Err ValueError) [3; 0] [4; 15]) as (i & E & _ & V).
  assert (S : sqrt (Rabs 25) = 5) by (rewrite Rabs_right by lra; replace 25 with (5 * 5) by lra; apply sqrt_square; lra).
  assert (S' : sqrt (Rabs 225) = 15) by (rewrite Rabs_right by lra; replace 225 with (15 * 15) by lra; apply sqrt_square; lra).
  assert (P : List.map (power_value Floating) (combine [3; 0] [4; 15]) = [25; 225]) by (cbn; repeat f_equal; unfold power_value; cbn; lra).
  rewrite P in V. destruct (V 10) as (l & -> & L & W); [lra|congruence| |].
  { intros _. split; [discriminate|]. unfold average, total. cbn -[sqrt]. rewrite S, S'. lra. }
  exists l. split; [exact E|]. destruct l as [|x r]; [discriminate L|]. cbn. f_equal. rewrite (W 0%nat 25 x eq_refl eq_refl), S, Rmin_right by lra. lra.
Qed.
Print Assumptions C45_two_bands.

(** Multiplying all pixels with one gain does not change the display. *)
Theorem C63_gain :
  forall scale k l, 0 < k -> histogram_stretch scale (List.map (fun v => k * v) l) = histogram_stretch scale l /\
  quarter_power scale None (List.map (fun v => k * v) l) = quarter_power scale None l.
Proof.
  assert (H : forall scale k l, 0 < k -> histogram_stretch scale (List.map (fun v => k * v) l) = histogram_stretch scale l).
  { intros scale k l K. unfold histogram_stretch. destruct l as [|x r]; [reflexivity|]. set (l := x :: r).
    assert (M : np_mean (List.map (fun v => k * v) l) = Some (k * (sum l / INR (List.length l)))).
    { unfold np_mean, l. cbn [List.map]. change (k * x :: List.map (fun v => k * v) r) with (List.map (fun v => k * v) (x :: r)).
      rewrite sum_scale, map_length. f_equal. field. apply not_0_INR. cbn. lia. }
    assert (M' : np_mean l = Some (sum l / INR (List.length l))) by reflexivity.
    rewrite M, M'. set (m := sum l / INR (List.length l)). destruct (Req_EM_T (scale * m) 0) as [E|E].
    - destruct (Req_EM_T (scale * (k * m)) 0) as [|N]; [reflexivity|]. elim N. replace (scale * (k * m)) with (k * (scale * m)) by ring. rewrite E. ring.
    - destruct (Req_EM_T (scale * (k * m)) 0) as [N|N].
      + elim E. replace (scale * (k * m)) with (k * (scale * m)) in N by ring. apply Rmult_integral in N. destruct N; [lra|assumption].
      + rewrite map_map. f_equal. apply map_ext. intros v. f_equal.
        assert (m <> 0) by (intros F; apply E; rewrite F; ring). assert (scale <> 0) by (intros F; apply E; rewrite F; ring).
        field. repeat split; assumption || lra. }
  intros scale k l K. split; [now apply H|].
  assert (Q : forall l, quarter_power scale None l = histogram_stretch scale (List.map (fun v => sqrt (Rabs v)) l)) by reflexivity.
  rewrite !Q. rewrite <- (H scale (sqrt k) (List.map (fun v => sqrt (Rabs v)) l)) by now apply sqrt_lt_R0. f_equal. rewrite !map_map. apply map_ext.
  intros v. rewrite Rabs_mult, sqrt_mult_alt by apply Rabs_pos. rewrite (Rabs_right k) by lra. reflexivity.
Qed.
Print Assumptions C63_gain.

(** A completely dark image has no display: the mean is zero. *)
Theorem C63_dark_image :
  forall scale n, histogram_stretch scale (repeat 0 n) = None /\ quarter_power scale None (repeat 0 n) = None.
Proof.
  assert (H : forall scale n, histogram_stretch scale (repeat 0 n) = None).
  { intros scale n. unfold histogram_stretch, np_mean. destruct n as [|n]; [reflexivity|].
    assert (Z : sum (repeat 0 (S n)) = 0). { generalize (S n). induction n0 as [|m IH]; [reflexivity|]. cbn. rewrite IH. ring. }
    cbn [repeat]. change (0 :: repeat 0 n) with (repeat 0 (S n)). rewrite Z. unfold Rdiv. rewrite Rmult_0_l, Rmult_0_r. destruct (Req_EM_T 0 0); [reflexivity|lra]. }
  intros scale n. split; [apply H|]. change (quarter_power scale None (repeat 0 n)) with (histogram_stretch scale (List.map (fun v => sqrt (Rabs v)) (repeat 0 n))).
  rewrite <- (H scale n). f_equal. clear. induction n as [|n IH]; [reflexivity|]. cbn. rewrite IH, Rabs_R0, sqrt_0. reflexivity.
Qed.
Print Assumptions C63_dark_image.

(** Whole SAR images: each pixel on its own, unknown pixel types refused, also for an image without
    pixels. *)
Theorem C63_image :
  forall d table display pixels t,
  sar_image d None table display pixels = Ok (display (List.map (power_value d) pixels)) /\
  (In t ["RE32F_IM32F"; "RE16I_IM16I"]%string -> sar_image d (Some t) table display pixels = Ok (display (List.map (power_value d) pixels))) /\
  (~ In t ["RE32F_IM32F"; "RE16I_IM16I"; "AMP8I_PHS8I"]%string -> sar_image d (Some t) table display pixels = Err ValueError).
Proof.
  intros d table display pixels t. split; [|split].
  - unfold sar_image. rewrite (map_res_all (fun p => p)) by reflexivity. cbn [complex_type bind]. now rewrite map_id.
  - intros I. unfold sar_image. rewrite (map_res_all (fun p => p)).
    + rewrite map_id. destruct I as [<-|[<-|[]]]; reflexivity.
    + intros p _. destruct I as [<-|[<-|[]]]; reflexivity.
  - intros N. unfold sar_image, complex_type. destruct (String.eqb_spec t "RE32F_IM32F"); [exfalso; apply N; cbn; auto|].
    destruct (String.eqb_spec t "RE16I_IM16I"); [exfalso; apply N; cbn; auto|]. destruct (String.eqb_spec t "AMP8I_PHS8I"); [exfalso; apply N; cbn; auto|]. reflexivity.
Qed.
Lemma power_of_phase a x : power_value Floating (a * cos x, a * sin x) = a * a.
Proof.
  unfold power_value. cbn [wrap fst snd]. replace (a * a) with (a * a * (Rsqr (sin x) + Rsqr (cos x))) by (rewrite sin2_cos2; ring). unfold Rsqr. ring.
Qed.
(** The power of an amplitude and phase pixel is the square of its amplitude, read in the table if
    there is one; the phase makes no difference, nor does the width of the pixels. *)
Theorem C63_amplitudes :
  forall d display pixels,
  sar_image d (Some "AMP8I_PHS8I"%string) None display pixels = Ok (display (List.map (fun p => fst p * fst p) pixels)) /\
  forall table, let entry p := nth_error table (Z.to_nat (Rfloor (fst p))) in
  (forall amplitudes, Forall2 (fun p a => entry p = Some a) pixels amplitudes ->
     sar_image d (Some "AMP8I_PHS8I"%string) (Some table) display pixels = Ok (display (List.map (fun a => a * a) amplitudes))) /\
  ((exists p, In p pixels /\ entry p = None) -> sar_image d (Some "AMP8I_PHS8I"%string) (Some table) display pixels = Err IndexError).
Proof.
  intros d display pixels. split; [|intros table entry; split].
  - unfold sar_image. cbn [complex_type String.eqb Ascii.eqb Bool.eqb orb bind].
    rewrite (map_res_all (fun p => (fst p * cos (2 * PI * (snd p / 256)), fst p * sin (2 * PI * (snd p / 256))))) by reflexivity. cbn [bind].
    do 2 f_equal. rewrite map_map. apply map_ext. intros p. apply power_of_phase.
  - intros l F. unfold sar_image. cbn [complex_type String.eqb Ascii.eqb Bool.eqb orb bind].
    assert (X : exists z, map_res (pixel_to_complex (Some "AMP8I_PHS8I"%string) (Some table)) pixels = Ok z /\ List.map (power_value Floating) z = List.map (fun a => a * a) l).
    { induction F as [|p a ps l E _ (z & Z1 & Z2)]; [exists []; split; reflexivity|].
      exists ((a * cos (2 * PI * (snd p / 256)), a * sin (2 * PI * (snd p / 256))) :: z). cbn [map_res List.map]. rewrite power_of_phase, Z2. split; [|reflexivity].
      unfold pixel_to_complex at 1. cbn [String.eqb Ascii.eqb Bool.eqb orb]. unfold entry in E. rewrite E. cbn [bind]. rewrite Z1. reflexivity. }
    destruct X as (z & -> & Z2). cbn [bind]. rewrite Z2. reflexivity.
  - intros (p & I & E). unfold sar_image. cbn [complex_type String.eqb Ascii.eqb Bool.eqb orb bind].
    assert (X : map_res (pixel_to_complex (Some "AMP8I_PHS8I"%string) (Some table)) pixels = Err IndexError).
    { induction pixels as [|q r IH]; [destruct I|]. cbn [map_res].
      assert (Q : pixel_to_complex (Some "AMP8I_PHS8I"%string) (Some table) q = match entry q with Some a => Ok (a * cos (2 * PI * (snd q / 256)), a * sin (2 * PI * (snd q / 256))) | None => Err IndexError end).
      { unfold pixel_to_complex. cbn [String.eqb Ascii.eqb Bool.eqb orb]. unfold entry. destruct (nth_error table _); reflexivity. }
      rewrite Q. destruct (entry q) eqn:Eq; [|reflexivity]. cbn [bind]. destruct I as [->|I]; [congruence|]. rewrite (IH I). reflexivity. }
    rewrite X. reflexivity.
Qed.
(** Two pixels of bytes, the second beyond 15, whose square no byte holds. *)
Example C63_amplitudes_non_vacuous :
  sar_image (Integer false 8) (Some "AMP8I_PHS8I"%string) None (fun l => Some l) [(3, 64); (20, 200)] = Ok (Some [9; 400]) /\
  sar_image (Integer false 8) (Some "AMP8I_PHS8I"%string) (Some [5; 6; 7]) (fun l => Some l) [(1, 64); (0, 200)] = Ok (Some [36; 25]) /\
  sar_image (Integer false 8) (Some "AMP8I_PHS8I"%string) (Some [5; 6; 7]) (fun l => Some l) [(1, 64); (3, 200)] = Err IndexError /\
  sar_image (Integer false 8) (Some "AMP"%string) None (fun l => Some l) [] = Err ValueError.
Proof.
  split; [|split; [|split]].
  - destruct (C63_amplitudes (Integer false 8) (fun l => Some l) [(3, 64); (20, 200)]) as [-> _]. cbn [List.map fst]. do 3 f_equal; [lra | f_equal; lra].
  - destruct (C63_amplitudes (Integer false 8) (fun l => Some l) [(1, 64); (0, 200)]) as [_ H]. destruct (H [5; 6; 7]) as [A _]. rewrite (A [6; 5]).
    + cbn [List.map]. do 3 f_equal; [lra | f_equal; lra].
    + repeat constructor; cbn [fst]; rewrite Rfloor_IZR; reflexivity.
  - destruct (C63_amplitudes (Integer false 8) (fun l => Some l) [(1, 64); (3, 200)]) as [_ H]. destruct (H [5; 6; 7]) as [_ ->]; [reflexivity|].
    exists (3, 200). split; [right; left; reflexivity|]. cbn [fst]. rewrite Rfloor_IZR. reflexivity.
  - reflexivity.
Qed.
Print Assumptions C63_image.
Print Assumptions C63_amplitudes.

Example C63_non_vacuous :
  power_value (Integer true 16) (200, 0) = -25536 /\ average [1; 3] = 2 /\
  (exists out, linear_mapping [1; 3; 2] = Ok out) /\ pixel_to_complex (Some "AMP8I_PHS8I"%string) (Some [7; 9]) (1, 0) = Ok (9, 0).
Proof.
  split; [|split; [|split]].
  - unfold power_value. cbn [fst snd wrap]. replace (200 * 200) with (IZR 40000) by lra. replace (0 * 0) with (IZR 0) by lra.
    rewrite !Rfloor_IZR. change ((40000 + 2 ^ (16 - 1)) mod 2 ^ 16 - 2 ^ (16 - 1))%Z with (-25536)%Z. change ((0 + 2 ^ (16 - 1)) mod 2 ^ 16 - 2 ^ (16 - 1))%Z with 0%Z. lra.
  - unfold average, total. cbn. lra.
  - eexists. reflexivity.
  - cbn. rewrite (Rfloor_IZR 1). cbn. replace (2 * PI * (0 / 256)) with 0 by lra. rewrite cos_0, sin_0. change (Pos.to_nat 1) with 1%nat. cbn [nth_error bind]. f_equal. f_equal; lra.
Qed.

(** ** C69: output types and scales *)
Theorem C69_no_adjustment :
  forall bands desired, exists s, get_type_and_scales bands desired NoAdjustment =
    Ok (match desired with None => List.last (List.map band_type bands) Byte | Some t => match bands with [] => Byte | _ => t end end, s) /\
  Forall2 (fun b sc =>
    let own := get_minmax_for_type (band_type b) in
    let out := match desired with None => own | Some t => get_minmax_for_type t end in
    apply_scale sc (IZR (fst own)) = IZR (fst out) /\ apply_scale sc (IZR (snd own)) = IZR (snd out) /\
    (desired = None -> forall v, apply_scale sc v = v)) bands s.
Proof.
  intros bands desired. unfold get_type_and_scales.
  rewrite (map_res_all (fun b => mkScale (IZR (fst (get_minmax_for_type (band_type b)))) (IZR (snd (get_minmax_for_type (band_type b))))
     (IZR (fst (get_minmax_for_type (match desired with None => band_type b | Some t => t end))))
     (IZR (snd (get_minmax_for_type (match desired with None => band_type b | Some t => t end)))))) by reflexivity.
  cbn [bind]. eexists. split; [reflexivity|]. induction bands as [|b r IH]; [constructor|]. constructor; [|exact IH]. clear IH.
  assert (L : forall t, IZR (fst (get_minmax_for_type t)) < IZR (snd (get_minmax_for_type t))) by (intros []; apply IZR_lt; reflexivity).
  specialize (L (band_type b)). unfold apply_scale. cbn [source_min source_max output_min output_max].
  set (lo := IZR (fst (get_minmax_for_type (band_type b)))) in *. set (hi := IZR (snd (get_minmax_for_type (band_type b)))) in *.
  destruct desired as [t|].
  - split; [field; lra|]. split; [field; lra|discriminate].
  - fold lo hi. split; [field; lra|]. split; [field; lra|]. intros _ v. field. lra.
Qed.
Print Assumptions C69_no_adjustment.

(** The integer types' ranges are exactly their values. *)
Theorem C69_integer_ranges :
  forall t d, In (t, d) [(Byte, Integer false 8); (UInt16, Integer false 16); (Int16, Integer true 16); (UInt32, Integer false 32);
                         (Int32, Integer true 32); (UInt64, Integer false 64); (Int64, Integer true 64)] ->
  forall z, fits_type d (IZR z) <-> (fst (get_minmax_for_type t) <= z <= snd (get_minmax_for_type t))%Z.
Proof.
  intros t d H z. cbn in H.
  repeat (destruct H as [H|H]; [injection H as <- <-; unfold fits_type, get_minmax_for_type; cbn [fst snd];
    split; [intros (y & E & B); apply eq_IZR in E; subst; cbn in *; lia|intros B; exists z; split; [reflexivity|cbn in *; lia]]|]). destruct H.
Qed.
Print Assumptions C69_integer_ranges.

(** The floating point types' ranges are decimal numbers whose nearest value of the type is the
    largest finite one (less than half a unit in the last place away), the lowest its opposite.
    Anything without an own rule is treated as a byte. *)
Theorem C69_float_ranges :
  forall t p e, In (t, (p, e)) [(Float32, (24, 104)); (Float64, (53, 971))]%Z ->
  (2 * Z.abs (snd (get_minmax_for_type t) - (2 ^ p - 1) * 2 ^ e) < 2 ^ e)%Z /\
  fst (get_minmax_for_type t) = (- snd (get_minmax_for_type t))%Z.
Proof. intros t p e [[= <- <- <-]|[[= <- <- <-]|[]]]; split; reflexivity. Qed.
Print Assumptions C69_float_ranges.
Theorem C69_other_types : get_minmax_for_type OtherType = get_minmax_for_type Byte.
Proof. reflexivity. Qed.
Print Assumptions C69_other_types.

Lemma bucket_count t lo hi : let buckets := match t with Float32 | Float64 => 255%Z | _ => truncate (hi - lo) end in
  ((t = Float32 \/ t = Float64) -> buckets = 255%Z) /\
  (t <> Float32 -> t <> Float64 -> lo <= hi -> IZR buckets <= hi - lo < IZR buckets + 1).
Proof.
  intros buckets. split; [intros [-> | ->]; reflexivity|]. intros A B L.
  assert (buckets = Rfloor (hi - lo)) as ->.
  { unfold buckets, truncate. destruct (Rlt_dec _ 0); [lra|]. destruct t; congruence. }
  apply Rfloor_spec.
Qed.

(** With an adjustment the range found in the histogram is mapped onto the whole output range. *)
Theorem C69_adjusted :
  forall desired adjust b sc, adjust <> NoAdjustment -> band_scale desired adjust b = Ok sc ->
  exists lo hi counts d, statistics b = Ok (lo, hi) /\ from_counts counts (Some lo) (Some hi) (2/100) (98/100) (2/10) (4/10) = Ok d /\
  (exists buckets, histogram b buckets lo hi = Ok counts /\
     ((band_type b = Float32 \/ band_type b = Float64) -> buckets = 255%Z) /\
     (band_type b <> Float32 -> band_type b <> Float64 -> lo <= hi -> IZR buckets <= hi - lo < IZR buckets + 1)) /\
  let range := match adjust with MinMax => (actual_min d, actual_max d) | _ => (suggested_min d, suggested_max d) end in
  let out := get_minmax_for_type (match desired with None => band_type b | Some t => t end) in
  source_min sc = fst range /\ source_max sc = snd range /\
  output_min sc = IZR (fst out) /\ output_max sc = IZR (snd out) /\
  (fst range <> snd range -> apply_scale sc (fst range) = IZR (fst out) /\ apply_scale sc (snd range) = IZR (snd out)).
Proof.
  intros desired adjust b sc N H. unfold band_scale in H. destruct (statistics b) as [(lo, hi)|]; [|destruct adjust; [congruence|discriminate|discriminate]].
  destruct adjust; [congruence| |];
    (cbn [bind] in H; destruct (histogram b _ _ _) as [counts|] eqn:Eh; [|discriminate]; cbn [bind] in H; destruct (from_counts _ _ _ _ _ _ _) as [d|] eqn:Ed; [|discriminate];
     injection H as <-; exists lo, hi, counts, d; split; [reflexivity|]; split; [exact Ed|]; split; [eexists; split; [exact Eh|]; apply bucket_count|]; split; [reflexivity|]; split; [reflexivity|];
     split; [reflexivity|]; split; [reflexivity|];
     cbn [fst snd]; intros D; unfold apply_scale; cbn [source_min source_max output_min output_max]; split; field; intros F; apply D; lra).
Qed.
Print Assumptions C69_adjusted.

(** With an adjustment the statistics are asked for first and their failure is the caller's; without
    one they are not asked for. *)
Theorem C69_no_statistics :
  forall desired adjust b e, statistics b = Err e ->
  (adjust <> NoAdjustment -> band_scale desired adjust b = Err e) /\
  (forall s, band_scale desired NoAdjustment b = band_scale desired NoAdjustment (mkBand (band_type b) s (histogram b))).
Proof. intros desired adjust b e H. split; [|reflexivity]. intros N. unfold band_scale. rewrite H. destruct adjust; [congruence|reflexivity|reflexivity]. Qed.
Print Assumptions C69_no_statistics.

(** A band of one value is asked for a histogram without buckets; the request then fails. *)
Theorem C69_constant_band :
  forall desired adjust t v h, adjust <> NoAdjustment -> t <> Float32 -> t <> Float64 -> h 0%Z v v = Ok [] ->
  band_scale desired adjust (mkBand t (Ok (v, v)) h) = Err IndexError.
Proof.
  intros desired adjust t v h N A B H. unfold band_scale. cbn [band_type statistics histogram fst snd bind].
  assert (T : truncate (v - v) = 0%Z). { unfold truncate. replace (v - v) with 0 by ring. destruct (Rlt_dec 0 0); [lra|apply (Rfloor_IZR 0)]. }
  assert (Bk : match t with Float32 | Float64 => 255%Z | _ => truncate (v - v) end = 0%Z) by (destruct t; try exact T; congruence).
  destruct adjust; [congruence| |]; rewrite Bk, H; reflexivity.
Qed.
Print Assumptions C69_constant_band.

Example C69_non_vacuous :
  let b := mkBand UInt16 (Ok (10, 20)) (fun _ _ _ => Ok [1; 2; 3]) in
  (exists sc, band_scale (Some Byte) DRA b = Ok sc) /\
  fst (get_minmax_for_type Int16) = (-32768)%Z /\ List.last (List.map band_type [b; mkBand Byte (Ok (0, 0)) (fun _ _ _ => Ok [])]) Byte = Byte.
Proof. split; [eexists; reflexivity|split; reflexivity]. Qed.
