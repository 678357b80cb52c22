(** Lemmas for the pixel range and display properties. *)
Require Import ZArith Reals String List Lra Lia Bool.
Require Import Verif.Base Verif.BaseFacts Verif.PolySpec Verif.DisplayModel Verif.DisplaySpec.
Import ListNotations.
Local Open Scope R_scope.

(** *** Histograms *)
Lemma first_nonzero_spec l : (exists k, used l k) -> first_used l (first_nonzero l).
Proof.
  induction l as [|c r IH]; intros (k & Hk & N); cbn in Hk; [lia|]. cbn [first_nonzero]. destruct (Req_EM_T c 0) as [->|C].
  - destruct k as [|k]; [now elim N|]. cbn in N. destruct IH as ((L & U) & M); [exists k; split; [lia|exact N]|].
    split; [split; [cbn; lia|exact U]|]. intros [|j] (Hj & Nj); [now elim Nj|]. cbn in Hj, Nj. apply le_n_S. apply M. split; [lia|exact Nj].
  - split; [split; [cbn; lia|exact C]|]. lia.
Qed.
Lemma first_nonzero_none l : (forall k, ~ used l k) -> first_nonzero l = List.length l.
Proof.
  induction l as [|c r IH]; intros H; [reflexivity|]. cbn. destruct (Req_EM_T c 0) as [->|C].
  - rewrite IH; [reflexivity|]. intros k (L & N). apply (H (S k)). split; [cbn; lia|exact N].
  - elim (H O). split; [cbn; lia|exact C].
Qed.
Lemma last_nonzero_spec l i : let r := last_nonzero l i in (r <= i)%nat /\ (forall k, (r < k <= i)%nat -> nth k l 0 = 0) /\ (r = O \/ nth r l 0 <> 0).
Proof.
  induction i as [|i IH]; cbn [last_nonzero].
  - split; [lia|]. split; [intros; lia|now left].
  - destruct (Req_EM_T (nth (S i) l 0) 0) as [Z|N].
    + destruct IH as (A & B & C). split; [lia|]. split; [|exact C]. intros k Hk.
      destruct (Nat.eq_dec k (S i)) as [->|]; [exact Z|apply B; lia].
    + split; [lia|]. split; [intros; lia|now right].
Qed.
Lemma last_nonzero_used l m : List.length l = S m -> (exists k, used l k) -> last_used l (last_nonzero l m).
Proof.
  intros L (k & Hk & N). destruct (last_nonzero_spec l m) as (A & B & C).
  assert (M : forall j, used l j -> (j <= last_nonzero l m)%nat).
  { intros j (Hj & Nj). destruct (le_lt_dec j (last_nonzero l m)); [assumption|]. elim Nj. apply B. lia. }
  split; [|exact M]. split; [lia|]. destruct C as [C|C]; [|exact C].
  assert (k <= 0)%nat by (rewrite <- C; apply M; split; assumption). assert (k = 0)%nat by lia. subst. now rewrite C.
Qed.
Lemma last_nonzero_none l m : (forall k, ~ used l k) -> (m < List.length l)%nat -> last_nonzero l m = O.
Proof.
  intros H L. destruct (last_nonzero_spec l m) as (A & B & [C|C]); [exact C|]. elim (H (last_nonzero l m)). split; [lia|exact C].
Qed.

Lemma cumulative_length b l : List.length (cumulative b l) = List.length l.
Proof. revert b. induction l as [|c r IH]; intros b; [reflexivity|]. cbn. now rewrite IH. Qed.
Lemma cumulative_nth l : forall b i, (i < List.length l)%nat -> nth i (cumulative b l) 0 = b + below l (S i).
Proof.
  induction l as [|c r IH]; intros b i H; [cbn in H; lia|]. cbn [cumulative]. destruct i as [|i].
  - unfold below. cbn. ring.
  - cbn [nth]. rewrite IH by (cbn in H; lia). unfold below. cbn. ring.
Qed.
Lemma find_low_spec cum t : forall left i, let r := find_low cum t i left in
  (i <= r <= i + left)%nat /\ (forall k, (i <= k < r)%nat -> nth k cum 0 < t) /\ (r = (i + left)%nat \/ t <= nth r cum 0).
Proof.
  induction left as [|k IH]; intros i; cbn [find_low].
  - split; [lia|]. split; [intros; lia|left; lia].
  - destruct (Rlt_dec (nth i cum 0) t) as [H|H].
    + destruct (IH (S i)) as (A & B & C). split; [lia|]. split.
      * intros j Hj. destruct (Nat.eq_dec j i) as [->|]; [exact H|apply B; lia].
      * destruct C as [C|C]; [left; lia|now right].
    + split; [lia|]. split; [intros; lia|right; lra].
Qed.
Lemma find_high_spec cum t : forall i, let r := find_high cum t i in
  (r <= i)%nat /\ (forall k, (r < k <= i)%nat -> nth k cum 0 > t) /\ (r = O \/ nth r cum 0 <= t).
Proof.
  induction i as [|i IH]; cbn [find_high].
  - split; [lia|]. split; [intros; lia|now left].
  - destruct (Rgt_dec (nth (S i) cum 0) t) as [H|H].
    + destruct IH as (A & B & C). split; [lia|]. split; [|exact C]. intros k Hk.
      destruct (Nat.eq_dec k (S i)) as [->|]; [exact H|apply B; lia].
    + split; [lia|]. split; [intros; lia|right; lra].
Qed.

Lemma below_step counts k : (forall c, In c counts -> 0 <= c) -> below counts k <= below counts (S k).
Proof.
  revert k. induction counts as [|c r IH]; intros k H; [unfold below; destruct k; cbn; lra|].
  assert (Hr : forall c, In c r -> 0 <= c) by (intros; apply H; now right). specialize (H c (or_introl eq_refl)).
  unfold below in *. destruct k as [|k].
  - cbn. lra.
  - specialize (IH k Hr). cbn [firstn total fold_right] in *. unfold total in IH. lra.
Qed.
Lemma below_mono counts j k : (forall c, In c counts -> 0 <= c) -> (j <= k)%nat -> below counts j <= below counts k.
Proof. intros H L. induction L as [|k L IH]; [lra|]. pose proof (below_step counts k H). lra. Qed.
Lemma below_all counts : below counts (List.length counts) = total counts.
Proof. unfold below. now rewrite firstn_all. Qed.
Lemma below_used counts i : first_used counts i -> below counts i = 0.
Proof.
  intros (_ & M). assert (H : forall k, (k < i)%nat -> nth k counts 0 = 0).
  { intros k Hk. destruct (Req_EM_T (nth k counts 0) 0) as [|N]; [assumption|]. destruct (le_lt_dec (List.length counts) k).
    - now rewrite nth_overflow in N by assumption.
    - specialize (M k (conj l N)). lia. }
  clear M. revert i H. induction counts as [|c r IH]; intros i H; [unfold below; destruct i; reflexivity|].
  destruct i as [|i]; [reflexivity|]. unfold below in *. cbn. rewrite (H O ltac:(lia) : c = 0). unfold total in IH. rewrite IH; [ring|].
  intros k Hk. apply (H (S k)). lia.
Qed.
Lemma below_last counts j : last_used counts j -> below counts (S j) = total counts.
Proof.
  intros (_ & M). assert (H : forall k, (j < k)%nat -> nth k counts 0 = 0).
  { intros k Hk. destruct (Req_EM_T (nth k counts 0) 0) as [|N]; [assumption|]. destruct (le_lt_dec (List.length counts) k).
    - now rewrite nth_overflow in N by assumption.
    - specialize (M k (conj l N)). lia. }
  clear M. revert j H. induction counts as [|c r IH]; intros j H; [reflexivity|].
  unfold below in *. cbn [firstn total fold_right]. f_equal. destruct j as [|j].
  - cbn. assert (Z : forall k, nth k r 0 = 0) by (intros k; apply (H (S k)); lia). clear -Z. induction r as [|x r IH]; [reflexivity|].
    cbn. rewrite (Z O : x = 0). rewrite <- IH; [ring|]. intros k. apply (Z (S k)).
  - unfold total in IH. apply IH. intros k Hk. apply (H (S k)). lia.
Qed.

(** *** Arrays *)
Lemma fold_min_le l : forall x, fold_left Rmin l x <= x /\ (forall y, In y l -> fold_left Rmin l x <= y).
Proof.
  induction l as [|a l IH]; intros x; cbn; [split; [lra|tauto]|]. destruct (IH (Rmin x a)) as (A & B). split.
  - pose proof (Rmin_l x a). lra.
  - intros y [<- | H]; [pose proof (Rmin_r x a); lra|now apply B].
Qed.
Lemma fold_min_in l : forall x, fold_left Rmin l x = x \/ In (fold_left Rmin l x) l.
Proof.
  induction l as [|a l IH]; intros x; cbn; [now left|]. destruct (IH (Rmin x a)) as [-> | H]; [|now right; right].
  unfold Rmin. destruct (Rle_dec x a); [now left|right; now left].
Qed.
Lemma fold_max_ge l : forall x, x <= fold_left Rmax l x /\ (forall y, In y l -> y <= fold_left Rmax l x).
Proof.
  induction l as [|a l IH]; intros x; cbn; [split; [lra|tauto]|]. destruct (IH (Rmax x a)) as (A & B). split.
  - pose proof (Rmax_l x a). lra.
  - intros y [<- | H]; [pose proof (Rmax_r x a); lra|now apply B].
Qed.
Lemma fold_max_in l : forall x, fold_left Rmax l x = x \/ In (fold_left Rmax l x) l.
Proof.
  induction l as [|a l IH]; intros x; cbn; [now left|]. destruct (IH (Rmax x a)) as [-> | H]; [|now right; right].
  unfold Rmax. destruct (Rle_dec x a); [right; now left|now left].
Qed.
Lemma np_min_spec l m : np_min l = Ok m -> In m l /\ forall y, In y l -> m <= y.
Proof.
  destruct l as [|x r]; [discriminate|]. cbn. intros [= <-]. destruct (fold_min_le r x) as (A & B). split.
  - destruct (fold_min_in r x) as [-> | H]; [now left|now right].
  - intros y [<- | H]; auto.
Qed.
Lemma np_max_spec l m : np_max l = Ok m -> In m l /\ forall y, In y l -> y <= m.
Proof.
  destruct l as [|x r]; [discriminate|]. cbn. intros [= <-]. destruct (fold_max_ge r x) as (A & B). split.
  - destruct (fold_max_in r x) as [-> | H]; [now left|now right].
  - intros y [<- | H]; auto.
Qed.

Lemma clip_bounds lo hi x : lo <= hi -> lo <= clip lo hi x <= hi.
Proof. intros H. unfold clip, Rmin, Rmax. destruct (Rle_dec x lo); destruct (Rle_dec _ hi); lra. Qed.
Lemma clip_mono lo hi x y : x <= y -> clip lo hi x <= clip lo hi y.
Proof.
  intros H. unfold clip, Rmin, Rmax. destruct (Rle_dec x lo); destruct (Rle_dec y lo); repeat destruct (Rle_dec _ hi); lra.
Qed.
Lemma clip_low lo hi x : lo <= hi -> x <= lo -> clip lo hi x = lo.
Proof. intros H L. unfold clip, Rmin, Rmax. destruct (Rle_dec x lo); destruct (Rle_dec _ hi); lra. Qed.
Lemma clip_high lo hi x : lo <= hi -> hi <= x -> clip lo hi x = hi.
Proof. intros H L. unfold clip, Rmin, Rmax. destruct (Rle_dec x lo); destruct (Rle_dec _ hi); lra. Qed.
Lemma clip_inside lo hi x : lo <= x <= hi -> clip lo hi x = x.
Proof. intros H. unfold clip, Rmin, Rmax. destruct (Rle_dec x lo); destruct (Rle_dec _ hi); lra. Qed.
Lemma uint8_byte x : 0 <= x <= 255 -> byte (to_uint8 x).
Proof. intros [A B]. unfold byte, to_uint8. split; [apply (Rfloor_ge_Z x 0); lra|apply Rfloor_le_Z; lra]. Qed.

Lemma map_order (f : R -> Z) l : (forall p q, In p l -> In q l -> p <= q -> (f p <= f q)%Z) -> order_kept Z.le l (List.map f l).
Proof.
  intros H i j p q x y Hi Hj L X Y. rewrite nth_error_map, Hi in X. rewrite nth_error_map, Hj in Y. cbn in X, Y.
  injection X as <-. injection Y as <-. apply H; [| |exact L]; eapply nth_error_In; eassumption.
Qed.
Lemma map_order_R (f : R -> R) l : (forall p q, In p l -> In q l -> p <= q -> f p <= f q) -> order_kept Rle l (List.map f l).
Proof.
  intros H i j p q x y Hi Hj L X Y. rewrite nth_error_map, Hi in X. rewrite nth_error_map, Hj in Y. cbn in X, Y.
  injection X as <-. injection Y as <-. apply H; [| |exact L]; eapply nth_error_In; eassumption.
Qed.

(** *** Wrapping *)
Lemma mod_small_shift z h w : (0 < w)%Z -> (2 * h = w)%Z -> (- h <= z < h)%Z -> ((z + h) mod w - h = z)%Z.
Proof. intros. rewrite Z.mod_small; lia. Qed.
Lemma half_power w : (1 <= w)%Z -> (2 * 2 ^ (w - 1) = 2 ^ w)%Z.
Proof. intros H. rewrite <- Z.pow_succ_r by lia. f_equal. lia. Qed.
Lemma wrap_fits d x : (match d with Integer _ w => 1 <= w | _ => True end)%Z -> fits_type d x -> wrap d x = x.
Proof.
  destruct d as [|[|] w]; intros W H; [reflexivity| |]; destruct H as (z & -> & B); cbn; rewrite Rfloor_IZR; f_equal.
  - apply mod_small_shift; [apply Z.pow_pos_nonneg; lia|now apply half_power|exact B].
  - apply Z.mod_small. lia.
Qed.

Lemma map_res_ok {A B} (f : A -> res B) l out : map_res f l = Ok out -> Forall2 (fun x y => f x = Ok y) l out.
Proof.
  revert out. induction l as [|x r IH]; intros out; cbn.
  - intros [= <-]. constructor.
  - destruct (f x) as [y|] eqn:E; [|discriminate]. cbn. destruct (map_res f r) as [ys|] eqn:M; [|discriminate]. cbn. intros [= <-].
    constructor; auto.
Qed.
Lemma map_res_all {A B} (f : A -> B) (g : A -> res B) l : (forall x, In x l -> g x = Ok (f x)) -> map_res g l = Ok (List.map f l).
Proof.
  induction l as [|x r IH]; intros H; [reflexivity|]. cbn. rewrite (H x (or_introl eq_refl)). cbn. rewrite IH; [reflexivity|]. intros; apply H; now right.
Qed.

Lemma sum_total l : sum l = total l.
Proof. induction l as [|x r IH]; [reflexivity|]. cbn. now rewrite IH. Qed.
Lemma sum_scale k l : sum (List.map (fun v => k * v) l) = k * sum l.
Proof. induction l as [|x r IH]; cbn; [ring|]. rewrite IH. ring. Qed.

Lemma below_next counts j : below counts (S j) = below counts j + nth j counts 0.
Proof.
  revert j. induction counts as [|c r IH]; intros j; [destruct j; unfold below; cbn; lra|]. destruct j as [|j]; [unfold below; cbn; lra|].
  change (below (c :: r) (S (S j))) with (c + below r (S j)). change (below (c :: r) (S j)) with (c + below r j). cbn [nth]. rewrite IH. ring.
Qed.

(** With both ends of the band given, the subtractions are those of floats. *)
Lemma normalize_band_dra_given T hist lo hi pixels : normalize_band_dra T hist (Some lo) (Some hi) pixels =
  bind (hist (Z.max 256 (truncate (hi - lo))) lo hi) (fun counts =>
  bind (from_counts counts (Some lo) (Some hi) (2/100) (97/100) (2/10) (4/10)) (fun d =>
  Ok (List.map (fun p => to_uint8 (clip 0 255 (255 * (p - suggested_min d) / Rmax (suggested_max d - suggested_min d) 1))) pixels))).
Proof. reflexivity. Qed.
