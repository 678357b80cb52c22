(** Proofs about documents that are valid against the schemas. *)
Require Import ZArith Reals String Ascii List Bool Lia.
Require Import Verif.Base Verif.SchemaModel Verif.SchemaSpec Verif.SchemaProofs Verif.XsdModel Verif.XsdSpec.
Import ListNotations.
Local Open Scope string_scope.

(** *** Particles *)

Fixpoint Particle_deep (P : Particle -> Prop) (HE : forall q t l m, P (PElement q t l m)) (HS : forall ps, Forall P ps -> P (PSequence ps))
  (HC : forall ps, Forall P ps -> P (PChoice ps)) (HO : forall p, P p -> P (POptional p)) (p : Particle) : P p :=
  match p with
  | PElement q t l m => HE q t l m
  | PSequence ps => HS ps ((fix go (ps : list Particle) : Forall P ps := match ps with [] => Forall_nil _ | x :: r => Forall_cons x (Particle_deep P HE HS HC HO x) (go r) end) ps)
  | PChoice ps => HC ps ((fix go (ps : list Particle) : Forall P ps := match ps with [] => Forall_nil _ | x :: r => Forall_cons x (Particle_deep P HE HS HC HO x) (go r) end) ps)
  | POptional p => HO p (Particle_deep P HE HS HC HO p)
  end.

Definition is_named (q : QName) {A} (v : QName * A) : bool := qname_eqb (fst v) q.
Lemma filter_length {A} (g : A -> bool) l : (List.length (filter g l) <= List.length l)%nat.
Proof. induction l as [|a l IH]; cbn [filter]; [apply le_n|]. destruct (g a); cbn [List.length]; lia. Qed.
Definition count (q : QName) (vs : list Judged) : nat := List.length (filter (is_named q) vs).
Lemma count_app q a b : count q (a ++ b) = (count q a + count q b)%nat.
Proof. unfold count. rewrite filter_app, app_length. reflexivity. Qed.

(** The lists in a sequence and the alternatives of a choice. *)
Lemma matches_sequence p ps vs : matches (PSequence (p :: ps)) vs <-> exists a b, vs = (a ++ b)%list /\ matches p a /\ matches (PSequence ps) b.
Proof. reflexivity. Qed.
Lemma matches_choice p ps vs : matches (PChoice (p :: ps)) vs <-> matches p vs \/ matches (PChoice ps) vs.
Proof. reflexivity. Qed.

Lemma matches_leaves p : forall vs, matches p vs -> Forall (fun v => exists t, In (fst v, t) (leaves p) /\ snd v t) vs.
Proof.
  induction p as [q t l m|ps IH|ps IH|p IH] using Particle_deep; intros vs M.
  - destruct M as [H _]. eapply Forall_impl; [|exact H]. intros v [<- V]. exists t. split; [left; reflexivity|exact V].
  - revert vs M. induction IH as [|p ps Hp _ IHs]; intros vs M.
    + cbn in M. subst vs. constructor.
    + apply matches_sequence in M as (a & b & -> & Ma & Mb). apply Forall_app. split.
      * eapply Forall_impl; [|apply (Hp a Ma)]. intros v (t & I & V). exists t. split; [apply in_or_app; left; exact I|exact V].
      * eapply Forall_impl; [|apply (IHs b Mb)]. intros v (t & I & V). exists t. split; [apply in_or_app; right; exact I|exact V].
  - induction IH as [|p ps Hp _ IHs]; [destruct M|]. apply matches_choice in M as [M|M].
    + eapply Forall_impl; [|apply (Hp vs M)]. intros v (t & I & V). exists t. split; [apply in_or_app; left; exact I|exact V].
    + eapply Forall_impl; [|apply (IHs M)]. intros v (t & I & V). exists t. split; [apply in_or_app; right; exact I|exact V].
  - destruct M as [->|M]; [constructor|apply (IH vs M)].
Qed.
Lemma filter_other {A} q (vs : list (QName * A)) : Forall (fun v => fst v <> q) vs -> filter (is_named q) vs = [].
Proof. induction 1 as [|v vs N _ IH]; [reflexivity|]. cbn [filter]. unfold is_named at 1. rewrite qname_eqb_neq by exact N. exact IH. Qed.
Lemma filter_all {A} q (vs : list (QName * A)) : Forall (fun v => fst v = q) vs -> filter (is_named q) vs = vs.
Proof. induction 1 as [|v vs E _ IH]; [reflexivity|]. cbn [filter]. unfold is_named at 1. rewrite E, qname_eqb_refl, IH. reflexivity. Qed.

Lemma matches_least q p : forall vs, matches p vs -> (least_of q p <= count q vs)%nat.
Proof.
  induction p as [q' t l m|ps IH|ps IH|p IH] using Particle_deep; intros vs M; cbn [least_of].
  - destruct M as (H & Hl & _). destruct (qname_eqb q' q) eqn:E; [|lia]. apply qname_eqb_spec in E. subst q'. unfold count.
    rewrite filter_all; [exact Hl|]. eapply Forall_impl; [|exact H]. intros v [A _]. exact A.
  - revert vs M. induction IH as [|p ps Hp _ IHs]; intros vs M; cbn [fold_right]; [lia|].
    apply matches_sequence in M as (a & b & -> & Ma & Mb). rewrite count_app. specialize (Hp a Ma). specialize (IHs b Mb). lia.
  - destruct IH as [|p ps Hp Hs]; [lia|].
    assert (X : forall ps n, Forall (fun p => forall vs, matches p vs -> (least_of q p <= count q vs)%nat) ps ->
      (n <= count q vs)%nat \/ matches (PChoice ps) vs -> (fold_right (fun p n => Nat.min (least_of q p) n) n ps <= count q vs)%nat).
    { clear. induction ps as [|p ps IH]; intros n H [N|M]; cbn [fold_right]; try exact N; [destruct M| |]; inversion_clear H as [|? ? Hp Hs].
      - specialize (IH n Hs (or_introl N)). lia.
      - apply matches_choice in M as [M|M]; [specialize (Hp vs M)|specialize (IH n Hs (or_intror M))]; lia. }
    apply X; [exact Hs|]. apply matches_choice in M as [M|M]; [left; apply Hp, M|right; exact M].
  - lia.
Qed.
Lemma matches_most q p : forall vs n, matches p vs -> most_of q p = Some n -> (count q vs <= n)%nat.
Proof.
  induction p as [q' t l m|ps IH|ps IH|p IH] using Particle_deep; intros vs n M E; cbn [most_of] in E.
  - destruct M as (H & _ & Hm). destruct (qname_eqb q' q) eqn:Q.
    + subst m. unfold count. cbn in Hm. etransitivity; [apply filter_length|exact Hm].
    + unfold count. rewrite filter_other; [cbn; lia|]. eapply Forall_impl; [|exact H]. intros v [A _] C. rewrite <- A, C, qname_eqb_refl in Q. discriminate.
  - revert vs n M E. induction IH as [|p ps Hp _ IHs]; intros vs n M E; cbn [fold_right] in E.
    + cbn in M. subst vs. cbn. lia.
    + apply matches_sequence in M as (a & b & -> & Ma & Mb). rewrite count_app.
      destruct (most_of q p) as [x|] eqn:Ex; [|discriminate]. destruct (fold_right _ _ ps) as [y|] eqn:Ey; [|discriminate]. injection E as <-.
      specialize (Hp a x Ma eq_refl). specialize (IHs b y Mb eq_refl). lia.
  - revert n E. induction IH as [|p ps Hp _ IHs]; intros n E; [destruct M|]. cbn [fold_right] in E.
    destruct (most_of q p) as [x|] eqn:Ex; [|discriminate]. destruct (fold_right _ _ ps) as [y|] eqn:Ey; [|discriminate]. injection E as <-.
    apply matches_choice in M as [M|M]; [specialize (Hp vs x M eq_refl)|specialize (IHs M y eq_refl)]; lia.
  - destruct M as [->|M]; [cbn; lia|apply (IH vs n M E)].
Qed.

(** The elements in the order of the leaves. *)
Definition in_order {A} (ns : list QName) (vs : list (QName * A)) : list (QName * A) := flat_map (fun q => filter (is_named q) vs) ns.
Lemma in_order_none {A} ns (vs : list (QName * A)) : Forall (fun v => ~ In (fst v) ns) vs -> in_order ns vs = [].
Proof.
  intros H. induction ns as [|q ns IH]; [reflexivity|]. cbn [in_order flat_map]. rewrite filter_other; [cbn [app]; apply IH|].
  - eapply Forall_impl; [|exact H]. intros v N C. apply N. right. exact C.
  - eapply Forall_impl; [|exact H]. intros v N C. apply N. left. symmetry. exact C.
Qed.
Lemma in_order_app {A} ns (a b : list (QName * A)) : Forall (fun v => ~ In (fst v) ns) b -> in_order ns (a ++ b) = in_order ns a.
Proof.
  intros H. induction ns as [|q ns IH]; [reflexivity|]. cbn [in_order flat_map]. rewrite filter_app, (filter_other q b), app_nil_r.
  - f_equal. apply IH. eapply Forall_impl; [|exact H]. intros v N C. apply N. right. exact C.
  - eapply Forall_impl; [|exact H]. intros v N C. apply N. left. symmetry. exact C.
Qed.
Lemma in_order_app' {A} ns (a b : list (QName * A)) : Forall (fun v => ~ In (fst v) ns) a -> in_order ns (a ++ b) = in_order ns b.
Proof.
  intros H. induction ns as [|q ns IH]; [reflexivity|]. cbn [in_order flat_map]. rewrite filter_app, (filter_other q a).
  - cbn [app]. f_equal. apply IH. eapply Forall_impl; [|exact H]. intros v N C. apply N. right. exact C.
  - eapply Forall_impl; [|exact H]. intros v N C. apply N. left. symmetry. exact C.
Qed.
Lemma in_order_names {A} n m (vs : list (QName * A)) : in_order (n ++ m) vs = (in_order n vs ++ in_order m vs)%list.
Proof. unfold in_order. apply flat_map_app. Qed.
Definition names (p : Particle) : list QName := map fst (leaves p).
Lemma matches_names p vs : matches p vs -> Forall (fun v => In (fst v) (names p)) vs.
Proof. intros M. eapply Forall_impl; [|apply (matches_leaves p vs M)]. intros v (t & I & _). apply (in_map fst) in I. exact I. Qed.
Lemma names_sequence p ps : names (PSequence (p :: ps)) = (names p ++ names (PSequence ps))%list.
Proof. unfold names. cbn [leaves flat_map]. apply map_app. Qed.
Lemma names_choice p ps : names (PChoice (p :: ps)) = (names p ++ names (PChoice ps))%list.
Proof. unfold names. cbn [leaves flat_map]. apply map_app. Qed.
Lemma nodup_apart {A} (a b : list A) x : NoDup (a ++ b) -> In x a -> In x b -> False.
Proof.
  induction a as [|y a IH]; intros N Ia Ib; [destruct Ia|]. cbn in N. inversion_clear N as [|? ? Ny N']. destruct Ia as [->|Ia]; [apply Ny, in_or_app; right; exact Ib|apply (IH N' Ia Ib)].
Qed.
Lemma nodup_left {A} (a b : list A) : NoDup (a ++ b) -> NoDup a.
Proof. induction a as [|y a IH]; intros N; [constructor|]. cbn in N. inversion_clear N as [|? ? Ny N']. constructor; [intros C; apply Ny, in_or_app; left; exact C|apply IH, N']. Qed.
Lemma nodup_right {A} (a b : list A) : NoDup (a ++ b) -> NoDup b.
Proof. induction a as [|y a IH]; intros N; [exact N|]. cbn in N. inversion_clear N. auto. Qed.

Lemma matches_sorted p : NoDup (names p) -> forall vs, matches p vs -> in_order (names p) vs = vs.
Proof.
  induction p as [q t l m|ps IH|ps IH|p IH] using Particle_deep; intros ND vs M.
  - destruct M as (H & _). cbn [names leaves map fst in_order flat_map]. rewrite app_nil_r. apply filter_all. eapply Forall_impl; [|exact H]. intros v [A _]. exact A.
  - revert ND vs M. induction IH as [|p ps Hp _ IHs]; intros ND vs M.
    + cbn in M. subst vs. reflexivity.
    + apply matches_sequence in M as (a & b & -> & Ma & Mb). rewrite names_sequence in *. rewrite in_order_names.
      pose proof (matches_names p a Ma) as Na. pose proof (matches_names (PSequence ps) b Mb) as Nb.
      rewrite in_order_app, in_order_app'.
      * rewrite (Hp (nodup_left _ _ ND) a Ma), (IHs (nodup_right _ _ ND) b Mb). reflexivity.
      * eapply Forall_impl; [|exact Na]. intros v I C. apply (nodup_apart _ _ _ ND I C).
      * eapply Forall_impl; [|exact Nb]. intros v I C. apply (nodup_apart _ _ _ ND C I).
  - revert ND. induction IH as [|p ps Hp _ IHs]; intros ND; [destruct M|]. rewrite names_choice in *. rewrite in_order_names.
    apply matches_choice in M as [M|M].
    + rewrite (Hp (nodup_left _ _ ND) vs M), in_order_none; [apply app_nil_r|].
      eapply Forall_impl; [|apply (matches_names p vs M)]. intros v I C. apply (nodup_apart _ _ _ ND I C).
    + rewrite (IHs M (nodup_right _ _ ND)), in_order_none; [reflexivity|].
      eapply Forall_impl; [|apply (matches_names (PChoice ps) vs M)]. intros v I C. apply (nodup_apart _ _ _ ND C I).
  - destruct M as [->|M]; [|apply (IH ND vs M)]. apply in_order_none. constructor.
Qed.

(** Elements of the same names that are valid where these are. *)
Lemma Forall2_app_inv {A B} (R : A -> B -> Prop) a b ws : Forall2 R (a ++ b) ws -> exists c d, ws = (c ++ d)%list /\ Forall2 R a c /\ Forall2 R b d.
Proof. intros H. apply Forall2_app_inv_l in H as (c & d & A1 & A2 & ->). exists c, d. auto. Qed.
Lemma matches_mono p : forall vs ws, matches p vs ->
  Forall2 (fun v w : Judged => fst v = fst w /\ forall t, In (fst v, t) (leaves p) -> snd v t -> snd w t) vs ws -> matches p ws.
Proof.
  induction p as [q t l m|ps IH|ps IH|p IH] using Particle_deep; intros vs ws M H.
  - destruct M as (Hv & Hl & Hm). assert (Len : List.length vs = List.length ws) by (eapply Forall2_same_length, H).
    split; [|split; [rewrite <- Len; exact Hl|destruct m; cbn in *; [rewrite <- Len; exact Hm|exact I]]].
    clear Hl Hm Len. induction H as [|v w vs ws [E V] _ IH]; constructor.
    + inversion_clear Hv as [|? ? [A B] _]. split; [rewrite <- E; exact A|]. apply V; [left; rewrite A; reflexivity|exact B].
    + apply IH. inversion_clear Hv. assumption.
  - revert vs ws M H. induction IH as [|p ps Hp _ IHs]; intros vs ws M H.
    + cbn in M. subst vs. inversion H. reflexivity.
    + apply matches_sequence in M as (a & b & -> & Ma & Mb). apply Forall2_app_inv in H as (c & d & -> & Hc & Hd).
      apply matches_sequence. exists c, d. split; [reflexivity|]. split.
      * apply (Hp a c Ma). eapply Forall2_impl_in; [exact Hc|]. intros v w _ _ [E V]. split; [exact E|]. intros t I. apply V, in_or_app. left. exact I.
      * apply (IHs b d Mb). eapply Forall2_impl_in; [exact Hd|]. intros v w _ _ [E V]. split; [exact E|]. intros t I. apply V, in_or_app. right. exact I.
  - induction IH as [|p ps Hp _ IHs]; [destruct M|]. apply matches_choice in M as [M|M]; apply matches_choice.
    + left. apply (Hp vs ws M). eapply Forall2_impl_in; [exact H|]. intros v w _ _ [E V]. split; [exact E|]. intros t I. apply V, in_or_app. left. exact I.
    + right. apply (IHs M). eapply Forall2_impl_in; [exact H|]. intros v w _ _ [E V]. split; [exact E|]. intros t I. apply V, in_or_app. right. exact I.
  - destruct M as [->|M]; [left; inversion H; reflexivity|right; apply (IH vs ws M H)].
Qed.

(** The elements of a name in a sequence can be replaced. *)
Definition replaced {A} (q : QName) (new : list (QName * A)) (ns : list QName) (vs : list (QName * A)) : list (QName * A) :=
  flat_map (fun n => if qname_eqb n q then new else filter (is_named n) vs) ns.
Lemma replaced_none {A} q (new : list (QName * A)) ns vs : ~ In q ns -> replaced q new ns vs = in_order ns vs.
Proof.
  intros N. induction ns as [|n ns IH]; [reflexivity|]. cbn [replaced in_order flat_map]. rewrite qname_eqb_neq by (intros C; apply N; left; exact C).
  f_equal. apply IH. intros C. apply N. right. exact C.
Qed.
Lemma replaced_app {A} q (new : list (QName * A)) ns a b : Forall (fun v => ~ In (fst v) ns) b -> replaced q new ns (a ++ b) = replaced q new ns a.
Proof.
  intros H. induction ns as [|n ns IH]; [reflexivity|]. cbn [replaced flat_map]. rewrite filter_app, (filter_other n b), app_nil_r.
  - f_equal. apply IH. eapply Forall_impl; [|exact H]. intros v N C. apply N. right. exact C.
  - eapply Forall_impl; [|exact H]. intros v N C. apply N. left. symmetry. exact C.
Qed.
Lemma replaced_app' {A} q (new : list (QName * A)) ns a b : Forall (fun v => ~ In (fst v) ns) a -> replaced q new ns (a ++ b) = replaced q new ns b.
Proof.
  intros H. induction ns as [|n ns IH]; [reflexivity|]. cbn [replaced flat_map]. rewrite filter_app, (filter_other n a).
  - cbn [app]. f_equal. apply IH. eapply Forall_impl; [|exact H]. intros v N C. apply N. right. exact C.
  - eapply Forall_impl; [|exact H]. intros v N C. apply N. left. symmetry. exact C.
Qed.
Lemma matches_replaced q t l m new : Forall (fun v => fst v = q /\ snd v t) new -> (l <= List.length new)%nat -> longest m (@List.length Judged) new ->
  forall ps, In (PElement q t l m) ps -> NoDup (names (PSequence ps)) ->
  forall vs, matches (PSequence ps) vs -> matches (PSequence ps) (replaced q new (names (PSequence ps)) vs).
Proof.
  intros Hn Hl Hm. induction ps as [|p ps IH]; intros I ND vs M; [destruct I|].
  apply matches_sequence in M as (a & b & -> & Ma & Mb). rewrite names_sequence in *.
  pose proof (matches_names p a Ma) as Na. pose proof (matches_names (PSequence ps) b Mb) as Nb.
  apply matches_sequence. unfold replaced. rewrite flat_map_app. fold (replaced q new (names p) (a ++ b)) (replaced q new (names (PSequence ps)) (a ++ b)).
  rewrite replaced_app, replaced_app'.
  - exists (replaced q new (names p) a), (replaced q new (names (PSequence ps)) b). split; [reflexivity|]. destruct I as [->|I].
    + split.
      * cbn [names leaves map fst replaced flat_map]. rewrite qname_eqb_refl, app_nil_r. split; [exact Hn|]. split; assumption.
      * rewrite replaced_none; [rewrite (matches_sorted (PSequence ps) (nodup_right _ _ ND) b Mb); exact Mb|]. intros C. apply (nodup_apart _ _ q ND); [left; reflexivity|exact C].
    + split; [|apply (IH I (nodup_right _ _ ND) b Mb)]. rewrite replaced_none; [rewrite (matches_sorted _ (nodup_left _ _ ND) a Ma); exact Ma|].
      intros C. apply (nodup_apart _ _ q ND C). unfold names. cbn [leaves]. apply (in_map fst) with (x := (q, t)). apply in_flat_map. exists (PElement q t l m). split; [exact I|left; reflexivity].
  - eapply Forall_impl; [|exact Na]. intros v J C. apply (nodup_apart _ _ _ ND J C).
  - eapply Forall_impl; [|exact Nb]. intros v J C. apply (nodup_apart _ _ _ ND C J).
Qed.

(** *** Valid documents are parsed and rendered *)
Section Valid_proofs.
Context {F D T : Type}.
Notation Obj := (Obj F D T).
Variable L : Lexical F D T.
Variable X : XsdTexts F D T.
Variable S : Schema.
Hypothesis LO : lexical_ok L.
Hypothesis SO : schema_ok S.
Hypothesis AG : agrees X L.

Notation valid_text := (valid_simple X false).

Lemma same_list_spec a : forall b, same_list a b = true -> a = b.
Proof.
  induction a as [|x a IH]; intros [|y b] E; try discriminate; [reflexivity|]. cbn in E. apply andb_true_iff in E as [E1 E2].
  apply String.eqb_eq in E1. subst y. rewrite (IH b E2). reflexivity.
Qed.
Lemma same_texts_spec a b : same_texts a b = true -> forall v, In v a <-> In v b.
Proof.
  unfold same_texts. destruct (same_list a b) eqn:E; [apply same_list_spec in E; subst b; tauto|].
  intros H v. apply andb_true_iff in H as [A B]. rewrite forallb_forall in A, B. split; intros I.
  - specialize (A v I). apply existsb_exists in A as (w & Iw & E'). apply String.eqb_eq in E'. subst w. exact Iw.
  - specialize (B v I). apply existsb_exists in B as (w & Iw & E'). apply String.eqb_eq in E'. subst w. exact Iw.
Qed.
Lemma tidy_spec vs v : tidy vs = true -> In v vs -> v <> "" /\ collapse v = v.
Proof.
  unfold tidy. rewrite forallb_forall. intros H I. specialize (H v I). apply andb_true_iff in H as [A B].
  split; [|apply String.eqb_eq, B]. intros ->. discriminate.
Qed.
(** A text of an enumeration names a member. *)
Lemma enum_text c vs e text : tidy vs = true -> same_texts vs (values S e) = true -> valid_text (SEnum c vs) text ->
  member S e text = Some (collapse text) /\ In (collapse text) (values S e) /\ valid_text (SEnum c vs) (collapse text).
Proof.
  intros Td Sm V. cbn [valid_simple] in *.
  assert (I : In (collapse text) vs /\ collapse (collapse text) = collapse text).
  { destruct c; [split; [exact V|apply (tidy_spec vs _ Td V)]|]. destruct (tidy_spec vs _ Td V) as [_ E]. rewrite E. split; [exact V|exact E]. }
  destruct I as [I E]. pose proof (proj1 (same_texts_spec _ _ Sm _) I) as J. split; [|split; [exact J|rewrite E; destruct c; exact I]].
  unfold member. destruct (find _ _) as [m|] eqn:Fm.
  - apply find_some in Fm as [_ Q]. apply String.eqb_eq in Q. subst m. reflexivity.
  - pose proof (find_none _ _ Fm _ J) as Q. cbn in Q. rewrite String.eqb_refl in Q. discriminate.
Qed.
Lemma fits_value s t text : fits_simple S s t = true -> valid_text s text ->
  text_type t /\ value_ok S t (read L S t text) /\ valid_text s (show L (read L S t text)).
Proof.
  destruct AG as (Ri & Si & Rf & Sf & Rd & Sd & Rt & St).
  assert (U : forall a b e, (valid_text a text \/ valid_text b text) ->
     (exists c vs c' m ps, tidy vs = true /\ same_texts vs (values S e) = true /\ (a = SEnum c vs /\ b = SString c' m ps \/ b = SEnum c vs /\ a = SString c' m ps)) ->
     value_ok S (TEnumOrStr e) (read L S (TEnumOrStr e) text) /\ (valid_text a (show L (read L S (TEnumOrStr e) text)) \/ valid_text b (show L (read L S (TEnumOrStr e) text)))).
  { intros a b e V (c & vs & c' & m & ps & Td & Sm & Sh). cbn [read]. destruct (member S e text) as [w|] eqn:M.
    - pose proof (member_in S e text w M) as I. cbn [show value_ok]. split; [split; [reflexivity|exact I]|].
      pose proof (proj2 (same_texts_spec _ _ Sm _) I) as J. destruct (tidy_spec vs _ Td J) as [_ E].
      assert (W : valid_text (SEnum c vs) w) by (cbn [valid_simple]; rewrite E; destruct c; exact J). destruct Sh as [[-> _]|[-> _]]; tauto.
    - cbn [show value_ok]. split; [|exact V]. intros I. unfold member in M. pose proof (find_none _ _ M _ I) as Q. cbn in Q. rewrite String.eqb_refl in Q. discriminate. }
  intros H V. destruct s as [c m ps|c vs|lo hi|lo hi|only| | |s m|a b]; destruct t as [[]|e|e|k]; try discriminate H; try (destruct a, b; discriminate H).
  - split; [exact I|]. split; [exact I|]. exact V.
  - cbn [fits_simple] in H. apply andb_true_iff in H as [Td Sm]. destruct (enum_text c vs e text Td Sm V) as (M & I' & W).
    cbn [read]. rewrite M. cbn [show value_ok]. repeat split; auto.
  - destruct V as (z & A & B). cbn [read read_prim]. rewrite (Ri _ _ A). cbn [option_map show value_ok]. repeat split. exists z. split; [apply Si|exact B].
  - destruct V as (z & A & B). cbn [read read_prim]. rewrite (Rf _ _ A). cbn [option_map show value_ok]. repeat split. exists z. split; [apply Sf|exact B].
  - cbn [read read_prim valid_simple] in *. assert (R : exists b, read_bool (collapse text) = Some b /\ only <> Some (negb b)).
    { unfold read_bool. destruct V as [[[<-|[<-|[]]] N]|[[<-|[<-|[]]] N]]; cbn; [exists true|exists true|exists false|exists false]; split; auto. }
    destruct R as (b & -> & N). cbn [option_map show value_ok]. repeat split. destruct b; cbn [negb] in N; [left|right]; (split; [left; reflexivity|exact N]).
  - destruct V as (z & A). cbn [read read_prim]. rewrite (Rd _ _ A). cbn [option_map show value_ok]. repeat split. exists z. apply Sd.
  - destruct V as (z & A). cbn [read read_prim]. rewrite (Rt _ _ A). cbn [option_map show value_ok]. repeat split. exists z. apply St.
  - split; [exact I|]. split; [exact I|]. exact V.
  - split; [exact I|]. cbn [valid_simple] in *. apply U; [exact V|].
    destruct a, b; try discriminate H; cbn [fits_simple] in H; apply andb_true_iff in H as [Td Sm]; do 5 eexists; (split; [exact Td|]); (split; [exact Sm|]); [right|left]; split; reflexivity.
Qed.

Lemma slot_one f text : mult f = One -> slot_text L (read_slot L S f text) = show L (read L S (ty f) text).
Proof. intros M. unfold read_slot. rewrite M. reflexivity. Qed.
Lemma fits_slot s f text : fits_text S s f = true -> valid_text s text ->
  settle f (read_slot L S f text) = Ok (read_slot L S f text) /\ read_slot L S f text <> [] /\ Forall (typed L S (ty f)) (read_slot L S f text)
  /\ Forall (fun o : Obj => complete S o) (read_slot L S f text) /\ valid_text s (slot_text L (read_slot L S f text)).
Proof.
  unfold fits_text. intros H V. apply andb_true_iff in H as [Fx H]. destruct (mult f) eqn:M; [|discriminate|].
  - destruct (fits_value s (ty f) text H V) as (TT & VO & W). rewrite (slot_one f text M).
    assert (E : read_slot L S f text = [Leaf (read L S (ty f) text)]) by (unfold read_slot; rewrite M; reflexivity). rewrite E.
    split; [|split; [discriminate|split; [constructor; [split; assumption|constructor]|split; [constructor; [exact I|constructor]|exact W]]]].
    unfold settle, fits_fixed in *. destruct (default f) as [| |z|b]; try reflexivity.
    + destruct s as [| |[l|] [h|]| | | | | |]; try discriminate Fx. apply andb_true_iff in Fx as [A B]. apply Z.eqb_eq in A, B. subst l h.
      destruct (ty f) as [[]|e|e|c]; try discriminate H. destruct V as (z' & A & B & C). destruct AG as (Ri & _). cbn [read read_prim]. rewrite (Ri _ _ A). cbn [option_map].
      assert (z' = z) by lia. subst z'. rewrite Z.eqb_refl. reflexivity.
    + destruct s as [| | | |[b'|]| | | |]; try discriminate Fx. apply Bool.eqb_prop in Fx. subst b'.
      destruct (ty f) as [[]|e|e|c]; try discriminate H. cbn [read read_prim]. unfold read_bool.
      destruct V as [[[<-|[<-|[]]] N]|[[<-|[<-|[]]] N]]; destruct b; try (exfalso; apply N; reflexivity); reflexivity.
  - destruct s as [| | | | | | |s m|]; try discriminate. destruct V as (Vs & Vm & Ve). destruct Ve as [Ve|Ve]; [discriminate|].
    assert (E : read_slot L S f text = map (fun w => Leaf (read L S (ty f) w)) (words text)) by (unfold read_slot; rewrite M; reflexivity). rewrite E.
    assert (Q : Forall (fun w => text_type (ty f) /\ value_ok S (ty f) (read L S (ty f) w) /\ valid_text s (show L (read L S (ty f) w))) (words text)).
    { eapply Forall_impl; [|exact Vs]. intros w Vw. apply (fits_value s (ty f) w H Vw). }
    assert (St : slot_text L (map (fun w => Leaf (read L S (ty f) w)) (words text)) = String.concat " " (map (fun w => show L (read L S (ty f) w)) (words text))).
    { unfold slot_text. rewrite map_map. reflexivity. }
    split; [|split; [|split; [|split]]].
    + unfold settle. destruct (default f); try reflexivity; discriminate Fx.
    + intros C. apply Ve. eapply map_eq_nil, C.
    + rewrite Forall_map. eapply Forall_impl; [|exact Q]. intros w (A & B & _). split; assumption.
    + rewrite Forall_map. apply Forall_forall. intros w _. exact I.
    + rewrite St. cbn [valid_simple]. rewrite words_concat.
      * split; [rewrite Forall_map; eapply Forall_impl; [|exact Q]; intros w (_ & _ & C); exact C|].
        split; [destruct m; cbn in *; [rewrite map_length; exact Vm|exact I]|]. right. intros C. apply Ve. eapply map_eq_nil, C.
      * rewrite Forall_map. apply Forall_forall. intros w Iw. rewrite Forall_forall in Q. apply (word_shown L S LO); [apply (Q w Iw)|].
        pose proof (words_are_words text) as W. rewrite Forall_forall in W. apply (W w Iw).
Qed.
(** A default that is written though the attribute or text was absent. *)
Lemma fits_default s f : fits_text S s f = true -> field_ok f ->
  default f <> EmptyString ->
  Forall (typed L S (ty f)) (default_slot (default f)) /\ Forall (fun o : Obj => complete S o) (default_slot (default f))
  /\ (default_slot (F := F) (D := D) (T := T) (default f) <> [] -> valid_text s (slot_text L (default_slot (default f)))).
Proof.
  unfold fits_text. intros H [_ FD] NE. apply andb_true_iff in H as [Fx _]. destruct (default f) as [| |z|b]; cbn [default_slot fits_fixed] in *.
  - split; [constructor|]. split; [constructor|]. intros C. contradiction.
  - contradiction.
  - rewrite FD. split; [constructor; [split; exact I|constructor]|]. split; [constructor; [exact I|constructor]|]. intros _.
    destruct s as [| |[l|] [h|]| | | | | |]; try discriminate Fx. apply andb_true_iff in Fx as [A B]. apply Z.eqb_eq in A, B. subst l h.
    exists z. split; [apply AG|split; lia].
  - rewrite FD. split; [constructor; [split; exact I|constructor]|]. split; [constructor; [exact I|constructor]|]. intros _.
    destruct s as [| | | |[b'|]| | | |]; try discriminate Fx. apply Bool.eqb_prop in Fx. subst b'.
    destruct b; [left|right]; (split; [left; reflexivity|discriminate]).
Qed.
Lemma not_empty s f : fits_text S s f = true -> may_be_empty s = false -> ~ valid_text s "".
Proof.
  intros H M V. destruct AG as (Ri & _ & Rf & _ & Rd & _ & Rt & _). destruct LO as (_ & Ni & _ & Nf & _ & Nd & _ & Nt & _).
  destruct s as [c m ps|c vs|lo hi|lo hi|only| | |s m|a b]; try discriminate M.
  - unfold fits_text in H. apply andb_true_iff in H as [_ H]. destruct (mult f); try discriminate H.
    destruct (ty f) as [[]|e|e|k]; try discriminate H. cbn [fits_simple] in H. apply andb_true_iff in H as [Td _].
    cbn [valid_simple] in V. assert (In "" vs) by (destruct c; exact V). destruct (tidy_spec vs "" Td H) as [N _]. apply N. reflexivity.
  - destruct V as (z & A & _). rewrite (Ri _ _ A) in Ni. discriminate.
  - destruct V as (z & A & _). rewrite (Rf _ _ A) in Nf. discriminate.
  - destruct V as [[[C|[C|[]]] _]|[[C|[C|[]]] _]]; discriminate C.
  - destruct V as (z & A). rewrite (Rd _ _ A) in Nd. discriminate.
  - destruct V as (z & A). rewrite (Rt _ _ A) in Nt. discriminate.
  - destruct V as (_ & _ & [C|C]); [discriminate|]. apply C. reflexivity.
Qed.

(** *** Elements *)
Variable types : list XClass.
Variable pairs : list (string * string).
Hypothesis FIT : all_fit S pairs types = true.
Notation valid_as := (valid X false types).
Notation fits_as := (fits_type S pairs).

Lemma valid_simple_node q a text kids s : valid_as (Node q a text kids) (XSimple s) <-> kids = [] /\ valid_text s text.
Proof. reflexivity. Qed.
Lemma valid_node q a text kids n : valid_as (Node q a text kids) (XComplex n) <->
  exists k, find_xclass types n = Some k /\ matches (x_particle k) (map (fun y => (tag y, valid_as y)) kids)
  /\ match x_text k with Some s => valid_text s text | None => True end /\ Forall (valid_attribute X false a) (x_attributes k).
Proof. reflexivity. Qed.
Lemma pair_fits c n : fits_as (XComplex n) (TClass c) = true ->
  exists k x, find_class S c = Some k /\ find_xclass types n = Some x /\ fits S pairs k x = true.
Proof.
  cbn [fits_type]. intros H. apply existsb_exists in H as ([c' n'] & I & E). cbn [fst snd] in E. apply andb_true_iff in E as [E1 E2].
  apply String.eqb_eq in E1, E2. subst c' n'. unfold all_fit in FIT. rewrite forallb_forall in FIT. specialize (FIT _ I). cbn [fst snd] in FIT.
  destruct (find_class S c) as [k|]; [|discriminate]. destruct (find_xclass types n) as [x|]; [|discriminate]. exists k, x. auto.
Qed.
Lemma fits_elements_names fs ls : fits_elements S pairs fs ls = true -> map qname fs = map fst ls.
Proof.
  revert ls. induction fs as [|f fs IH]; intros [|l ls] H; try discriminate; [reflexivity|]. cbn [fits_elements] in H.
  apply andb_true_iff in H as [H H2]. apply andb_true_iff in H as [H _]. apply qname_eqb_spec in H. cbn [map]. rewrite H, (IH ls H2). reflexivity.
Qed.
Lemma fits_elements_leaf fs ls q t : fits_elements S pairs fs ls = true -> In (q, t) ls -> exists f, In f fs /\ qname f = q /\ fits_as t (ty f) = true.
Proof.
  revert ls. induction fs as [|f fs IH]; intros [|l ls] H I; try discriminate; [destruct I|]. cbn [fits_elements] in H.
  apply andb_true_iff in H as [H H2]. apply andb_true_iff in H as [H H1]. apply qname_eqb_spec in H. destruct I as [->|I].
  - exists f. split; [left; reflexivity|]. split; [exact H|exact H1].
  - destruct (IH ls H2 I) as (g & Ig & A). exists g. split; [right; exact Ig|exact A].
Qed.
Lemma same_leaf (ls : list (QName * XTy)) q t u : NoDup (map fst ls) -> In (q, t) ls -> In (q, u) ls -> t = u.
Proof.
  induction ls as [|l ls IH]; intros N A B; [destruct A|]. cbn in N. inversion_clear N as [|? ? Nl N'].
  destruct A as [->|A], B as [B|B].
  - congruence.
  - exfalso. apply Nl. apply (in_map fst) in B. exact B.
  - subst l. exfalso. apply Nl. apply (in_map fst) in A. exact A.
  - apply (IH N' A B).
Qed.

Lemma parse_children_succeeds p k : NoDup (map qname (filter is_element (c_fields k))) ->
  forall kids parsed seen,
  Forall2 (fun y r => fst r = tag y /\ exists f, In f (c_fields k) /\ is_element f = true /\ qname f = tag y /\ p (ty f) y = Ok (snd r)) kids parsed ->
  (forall f, In f (c_fields k) -> is_element f = true -> is_one f = true ->
     let n := List.length (filter (fun y => qname_eqb (tag y) (qname f)) kids) in (n <= 1)%nat /\ (In (qname f) seen -> n = 0%nat)) ->
  parse_children (F := F) (D := D) (T := T) p k kids seen = Ok parsed.
Proof.
  intros ND. induction kids as [|y kids IH]; intros parsed seen H C; [inversion_clear H; reflexivity|]. destruct parsed as [|r pr]; inversion H as [|? ? ? ? (Er & f & If & Ie & Qf & Pf) H']; subst.
  cbn [parse_children]. rewrite <- Qf, (find_element_self k f ND If Ie). rewrite Pf. cbn [bind].
  destruct (is_one f && existsb (qname_eqb (qname f)) seen)%bool eqn:G.
  - exfalso. apply andb_true_iff in G as [Io G]. apply existsb_exists in G as (q & Iq & Eq). apply qname_eqb_spec in Eq. subst q.
    destruct (C f If Ie Io) as [_ C2]. specialize (C2 Iq). cbn [filter] in C2. rewrite <- Qf, qname_eqb_refl in C2. discriminate.
  - rewrite (IH pr (qname f :: seen) H').
    + cbn [bind]. destruct r as [q o]. cbn [fst snd] in *. rewrite Qf, Er. reflexivity.
    + intros g Ig Eg Og. destruct (C g Ig Eg Og) as [C1 C2]. cbn [filter] in *. destruct (qname_eqb (tag y) (qname g)) eqn:Q; cbn [List.length] in *.
      * split; [lia|]. intros _. lia.
      * split; [exact C1|]. intros [E|I']; [|apply C2, I']. exfalso. rewrite <- Qf, E, qname_eqb_refl in Q. discriminate.
Qed.
Lemma collect_succeeds {A B} (g : A -> res B) (P : A -> B -> Prop) l : (forall a, In a l -> exists b, g a = Ok b /\ P a b) ->
  exists bs, collect g l = Ok bs /\ Forall2 (fun b a => P a b) bs l.
Proof.
  induction l as [|a l IH]; intros H; [exists []; split; [reflexivity|constructor]|].
  destruct (H a (or_introl eq_refl)) as (b & Eb & Pb). destruct IH as (bs & Ec & Fc); [intros x I; apply H; right; exact I|].
  exists (b :: bs). cbn [collect]. rewrite Eb. cbn [bind]. rewrite Ec. split; [reflexivity|constructor; assumption].
Qed.
Lemma complete_all c k slots : find_class S c = Some k ->
  Forall2 (fun s f => (required f = true -> s <> []) /\ Forall (fun o : Obj => complete S o) s) slots (c_fields k) -> complete S (Inst c slots).
Proof.
  intros Ek H. exists k. split; [exact Ek|]. revert H. generalize (c_fields k). clear. induction slots as [|s sr IH]; intros fs H; inversion_clear H as [|? f ? fr [A B] H']; [exact I|].
  split; [exact A|]. split; [|apply IH, H']. clear - B. induction B; [exact I|]. split; assumption.
Qed.
Definition judged (x : Xml) : Judged := (tag x, valid_as x).
Definition judged_parsed (p : QName * Obj) : Judged := judged (render L S (fst p) (snd p)).
Lemma judged_children parsed : forall fs slots,
  Forall2 (fun s f => is_element f = true -> s = map snd (filter (fun p => qname_eqb (fst p) (qname f)) parsed)) slots fs ->
  map judged (render_children L S slots fs) = in_order (map qname (filter is_element fs)) (map judged_parsed parsed).
Proof.
  induction fs as [|f fs IH]; intros slots H; inversion_clear H as [|s ? sr ? A H']; [reflexivity|].
  cbn [render_children filter]. rewrite map_app, (IH sr H'). destruct (is_element f); [|reflexivity]. rewrite (A eq_refl).
  cbn [map in_order flat_map]. f_equal. clear. induction parsed as [|p parsed IH]; [reflexivity|]. cbn [filter map]. unfold is_named at 1. unfold judged_parsed at 1. unfold judged at 2. cbn [fst].
  rewrite tag_render. destruct (qname_eqb (fst p) (qname f)) eqn:E; [|exact IH]. cbn [map]. rewrite IH. f_equal. apply qname_eqb_spec in E. unfold judged_parsed. rewrite E. reflexivity.
Qed.
Lemma content_first (fs : list Field) f : hd_error (filter is_content fs) = Some f -> In f fs /\ kind f = Content.
Proof.
  destruct (filter is_content fs) as [|g r] eqn:E; [discriminate|]. intros H. injection H as ->. assert (I' : In f (filter is_content fs)) by (rewrite E; left; reflexivity).
  apply filter_In in I' as [A B]. split; [exact A|]. unfold is_content in B. destruct (kind f); [discriminate|discriminate|reflexivity].
Qed.
Lemma content_only (fs : list Field) f : (List.length (filter is_content fs) <= 1)%nat -> In f fs -> kind f = Content -> hd_error (filter is_content fs) = Some f.
Proof.
  intros N I' K. assert (J : In f (filter is_content fs)) by (apply filter_In; split; [exact I'|unfold is_content; rewrite K; reflexivity]).
  destruct (filter is_content fs) as [|g [|h r]]; [destruct J|destruct J as [->|[]]; reflexivity|cbn in N; lia].
Qed.
Lemma typed_all c k slots : find_class S c = Some k -> shaped L S (stable L S) (TClass c) (Inst c slots) ->
  Forall2 (fun s f => Forall (typed L S (ty f)) s) slots (c_fields k) -> typed L S (TClass c) (Inst c slots).
Proof.
  intros Ek H R. apply shaped_inst in H as [_ (k' & Ek' & R')]. rewrite Ek in Ek'. injection Ek' as <-. apply shaped_inst. split; [reflexivity|]. exists k. split; [exact Ek|].
  clear Ek. revert R R'. generalize (c_fields k). clear. induction slots as [|s sr IH]; intros fs R R'; destruct fs as [|f fr]; inversion R; subst; [constructor|]. inversion R' as [|? ? ? ? [A _] R2]; subst. constructor; [split; assumption|apply IH; assumption].
Qed.

Lemma parsed_exists {A B} (R : A -> B -> Prop) l : (forall a, In a l -> exists b, R a b) -> exists bs, Forall2 R l bs.
Proof.
  induction l as [|a l IH]; intros H; [exists []; constructor|]. destruct (H a (or_introl eq_refl)) as (b & Rb).
  destruct IH as (bs & Hb); [intros x I; apply H; right; exact I|]. exists (b :: bs). constructor; assumption.
Qed.
Lemma filter_kids q kids (parsed : list (QName * Obj)) R : Forall2 (fun y r => fst r = tag y /\ R y r) kids parsed ->
  List.length (filter (fun y => qname_eqb (tag y) q) kids) = List.length (filter (fun p => qname_eqb (fst p) q) parsed).
Proof.
  induction 1 as [|y r kids parsed [E _] _ IH]; [reflexivity|]. cbn [filter]. rewrite E. destruct (qname_eqb (tag y) q); cbn [List.length]; rewrite IH; reflexivity.
Qed.
Lemma count_judged q kids : count q (map judged kids) = List.length (filter (fun y => qname_eqb (tag y) q) kids).
Proof.
  unfold count. induction kids as [|y kids IH]; [reflexivity|]. cbn [map filter]. unfold is_named at 1. cbn [judged fst]. destruct (qname_eqb (tag y) q); cbn [List.length]; rewrite IH; reflexivity.
Qed.

(** A valid element is parsed to a typed and complete object that is rendered to valid elements. *)
Lemma valid_parsed x : forall t u, fits_as t u = true -> valid_as x t ->
  exists o, parse L S u x = Ok o /\ typed L S u o /\ complete S o /\ forall q, valid_as (render L S q o) t.
Proof.
  induction x as [q0 a text kids IH] using Xml_deep. intros t u H V. destruct t as [s|n].
  - assert (TT : text_type u /\ fits_simple S s u = true) by (destruct u; [split; [exact I|exact H]..|discriminate]). destruct TT as [TT Fs].
    apply valid_simple_node in V as [-> V]. destruct (fits_value s u text Fs V) as (_ & VO & W).
    exists (Leaf (read L S u text)). split; [|split; [split; assumption|split; [exact I|intros q; apply valid_simple_node; split; [reflexivity|exact W]]]].
    assert (E : (if String.eqb text "" then VStr "" else read L S u text) = read L S u text).
    { destruct (String.eqb_spec text "") as [->|_]; [symmetry; apply (read_nothing L S LO SO)|reflexivity]. }
    destruct u; cbn [parse]; [rewrite E; reflexivity..|destruct TT].
  - destruct u as [p|e|e|c]; try discriminate H. destruct (pair_fits c n H) as (k & x & Ek & Ex & Ft). clear H.
    apply valid_node in V as (x' & Ex' & M & Vt & Va). rewrite Ex in Ex'. injection Ex' as <-.
    change (map (fun y => (tag y, valid_as y)) kids) with (map judged kids) in M.
    destruct (find_class_ok S SO c k Ek) as [(FO & NE & NA & NC & _) _]. rewrite Forall_forall in FO.
    unfold fits in Ft. apply andb_true_iff in Ft as [Ft Fa2]. apply andb_true_iff in Ft as [Ft Fa1]. apply andb_true_iff in Ft as [Ft Fc]. apply andb_true_iff in Ft as [Fe Fn].
    rewrite forallb_forall in Fa1, Fa2, Fn. rewrite Forall_forall in IH, Va.
    pose proof (fits_elements_names _ _ Fe) as En. assert (ND : NoDup (names (x_particle x))) by (unfold names; rewrite <- En; exact NE).
    (* the children *)
    assert (P : exists parsed, Forall2 (fun y r => fst r = tag y /\
       ((exists f, In f (c_fields k) /\ is_element f = true /\ qname f = tag y /\ parse L S (ty f) y = Ok (snd r) /\ typed L S (ty f) (snd r) /\ complete S (snd r))
        /\ forall t, In (tag y, t) (leaves (x_particle x)) -> forall q, valid_as (render L S q (snd r)) t)) kids parsed).
    { apply parsed_exists. intros y Iy. pose proof (matches_leaves _ _ M) as ML. rewrite Forall_forall in ML.
      destruct (ML (judged y) (in_map judged _ _ Iy)) as (t & It & Vy). cbn [judged fst snd] in It, Vy.
      destruct (fits_elements_leaf _ _ _ _ Fe It) as (f & If & Qf & Ff). apply filter_In in If as [If Ie].
      destruct (IH y Iy t (ty f) Ff Vy) as (o & Po & To & Co & Ro). exists (tag y, o). cbn [fst snd]. split; [reflexivity|]. split.
      - exists f. repeat split; assumption.
      - intros t' It'. rewrite <- (same_leaf _ _ _ _ ND It It'). exact Ro. }
    destruct P as (parsed & P).
    assert (PC : parse_children (parse L S) k kids [] = Ok parsed).
    { apply (parse_children_succeeds (parse L S) k NE).
      - apply (Forall2_impl_in _ _ _ _ P). intros y r _ _ (E & (f & A1 & A2 & A3 & A4 & _) & _). split; [exact E|]. exists f. auto.
      - intros f If Ie Io. cbn zeta. split; [|intros []]. rewrite <- count_judged.
        assert (If' : In f (filter is_element (c_fields k))) by (apply filter_In; split; assumption).
        specialize (Fn f If'). apply andb_true_iff in Fn as [Fn _]. rewrite Io in Fn. cbn [negb orb] in Fn. unfold at_most_one in Fn.
        destruct (most_of (qname f) (x_particle x)) as [m|] eqn:Em; [|discriminate]. apply Nat.leb_le in Fn. pose proof (matches_most _ _ _ _ M Em). lia. }
    set (good := fun (f : Field) (s : list Obj) =>
       Forall (typed L S (ty f)) s /\ Forall (fun o : Obj => complete S o) s /\ (required f = true -> s <> [])
       /\ match kind f with
          | Element => s = map snd (filter (fun p => qname_eqb (fst p) (qname f)) parsed)
          | Attribute => forall b, In b (x_attributes x) -> fits_attribute S b f = true ->
              match s with [] => xa_required b = false | _ => valid_text (xa_type b) (slot_text L s) end
          | Content => forall t, x_text x = Some t -> valid_text t (slot_text L s)
          end).
    destruct (collect_succeeds (fill L S a text parsed) good (c_fields k)) as (slots & Ec & G).
    { intros f If. pose proof (FO f If) as Ff. unfold good, fill. destruct (kind f) eqn:K.
      - assert (Ie : is_element f = true) by (unfold is_element; rewrite K; reflexivity).
        assert (If' : In f (filter is_element (c_fields k))) by (apply filter_In; split; assumption).
        eexists. split; [reflexivity|].
        assert (Each : forall o, In o (map snd (filter (fun p => qname_eqb (fst p) (qname f)) parsed)) -> typed L S (ty f) o /\ complete S o).
        { intros o Io. apply in_map_iff in Io as ([q' o'] & <- & Io). apply filter_In in Io as [Io Q]. cbn [fst snd] in *. apply qname_eqb_spec in Q. subst q'.
          apply In_nth_error in Io as [i Ei]. assert (exists y, nth_error kids i = Some y) as [y Ey].
          { destruct (nth_error kids i) as [y|] eqn:E'; [exists y; reflexivity|]. apply nth_error_None in E'. rewrite (Forall2_same_length _ _ _ P) in E'. apply nth_error_None in E'. congruence. }
          destruct (Forall2_nth _ _ _ P i _ _ Ey Ei) as (E1 & (g & Ig & Eg & Qg & _ & Tg & Cg) & _). cbn [fst snd] in *.
          assert (g = f). { pose proof (find_element_self k f NE If Ie) as X1. pose proof (find_element_self k g NE Ig Eg) as X2. rewrite Qg, <- E1, X1 in X2. injection X2 as <-. reflexivity. }
          subst g. split; assumption. }
        split; [apply Forall_forall; intros o Io; apply (Each o Io)|]. split; [apply Forall_forall; intros o Io; apply (Each o Io)|]. split; [|reflexivity].
        intros Rq C. specialize (Fn f If'). apply andb_true_iff in Fn as [_ Fn]. rewrite Rq in Fn. cbn [negb orb] in Fn. apply Nat.leb_le in Fn.
        pose proof (matches_least (qname f) _ _ M) as Le. rewrite count_judged, (filter_kids _ _ _ _ P) in Le.
        apply (f_equal (@List.length Obj)) in C. rewrite map_length in C. cbn [List.length] in C. lia.
      - assert (Ia : is_attribute f = true) by (unfold is_attribute; rewrite K; reflexivity).
        assert (If' : In f (filter is_attribute (c_fields k))) by (apply filter_In; split; assumption).
        specialize (Fa1 f If'). apply existsb_exists in Fa1 as (b & Ib & Fb). pose proof (Va b Ib) as Vb. pose proof Fb as Fb'. unfold fits_attribute in Fb'.
        destruct (qname_eqb (xa_name b) (qname f)) eqn:Qb; [|discriminate]. apply qname_eqb_spec in Qb. apply andb_true_iff in Fb' as [Fb' Fd]. apply andb_true_iff in Fb' as [Fb1 Fb2].
        unfold valid_attribute in Vb. rewrite Qb in Vb. destruct (find_text (qname f) a) as [tx|] eqn:Et.
        + destruct (fits_slot _ f tx Fb1 Vb) as (E & N & Ty' & Co & _). exists (read_slot L S f tx). split; [exact E|]. split; [exact Ty'|]. split; [exact Co|]. split; [intros _; exact N|].
          intros b' Ib' Fb''. pose proof (Va b' Ib') as Vb'. unfold fits_attribute in Fb''. destruct (qname_eqb (xa_name b') (qname f)) eqn:Qb'; [|discriminate]. apply qname_eqb_spec in Qb'.
          apply andb_true_iff in Fb'' as [Fb'' _]. apply andb_true_iff in Fb'' as [Fb'' _]. unfold valid_attribute in Vb'. rewrite Qb', Et in Vb'.
          destruct (fits_slot _ f tx Fb'' Vb') as (_ & _ & _ & _ & W). destruct (read_slot L S f tx); [contradiction|exact W].
        + assert (Nd : default f <> EmptyString) by (intros C; rewrite C in Fd; congruence).
          destruct (fits_default _ f Fb1 Ff Nd) as (Ty' & Co & _). exists (default_slot (default f)). split; [reflexivity|]. split; [exact Ty'|]. split; [exact Co|]. split.
          * intros Rq. rewrite Rq in Fb2. cbn [negb orb] in Fb2. congruence.
          * intros b' Ib' Fb''. pose proof (Va b' Ib') as Vb'. unfold fits_attribute in Fb''. destruct (qname_eqb (xa_name b') (qname f)) eqn:Qb'; [|discriminate]. apply qname_eqb_spec in Qb'.
            apply andb_true_iff in Fb'' as [Fb'' _]. apply andb_true_iff in Fb'' as [Fb'' _]. unfold valid_attribute in Vb'. rewrite Qb', Et in Vb'.
            destruct (fits_default _ f Fb'' Ff Nd) as (_ & _ & W). destruct (default_slot (default f)); [exact Vb'|apply W; discriminate].
      - rewrite (content_only (c_fields k) f NC If K) in Fc. unfold fits_content in Fc. destruct (x_text x) as [s|] eqn:Es; [|discriminate]. apply andb_true_iff in Fc as [Fc1 Fc2].
        destruct (String.eqb_spec text "") as [->|N].
        + assert (Ed : default f = EmptyString \/ default f <> EmptyString) by (destruct (default f); [right|left|right|right]; congruence). destruct Ed as [Ed|Nd].
          * exists (default_slot (default f)). split; [reflexivity|]. rewrite Ed. cbn [default_slot]. destruct Ff as [FK FD]. rewrite Ed in FD. rewrite FD.
            split; [constructor; [split; exact I|constructor]|]. split; [constructor; [exact I|constructor]|]. split; [discriminate|]. intros t E. injection E as <-. exact Vt.
          * destruct (fits_default _ f Fc1 Ff Nd) as (Ty' & Co & W). exists (default_slot (default f)). split; [reflexivity|]. split; [exact Ty'|]. split; [exact Co|]. split.
            -- intros Rq C. rewrite Rq in Fc2. cbn [negb orb] in Fc2. assert (Me : may_be_empty s = false) by (destruct (default f); try contradiction; destruct (may_be_empty s); try discriminate; reflexivity).
               apply (not_empty s f Fc1 Me Vt).
            -- intros t E. injection E as <-. destruct (default_slot (default f)) as [|d ds]; [exact Vt|apply W; discriminate].
        + destruct (fits_slot s f text Fc1 Vt) as (E & Nn & Ty' & Co & W). exists (read_slot L S f text). split; [exact E|]. split; [exact Ty'|]. split; [exact Co|]. split; [intros _; exact Nn|].
          intros t Et. injection Et as <-. exact W. }
    exists (Inst c slots). assert (PO : parse L S (TClass c) (Node q0 a text kids) = Ok (Inst c slots)) by (rewrite (parse_class L S c k _ _ _ _ Ek), PC; cbn [bind]; rewrite Ec; reflexivity).
    split; [exact PO|]. split; [|split].
    + apply (typed_all c k slots Ek); [apply (parse_held L S LO SO _ _ _ PO)|]. apply (Forall2_impl_in _ _ _ _ G). intros s f _ _ Gf. apply Gf.
    + apply (complete_all c k slots Ek). apply (Forall2_impl_in _ _ _ _ G). intros s f _ _ (_ & A & B & _). split; assumption.
    + intros q. rewrite (render_class L S c k q slots Ek). apply valid_node. exists x. split; [exact Ex|].
      pose proof (Forall2_same_length _ _ _ G) as Len. split; [|split].
      * change (map (fun y => (tag y, valid_as y)) (render_children L S slots (c_fields k))) with (map judged (render_children L S slots (c_fields k))).
        rewrite (judged_children parsed).
        -- rewrite En. fold (names (x_particle x)). assert (Mw : matches (x_particle x) (map judged_parsed parsed)).
           { apply (matches_mono _ _ _ M). clear - P. induction P as [|y r kids parsed (E & _ & V) _ IHp]; cbn [map]; constructor; [|exact IHp].
             unfold judged_parsed, judged. cbn [fst snd]. rewrite tag_render. split; [symmetry; exact E|]. intros t It _. apply V, It. }
           rewrite (matches_sorted _ ND _ Mw). exact Mw.
        -- apply (Forall2_impl_in _ _ _ _ G). intros s f _ _ (_ & _ & _ & Gf) Ie. unfold is_element in Ie. destruct (kind f); try discriminate. exact Gf.
      * destruct (x_text x) as [s|] eqn:Es; [|exact I]. destruct (hd_error (filter is_content (c_fields k))) as [f|] eqn:Eh; [|discriminate].
        destruct (content_first _ _ Eh) as [If K]. apply In_nth_error in If as [i Ei]. destruct (nth_error slots i) as [sl|] eqn:Esl.
        -- rewrite (content_found L (c_fields k) slots Len NC i f sl Ei Esl K). destruct (Forall2_nth _ _ _ G i _ _ Esl Ei) as (_ & _ & _ & Gf). rewrite K in Gf. apply Gf. reflexivity.
        -- apply nth_error_None in Esl. rewrite Len in Esl. apply nth_error_None in Esl. congruence.
      * apply Forall_forall. intros b Ib. specialize (Fa2 b Ib). apply existsb_exists in Fa2 as (f & If & Fb). apply filter_In in If as [If Ia].
        assert (K : kind f = Attribute) by (unfold is_attribute in Ia; destruct (kind f); try discriminate; reflexivity).
        assert (Qb : xa_name b = qname f). { unfold fits_attribute in Fb. destruct (qname_eqb (xa_name b) (qname f)) eqn:Qb; [|discriminate]. apply qname_eqb_spec, Qb. }
        apply In_nth_error in If as [i Ei]. destruct (nth_error slots i) as [sl|] eqn:Esl.
        -- unfold valid_attribute. rewrite Qb, (attribute_found L (c_fields k) slots Len NA i f sl Ei Esl K).
           destruct (Forall2_nth _ _ _ G i _ _ Esl Ei) as (_ & _ & _ & Gf). rewrite K in Gf. specialize (Gf b Ib Fb). destruct sl; exact Gf.
        -- apply nth_error_None in Esl. rewrite Len in Esl. apply nth_error_None in Esl. congruence.
Qed.
End Valid_proofs.
