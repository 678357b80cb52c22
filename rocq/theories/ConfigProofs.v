(** Lemmas about the configuration environment. *)
Require Import String List Bool Lia.
Require Import Verif.Base Verif.ConfigModel Verif.ConfigSpec.
Import ListNotations.
Local Open Scope string_scope.

Lemma get_put {A} (d : Dict A) k v k' : get (put d k v) k' = if String.eqb k' k then Some v else get d k'.
Proof.
  induction d as [|[a x] r IH]; cbn [get put].
  - reflexivity.
  - destruct (String.eqb_spec k a) as [-> | Ne]; cbn [get].
    + destruct (String.eqb k' a); reflexivity.
    + destruct (String.eqb_spec k' a) as [-> | Ne'].
      * destruct (String.eqb_spec a k) as [E | _]; [congruence | reflexivity].
      * exact IH.
Qed.

Lemma in_keys {A} (d : Dict A) k : In k (keys d) <-> exists v, In (k, v) d.
Proof.
  unfold keys. rewrite in_map_iff. split.
  - intros [[a v] [E I]]. cbn in E. subst. exists v; exact I.
  - intros [v I]. exists (k, v). split; [reflexivity | exact I].
Qed.

Lemma get_in {A} (d : Dict A) k : In k (keys d) <-> exists v, get d k = Some v.
Proof.
  induction d as [|[a x] r IH]; cbn.
  - split; [intros [] | intros [v H]; discriminate].
  - destruct (String.eqb_spec k a) as [-> | Ne].
    + split; [intros _; exists x; reflexivity | intros _; left; reflexivity].
    + rewrite <- IH. split; [intros [E | I]; [congruence | exact I] | intros I; right; exact I].
Qed.

Lemma put_keys {A} (d : Dict A) k v x : In x (keys (put d k v)) <-> x = k \/ In x (keys d).
Proof.
  rewrite !get_in, get_put. destruct (String.eqb_spec x k) as [-> | Ne]; split.
  - intros _. left; reflexivity.
  - intros _. exists v; reflexivity.
  - intros H. right; exact H.
  - intros [E | H]; [congruence | exact H].
Qed.

Lemma set_option_same g st k v : set_option g st k v (fold g k) = v.
Proof. unfold set_option. rewrite String.eqb_refl. reflexivity. Qed.
Lemma set_option_other g st k v x : x <> fold g k -> set_option g st k v x = st x.
Proof. intros N. unfold set_option. destruct (String.eqb_spec x (fold g k)); [contradiction | reflexivity]. Qed.

Lemma enter_other g o : forall old st x, ~ In x (List.map (fold g) (keys o)) -> snd (enter g o old st) x = st x.
Proof.
  induction o as [|[k v] r IH]; intros old st x N; [reflexivity|].
  unfold enter in *. cbn [fold_left enter_step fst snd]. cbn in N.
  rewrite IH by tauto. apply set_option_other. intros E; apply N; left; symmetry; exact E.
Qed.
Lemma enter_old_other g o : forall old st k, ~ In k (keys o) -> get (fst (enter g o old st)) k = get old k.
Proof.
  induction o as [|[a v] r IH]; intros old st k N; [reflexivity|].
  unfold enter in *. cbn [fold_left enter_step fst snd]. cbn in N.
  rewrite IH by tauto. rewrite get_put. destruct (String.eqb_spec k a); [exfalso; apply N; left; congruence | reflexivity].
Qed.
Lemma enter_value g o : forall old st k v, distinct g o -> In (k, v) o -> snd (enter g o old st) (fold g k) = Some v.
Proof.
  induction o as [|[a x] r IH]; intros old st k v D I; [destruct I|].
  inversion D as [|? ? D1 D2]; subst. unfold enter in *. cbn [fold_left enter_step fst snd].
  destruct I as [E | I].
  - injection E as -> ->. fold (enter g r (put old k (get_option g st k)) (set_option g st k (Some v))).
    rewrite enter_other by exact D1. apply set_option_same.
  - apply IH; assumption.
Qed.
Lemma enter_old g o : forall old st k, distinct g o -> In k (keys o) ->
  get (fst (enter g o old st)) k = Some (get_option g st k).
Proof.
  induction o as [|[a x] r IH]; intros old st k D I; [destruct I|].
  inversion D as [|? ? D1 D2]; subst. unfold enter in *. cbn [fold_left enter_step fst snd].
  destruct (String.eqb_spec k a) as [-> | Ne].
  - fold (enter g r (put old a (get_option g st a)) (set_option g st a (Some x))).
    rewrite enter_old_other.
    + rewrite get_put, String.eqb_refl. reflexivity.
    + intros I'. apply D1. apply in_map. exact I'.
  - destruct I as [E | I]; [cbn in E; congruence|].
    fold (enter g r (put old a (get_option g st a)) (set_option g st a (Some x))).
    unfold enter. rewrite IH by assumption. unfold get_option.
    rewrite set_option_other; [reflexivity|]. intros E. apply D1. cbn [fst]. rewrite <- E. apply in_map. exact I.
Qed.

Lemma leave_spec g o : forall old st (f : string -> option string),
  distinct g o -> (forall k, In k (keys o) -> get old k = Some (f k)) ->
  exists st', leave g o old st = (st', None)
  /\ (forall k, In k (keys o) -> st' (fold g k) = f k)
  /\ (forall x, ~ In x (List.map (fold g) (keys o)) -> st' x = st x).
Proof.
  induction o as [|[a v] r IH]; intros old st f D F.
  - exists st. split; [reflexivity|]. split; [intros k [] | reflexivity].
  - inversion D as [|? ? D1 D2]; subst. cbn [leave].
    rewrite (F a) by (left; reflexivity).
    destruct (IH old (set_option g st a (f a)) f D2) as [st' [L [H1 H2]]].
    { intros k I. apply F. right. exact I. }
    exists st'. split; [exact L|]. split.
    + intros k [E | I]; [cbn in E; subst k | apply H1; exact I].
      rewrite H2 by exact D1. apply set_option_same.
    + intros x N. cbn in N. rewrite H2 by tauto. apply set_option_other.
      intros E. apply N. left. symmetry. exact E.
Qed.

(** Entering with any remembered values, running anything, and leaving. *)
Lemma enter_leave g o old0 st st2 : distinct g o ->
  exists st', leave g o (fst (enter g o old0 st)) st2 = (st', None)
  /\ (forall k, In k (keys o) -> st' (fold g k) = get_option g st k)
  /\ (forall x, ~ In x (List.map (fold g) (keys o)) -> st' x = st2 x).
Proof. intros D. apply leave_spec; [exact D|]. intros k I. apply enter_old; assumption. Qed.

Lemma with_exec g o b st : distinct g o ->
  let inside := snd (enter g o [] st) in
  exists st', exec g (With o b) st = (st', snd (exec g b inside))
  /\ (forall k, In k (keys o) -> st' (fold g k) = get_option g st k)
  /\ (forall x, ~ In x (List.map (fold g) (keys o)) -> st' x = fst (exec g b inside) x).
Proof.
  intros D inside. destruct (enter_leave g o [] st (fst (exec g b inside)) D) as [st' [L [H1 H2]]].
  exists st'. split; [|split; assumption]. unfold inside in *. cbn [exec].
  destruct (enter g o [] st) as [old st1]. cbn [fst snd] in *.
  destruct (exec g b st1) as [st2 r]. cbn [fst snd] in *. rewrite L. reflexivity.
Qed.

Lemma get_option_other g a b k : a (fold g k) = b (fold g k) -> get_option g a k = get_option g b k.
Proof. unfold get_option. intros ->. reflexivity. Qed.

Lemma get_option_restored g (st' st : Options) k : st' (fold g k) = get_option g st k -> get_option g st' k = get_option g st k.
Proof.
  intros E. unfold get_option at 1. rewrite E. destruct (get_option g st k) eqn:G; [reflexivity|].
  unfold get_option in G. destruct (st (fold g k)); [discriminate | exact G].
Qed.
Lemma get_option_fold g st a b : env_folded g -> fold g a = fold g b -> get_option g st a = get_option g st b.
Proof. intros E F. unfold get_option. rewrite F, (E a b F). reflexivity. Qed.

(** Filling in a heap *)
Lemma store_length h : forall r d, List.length (store h r d) = List.length h.
Proof. induction h as [|x t IH]; intros [|r] d; cbn; try reflexivity; rewrite IH; reflexivity. Qed.
Lemma deref_store_other h : forall r d r', r' <> r -> deref (store h r d) r' = deref h r'.
Proof.
  unfold deref. induction h as [|x t IH]; intros [|r] d [|r'] N; cbn; try reflexivity; try congruence.
  apply IH. congruence.
Qed.
Lemma deref_store_same h : forall r d, (r < List.length h)%nat -> deref (store h r d) r = d.
Proof.
  unfold deref. induction h as [|x t IH]; intros [|r] d L; cbn in *; try reflexivity; try lia.
  apply IH. lia.
Qed.

Lemma update_get {A} (u : Dict A) : forall d k,
  get (update d u) k = match get (rev u) k with Some v => Some v | None => get d k end.
Proof.
  unfold update. induction u as [|[a v] r IH] using rev_ind; intros d k; [reflexivity|].
  rewrite fold_left_app, rev_app_distr. cbn [fold_left rev app get fst snd]. rewrite get_put.
  destruct (String.eqb k a); [reflexivity|]. apply IH.
Qed.
Lemma update_keeps {A} (u : Dict A) : forall d k, In k (keys d) -> In k (keys (update d u)).
Proof.
  unfold update. induction u as [|[a v] r IH]; intros d k I; [exact I|].
  cbn [fold_left fst snd]. apply IH. apply put_keys. right; exact I.
Qed.
Lemma put_app {A} (d : Dict A) k v : ~ In k (keys d) -> put d k v = (d ++ [(k, v)])%list.
Proof.
  induction d as [|[a x] r IH]; intros N; [reflexivity|]. cbn in N. cbn [put app].
  destruct (String.eqb_spec k a) as [E | Ne]; [exfalso; apply N; left; congruence|].
  rewrite IH by tauto. reflexivity.
Qed.
Lemma leave_app g a : forall b old st,
  (forall k, In k (keys a) -> In k (keys old)) ->
  leave g (a ++ b)%list old st = leave g b old (fst (leave g a old st)).
Proof.
  induction a as [|[k v] r IH]; intros b old st H; [reflexivity|]. cbn [app leave].
  destruct (get old k) eqn:G.
  - rewrite IH; [reflexivity|]. intros x I. apply H. right; exact I.
  - exfalso. assert (I : In k (keys old)) by (apply H; left; reflexivity). apply get_in in I.
    destruct I as [w I]. congruence.
Qed.
