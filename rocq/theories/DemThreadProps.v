(** Property theorems for an elevation model shared by threads: C80. *)
Require Import ZArith Reals String List Lra Lia Bool.
Require Import Verif.Base Verif.DemModel Verif.DemSpec Verif.DemProofs Verif.DemProps Verif.DemThreadModel.
Import ListNotations.

(** *** Lists *)
Lemma replace_nth_length {A} i (x : A) l : List.length (replace_nth i x l) = List.length l.
Proof. revert i. induction l as [|y l IH]; intros [|i]; cbn; congruence. Qed.
Lemma replace_nth_error {A} i (x : A) l k : i < List.length l ->
  nth_error (replace_nth i x l) k = if Nat.eqb k i then Some x else nth_error l k.
Proof.
  revert i k. induction l as [|y l IH]; intros [|i] [|k] H; cbn in *; try lia; try reflexivity.
  apply IH. lia.
Qed.

Section Invariant.
Variable find : Geodetic -> option string.
Variable get_tile : nat -> string -> res Tile.

(** What holds of a thread with program [h] while [n] tiles have been asked for. *)
Definition thread_ok (n : nat) (h : list call) (t : Thread) : Prop :=
  rev (List.map fst (answered t)) ++ todo t = h
  /\ Forall (fun p => exists k, k <= n /\ snd p = uncached_answer find (get_tile k) (fst p)) (answered t)
  /\ match doing t with
     | Ready => True
     | Loading id => exists o r, todo t = o :: r /\ find (location_of o) = Some id /\ id <> EmptyString
     | Storing id v => exists o r k, todo t = o :: r /\ find (location_of o) = Some id /\ id <> EmptyString /\ k < n /\ load_grid get_tile k id = Ok v
     end.
Lemma thread_ok_le n n' h t : n <= n' -> thread_ok n h t -> thread_ok n' h t.
Proof.
  intros L (A & B & C). split; [exact A|]. split.
  - eapply Forall_impl; [|exact B]. intros p (k & K & E). exists k. split; [lia | exact E].
  - destruct (doing t); [exact C | exact C |]. destruct C as (o & r & k & E & F & N & K & G). exists o, r, k. repeat split; try assumption. lia.
Qed.
Lemma answer_with_uncached o id k : find (location_of o) = Some id -> id <> EmptyString ->
  answer_with o (load_grid get_tile k id) = uncached_answer find (get_tile k) o.
Proof.
  intros F N. unfold load_grid. destruct o as [w|w]; cbn in *; rewrite F; destruct id as [|a s]; try congruence; f_equal;
    destruct (get_tile k (String a s)) as [x|e]; cbn; try reflexivity; destruct (make_grid x) as [g|e]; cbn; try reflexivity.
  destruct (g_interp g) as [f|]; [|reflexivity]. destruct (g_sensor g) as [q|]; [|reflexivity]. destruct (q w); reflexivity.
Qed.
Lemma answer_without_uncached o k : truthy (find (asked_at o)) = None -> answer_without o = uncached_answer find (get_tile k) o.
Proof. destruct o as [w|w]; cbn; destruct (find w) as [[|]|]; cbn; try discriminate; reflexivity. Qed.
Lemma asked_truthy o id : truthy (find (asked_at o)) = Some id -> find (location_of o) = Some id /\ id <> EmptyString.
Proof. destruct o as [w|w]; cbn; destruct (find w) as [[|a s]|]; cbn; intros H; try discriminate; injection H as <-; (split; [reflexivity | discriminate]). Qed.

Lemma finish_ok n h t o r a : rev (List.map fst (answered t)) ++ todo t = h -> todo t = o :: r ->
  Forall (fun p => exists k, k <= n /\ snd p = uncached_answer find (get_tile k) (fst p)) (answered t) ->
  (exists k, k <= n /\ a = uncached_answer find (get_tile k) o) -> thread_ok n h (mkThread r Ready ((o, a) :: answered t)).
Proof.
  intros A E B C. split; [|split].
  - cbn. rewrite <- app_assoc. cbn. rewrite <- E. exact A.
  - constructor; [exact C | exact B].
  - exact I.
Qed.
Lemma step_ok c t h : sound get_tile c -> thread_ok (List.length (loads c)) h t ->
  let '(c', t') := thread_step find get_tile c t in
  sound get_tile c' /\ List.length (loads c) <= List.length (loads c') /\ thread_ok (List.length (loads c')) h t'.
Proof.
  intros S (A & B & C). unfold thread_step. destruct (todo t) as [|o r] eqn:T.
  - split; [exact S|]. split; [lia|]. split; [rewrite T; exact A|]. split; [exact B|]. destruct (doing t) as [|id|id v]; [exact I| |]; [destruct C as (o & r & E & _) | destruct C as (o & r & k & E & _)]; congruence.
  - rewrite <- T in A. destruct (doing t) as [|id|id v] eqn:D.
    + destruct (truthy (find (asked_at o))) as [id|] eqn:F.
      * destruct (asked_truthy o id F) as [F1 F2]. destruct (lookup id (entries c)) as [v|] eqn:L.
        -- cbn [loads]. destruct (S id v (lookup_some _ _ _ L)) as (k & K & G). split; [|split; [lia|]].
           ++ intros k' v' H. cbn in H. rewrite in_app_iff in H. cbn in H. destruct H as [H|[H|[]]].
              ** apply (S k' v'). eapply remove_key_in, H.
              ** injection H as <- <-. exists k. now split.
           ++ apply (finish_ok _ _ _ o r); try assumption. exists k. split; [lia|]. rewrite <- G. now apply answer_with_uncached with (id := id).
        -- split; [exact S|]. split; [lia|]. split; [cbn; rewrite <- T; exact A|]. split; [exact B|]. cbn. exists o, r. now repeat split.
      * split; [exact S|]. split; [lia|]. apply (finish_ok _ _ _ o r); try assumption. exists 0%nat. split; [lia|]. now apply answer_without_uncached.
    + destruct C as (o' & r' & E & F1 & F2). injection E as <- <-.
      assert (S' : sound get_tile (mkCache (maxsize c) (entries c) (id :: loads c))).
      { intros k v H. destruct (S k v H) as (n & N & G). exists n. cbn. split; [lia | exact G]. }
      destruct (load_grid get_tile (List.length (loads c)) id) as [v|e] eqn:G.
      * split; [exact S'|]. cbn [loads List.length]. split; [lia|]. split; [cbn; rewrite <- T; exact A|]. split; [|cbn; exists o, r, (List.length (loads c)); repeat split; auto].
        eapply Forall_impl; [|exact B]. intros p (k & K & Q). exists k. split; [lia | exact Q].
      * split; [exact S'|]. cbn [loads List.length]. split; [lia|]. apply (finish_ok _ _ _ o r); try assumption.
        -- eapply Forall_impl; [|exact B]. intros p (k & K & Q). exists k. split; [lia | exact Q].
        -- exists (List.length (loads c)). split; [lia|]. rewrite <- G. now apply answer_with_uncached with (id := id).
    + destruct C as (o' & r' & k & E & F1 & F2 & K & G). injection E as <- <-.
      cbn [loads]. split; [|split; [lia|]].
      * intros k' v' H. cbn in H. unfold store_again in H. cbn [loads]. destruct (lookup id (entries c)).
        -- rewrite in_app_iff in H. cbn in H. destruct H as [H|[H|[]]]; [apply (S k' v'); eapply remove_key_in, H | injection H as <- <-; exists k; now split].
        -- unfold store in H. destruct (maxsize c) as [|m]; [now apply S|]. rewrite in_app_iff in H. cbn in H.
           destruct H as [H|[H|[]]]; [apply (S k' v'); eapply evict_in, H | injection H as <- <-; exists k; now split].
      * apply (finish_ok _ _ _ o r); try assumption. exists k. split; [lia|]. rewrite <- G. now apply answer_with_uncached with (id := id).
Qed.
Definition system_ok (programs : list (list call)) (s : Cache * list Thread) : Prop :=
  sound get_tile (fst s) /\ Forall2 (thread_ok (List.length (loads (fst s)))) programs (snd s).
Lemma forall2_replace {A B} (P Q : A -> B -> Prop) l m i x t : Forall2 P l m -> nth_error m i = Some t ->
  (forall h b, P h b -> Q h b) -> (forall h, P h t -> Q h x) -> Forall2 Q l (replace_nth i x m).
Proof.
  intros F. revert i. induction F as [|a b l m H F IH]; intros [|i] E M K; cbn in *; try discriminate.
  - injection E as ->. constructor; [now apply K|]. clear -F M. induction F; constructor; auto.
  - constructor; [now apply M | now apply IH].
Qed.
Lemma forall2_nth {A B} (P : A -> B -> Prop) l m i t : Forall2 P l m -> nth_error m i = Some t -> exists h, nth_error l i = Some h /\ P h t.
Proof.
  intros F. revert i. induction F as [|a b l m H F IH]; intros [|i] E; cbn in *; try discriminate.
  - injection E as ->. now exists a.
  - now apply IH.
Qed.
Lemma system_step_ok programs s i : system_ok programs s -> system_ok programs (system_step find get_tile s i).
Proof.
  intros [S F]. unfold system_step. destruct (nth_error (snd s) i) as [t|] eqn:N; [|now split].
  assert (G : forall h, thread_ok (List.length (loads (fst s))) h t ->
    let '(c', t') := thread_step find get_tile (fst s) t in sound get_tile c' /\ List.length (loads (fst s)) <= List.length (loads c') /\ thread_ok (List.length (loads c')) h t').
  { intros h H. now apply step_ok. }
  destruct (thread_step find get_tile (fst s) t) as [c' t'].
  destruct (forall2_nth _ _ _ _ _ F N) as (h & _ & H). destruct (G h H) as (S' & L & _).
  split; cbn [fst snd]; [exact S'|].
  eapply forall2_replace; [exact F | exact N | |].
  - intros h0 b. now apply thread_ok_le.
  - intros h0 H0. now apply G.
Qed.
Lemma run_ok programs schedule s : system_ok programs s -> system_ok programs (run_threads find get_tile s schedule).
Proof.
  unfold run_threads. revert s. induction schedule as [|i l IH]; intros s H; [exact H|]. cbn. apply IH. now apply system_step_ok.
Qed.
Lemma start_ok size programs : system_ok programs (start size programs).
Proof.
  split; [apply new_cache_sound|]. cbn. induction programs as [|h l IH]; constructor; [|exact IH]. split; [reflexivity|]. split; [constructor | exact I].
Qed.

(** *** The cache *)
Lemma store_again_keys m k v l : List.map fst (rev (store_again m k v l)) =
  if in_dec string_dec k (List.map fst (rev l)) then k :: others k (List.map fst (rev l))
  else match m with O => List.map fst (rev l) | S n => k :: firstn n (List.map fst (rev l)) end.
Proof.
  unfold store_again. destruct (lookup k l) as [w|] eqn:E.
  - destruct (in_dec string_dec k _) as [i|n].
    + rewrite rev_app_distr. cbn. f_equal. rewrite map_rev, remove_key_keys, map_rev. symmetry. apply others_rev.
    + exfalso. apply n. rewrite map_rev, <- in_rev. apply in_map_iff. exists (k, w). split; [reflexivity|]. now apply lookup_some.
  - destruct (in_dec string_dec k _) as [i|n].
    + exfalso. rewrite map_rev, <- in_rev in i. now apply lookup_none in E.
    + unfold store. destruct m as [|m]; [reflexivity|]. rewrite rev_app_distr. cbn. f_equal. rewrite evict_skipn, <- firstn_rev, firstn_map. reflexivity.
Qed.
Lemma touch_tidy c id v : tidy c -> lookup id (entries c) = Some v -> tidy (mkCache (maxsize c) (remove_key id (entries c) ++ [(id, v)]) (loads c)).
Proof.
  intros [L N] E. assert (Q : remove_key id (entries c) ++ [(id, v)] = store_again (maxsize c) id v (entries c)) by (unfold store_again; rewrite E; reflexivity).
  unfold tidy, keys in *. cbn [maxsize entries]. rewrite Q, store_again_keys. destruct (in_dec string_dec id _) as [i|n].
  - split; [pose proof (others_length id _ i); cbn; lia | constructor; [rewrite others_in; tauto | now apply others_nodup]].
  - exfalso. apply n. rewrite map_rev, <- in_rev. apply in_map_iff. exists (id, v). split; [reflexivity|]. now apply lookup_some.
Qed.
Lemma store_again_tidy c id v : tidy c -> tidy (mkCache (maxsize c) (store_again (maxsize c) id v (entries c)) (loads c)).
Proof.
  intros [L N]. unfold tidy, keys in *. cbn [maxsize entries]. rewrite store_again_keys. destruct (in_dec string_dec id _) as [i|n].
  - split; [pose proof (others_length id _ i); cbn; lia | constructor; [rewrite others_in; tauto | now apply others_nodup]].
  - destruct (maxsize c) as [|m]; [now split|]. split.
    + cbn. rewrite firstn_length. lia.
    + constructor; [intros C; apply n; eapply in_firstn, C | now apply nodup_firstn].
Qed.
Lemma thread_step_tidy c t : tidy c -> tidy (fst (thread_step find get_tile c t)) /\ maxsize (fst (thread_step find get_tile c t)) = maxsize c.
Proof.
  intros H. unfold thread_step. destruct (todo t) as [|o r]; [now split|]. destruct (doing t) as [|id|id v].
  - destruct (truthy _) as [id|]; [|now split]. destruct (lookup id (entries c)) as [v|] eqn:E; [|now split]. split; [now apply touch_tidy | reflexivity].
  - destruct (load_grid _ _ _); now split.
  - split; [now apply store_again_tidy | reflexivity].
Qed.
Lemma run_threads_tidy schedule : forall s, tidy (fst s) ->
  tidy (fst (run_threads find get_tile s schedule)) /\ maxsize (fst (run_threads find get_tile s schedule)) = maxsize (fst s).
Proof.
  induction schedule as [|i l IH]; intros s H; [now split|]. cbn. fold (run_threads find get_tile (system_step find get_tile s i) l).
  assert (K : tidy (fst (system_step find get_tile s i)) /\ maxsize (fst (system_step find get_tile s i)) = maxsize (fst s)).
  { unfold system_step. destruct (nth_error (snd s) i) as [t|]; [|now split]. pose proof (thread_step_tidy (fst s) t H) as K.
    destruct (thread_step find get_tile (fst s) t). exact K. }
  destruct K as [K1 K2]. destruct (IH _ K1) as [A B]. split; [exact A | congruence].
Qed.

(** *** Progress *)
(** Steps a thread still needs, at most. *)
Definition left_to_do (t : Thread) : nat :=
  match todo t with
  | [] => 0
  | _ :: r => 3 * List.length r + match doing t with Ready => 3 | Loading _ => 2 | Storing _ _ => 1 end
  end.
Lemma thread_step_progress c t : left_to_do (snd (thread_step find get_tile c t)) <= left_to_do t - 1.
Proof.
  unfold thread_step, left_to_do. destruct (todo t) as [|o r] eqn:T; [cbn; rewrite T; lia|].
  assert (F : forall a, left_to_do (mkThread r Ready a) <= 3 * List.length r) by (intros a; unfold left_to_do; cbn; destruct r; cbn; lia).
  unfold left_to_do in F. destruct (doing t) as [|id|id v].
  - destruct (truthy _) as [id|]; [destruct (lookup _ _)|]; cbn [snd todo doing]; try (etransitivity; [apply (F [])|lia]). lia.
  - destruct (load_grid _ _ _); cbn [snd todo doing]; [lia | etransitivity; [apply (F [])|lia]].
  - cbn [snd todo doing]. etransitivity; [apply (F [])|lia].
Qed.
Lemma run_progress schedule : forall s k t, nth_error (snd s) k = Some t ->
  exists t', nth_error (snd (run_threads find get_tile s schedule)) k = Some t' /\ left_to_do t' <= left_to_do t - count_occ Nat.eq_dec schedule k.
Proof.
  induction schedule as [|i l IH]; intros s k t H; [exists t; split; [exact H | cbn; lia]|].
  cbn [run_threads fold_left]. fold (run_threads find get_tile (system_step find get_tile s i) l).
  assert (K : exists t1, nth_error (snd (system_step find get_tile s i)) k = Some t1 /\ left_to_do t1 <= left_to_do t - (if Nat.eqb i k then 1 else 0)).
  { unfold system_step. destruct (nth_error (snd s) i) as [u|] eqn:U.
    - pose proof (thread_step_progress (fst s) u) as P. destruct (thread_step find get_tile (fst s) u) as [c u']. cbn [fst snd] in *.
      rewrite replace_nth_error by (apply nth_error_Some; congruence). rewrite (Nat.eqb_sym i k). destruct (Nat.eqb_spec k i) as [->|].
      + exists u'. split; [reflexivity|]. replace t with u by congruence. exact P.
      + exists t. split; [exact H | lia].
    - destruct (Nat.eqb_spec i k) as [->|]; [congruence|]. exists t. split; [exact H | lia]. }
  destruct K as (t1 & K1 & K2). destruct (IH _ _ _ K1) as (t' & A & B). exists t'. split; [exact A|].
  cbn [count_occ]. destruct (Nat.eq_dec i k) as [->|N]; [rewrite Nat.eqb_refl in K2 | rewrite (proj2 (Nat.eqb_neq i k) N) in K2]; lia.
Qed.

(** *** Loads *)
(** Calls that have been answered or have loaded their tile. *)
Definition served (t : Thread) : nat := List.length (answered t) + match doing t, todo t with Storing _ _, _ :: _ => 1 | _, _ => 0 end.
Lemma served_step c t h : thread_ok (List.length (loads c)) h t ->
  List.length (loads (fst (thread_step find get_tile c t))) + served t <= List.length (loads c) + served (snd (thread_step find get_tile c t)).
Proof.
  intros (_ & _ & C). unfold thread_step, served. destruct (todo t) as [|o r] eqn:T; [cbn; rewrite T; lia|]. destruct (doing t) as [|id|id v].
  - destruct (truthy _) as [id|]; [destruct (lookup _ _)|]; cbn; lia.
  - destruct (load_grid _ _ _); cbn; lia.
  - cbn. lia.
Qed.
Definition total (l : list Thread) : nat := fold_right (fun t n => served t + n) 0 l.
Lemma total_replace l i x t : nth_error l i = Some t -> total (replace_nth i x l) + served t = total l + served x.
Proof.
  revert i. unfold total. induction l as [|y l IH]; intros [|i] E; cbn [nth_error replace_nth fold_right] in *; try discriminate.
  - injection E as ->. lia.
  - specialize (IH _ E). lia.
Qed.
Lemma run_loads programs schedule : forall s, system_ok programs s -> List.length (loads (fst s)) <= total (snd s) ->
  List.length (loads (fst (run_threads find get_tile s schedule))) <= total (snd (run_threads find get_tile s schedule)).
Proof.
  induction schedule as [|i l IH]; intros s O H; [exact H|]. cbn. fold (run_threads find get_tile (system_step find get_tile s i) l).
  apply IH; [now apply system_step_ok|]. unfold system_step. destruct (nth_error (snd s) i) as [t|] eqn:E; [|exact H].
  destruct O as [_ F]. destruct (forall2_nth _ _ _ _ _ F E) as (h & _ & Hh). pose proof (served_step (fst s) t h Hh) as P.
  destruct (thread_step find get_tile (fst s) t) as [c t']. cbn [fst snd] in *. pose proof (total_replace (snd s) i t' t E). lia.
Qed.
Lemma served_le n h t : thread_ok n h t -> served t <= List.length h.
Proof.
  intros (A & _ & C). rewrite <- A, app_length, rev_length, map_length. unfold served.
  destruct (doing t); destruct (todo t); cbn; lia.
Qed.
End Invariant.

(** ** C80: an elevation model shared by threads *)

(** However the threads take turns: the calls a thread has had answered are the first of its
    program, in order, and each answer is that of a model without memory. *)
Theorem C80_answers : forall (find : Geodetic -> option string) (load : string -> res Tile) size programs schedule i t,
  nth_error (snd (run_threads find (fun _ => load) (start size programs) schedule)) i = Some t ->
  exists h, nth_error programs i = Some h /\ h = rev (List.map fst (answered t)) ++ todo t
  /\ Forall (fun p => snd p = uncached_answer find load (fst p)) (answered t).
Proof.
  intros find load size programs schedule i t N.
  destruct (run_ok find (fun _ => load) programs schedule _ (start_ok find (fun _ => load) size programs)) as [_ F].
  destruct (forall2_nth _ _ _ _ _ F N) as (h & H & A & B & _). exists h. split; [exact H|]. split; [now rewrite A|].
  eapply Forall_impl; [|exact B]. intros p (k & _ & E). exact E.
Qed.
Print Assumptions C80_answers.

(** A loader that changes over time: each answer comes from some load. *)
Theorem C80_answers_come_from_a_load : forall (find : Geodetic -> option string) (get_tile : nat -> string -> res Tile) size programs schedule i t,
  let s := run_threads find get_tile (start size programs) schedule in
  nth_error (snd s) i = Some t ->
  Forall (fun p => exists k, k <= List.length (loads (fst s)) /\ snd p = uncached_answer find (get_tile k) (fst p)) (answered t).
Proof.
  intros find get_tile size programs schedule i t s N.
  destruct (run_ok find get_tile programs schedule _ (start_ok find get_tile size programs)) as [_ F].
  destruct (forall2_nth _ _ _ _ _ F N) as (h & _ & _ & B & _). exact B.
Qed.
Print Assumptions C80_answers_come_from_a_load.

(** No deadlock and no starvation: a thread that has had three turns for each of its calls is done,
    whatever the others do. *)
Theorem C80_finishes : forall (find : Geodetic -> option string) (get_tile : nat -> string -> res Tile) size programs schedule i h,
  nth_error programs i = Some h -> 3 * List.length h <= count_occ Nat.eq_dec schedule i ->
  exists t, nth_error (snd (run_threads find get_tile (start size programs) schedule)) i = Some t
  /\ todo t = [] /\ rev (List.map fst (answered t)) = h.
Proof.
  intros find get_tile size programs schedule i h H C.
  destruct (run_progress find get_tile schedule (start size programs) i (mkThread h Ready [])) as (t & T & L).
  { cbn. rewrite nth_error_map, H. reflexivity. }
  exists t. split; [exact T|].
  assert (D : todo t = []).
  { assert (left_to_do (mkThread h Ready []) <= 3 * List.length h) by (unfold left_to_do; cbn; destruct h; cbn; lia).
    assert (Z : left_to_do t = 0) by lia. unfold left_to_do in Z. destruct (todo t); [reflexivity|]. destruct (doing t); lia. }
  split; [exact D|].
  destruct (run_ok find get_tile programs schedule _ (start_ok find get_tile size programs)) as [_ F].
  destruct (forall2_nth _ _ _ _ _ F T) as (h' & H' & A & _). rewrite D, app_nil_r in A. congruence.
Qed.
Print Assumptions C80_finishes.

(** At every moment no more tiles are held than configured, and none twice. *)
Theorem C80_bounded : forall (find : Geodetic -> option string) (get_tile : nat -> string -> res Tile) size programs schedule,
  let held := List.map fst (entries (fst (run_threads find get_tile (start size programs) schedule))) in
  List.length held <= size /\ NoDup held.
Proof.
  intros find get_tile size programs schedule. cbn.
  destruct (run_threads_tidy find get_tile schedule (start size programs) (new_cache_tidy size)) as [[L N] M].
  rewrite M in L. cbn in L. unfold keys in *. rewrite map_rev in *. rewrite rev_length in L.
  split; [exact L|]. apply NoDup_rev in N. now rewrite rev_involutive in N.
Qed.
Print Assumptions C80_bounded.

(** No more loads than calls. *)
Theorem C80_loads : forall (find : Geodetic -> option string) (get_tile : nat -> string -> res Tile) size programs schedule,
  List.length (loads (fst (run_threads find get_tile (start size programs) schedule))) <= List.length (List.concat programs).
Proof.
  intros find get_tile size programs schedule.
  pose proof (start_ok find get_tile size programs) as O.
  etransitivity; [apply (run_loads find get_tile programs); [exact O|cbn; lia]|].
  destruct (run_ok find get_tile programs schedule _ O) as [_ F]. clear O. revert F.
  generalize (List.length (loads (fst (run_threads find get_tile (start size programs) schedule)))). intros n F.
  unfold total. induction F as [|h t l m H F IH]; cbn [fold_right List.concat]; [cbn; lia|]. rewrite app_length. pose proof (served_le _ _ _ _ _ H). lia.
Qed.
Print Assumptions C80_loads.

Lemma one_step find get_tile c t c' t' : thread_step find get_tile c t = (c', t') -> system_step find get_tile (c, [t]) 0 = (c', [t']).
Proof. intros E. unfold system_step. cbn. rewrite E. reflexivity. Qed.
Lemma first_step find get_tile c t u c' t' : thread_step find get_tile c t = (c', t') -> system_step find get_tile (c, [t; u]) 0 = (c', [t'; u]).
Proof. intros E. unfold system_step. cbn. rewrite E. reflexivity. Qed.
Lemma second_step find get_tile c t u c' u' : thread_step find get_tile c u = (c', u') -> system_step find get_tile (c, [t; u]) 1 = (c', [t; u']).
Proof. intros E. unfold system_step. cbn. rewrite E. reflexivity. Qed.
(** A thread alone does what the unthreaded model does. *)
Theorem C80_alone : forall (find : Geodetic -> option string) (get_tile : nat -> string -> res Tile) size h n,
  3 * List.length h <= n ->
  run_threads find get_tile (start size [h]) (repeat 0 n)
  = (fst (run find get_tile (new_cache size) h), [mkThread [] Ready (rev (combine h (snd (run find get_tile (new_cache size) h))))]).
Proof.
  intros find get_tile size h n. unfold start. cbn [List.map]. generalize (new_cache size) as c. intros c.
  rewrite <- (app_nil_r (rev (combine h _))). generalize (@nil (call * answer)) as past. revert n c.
  assert (Idle : forall n c past, run_threads find get_tile (c, [mkThread [] Ready past]) (repeat 0 n) = (c, [mkThread [] Ready past])).
  { induction n as [|n IH]; intros c past; [reflexivity|]. cbn. apply IH. }
  induction h as [|o h IH]; intros n c past L; [apply Idle|].
  assert (One : exists k, 1 <= k <= 3 /\ run_threads find get_tile (c, [mkThread (o :: h) Ready past]) (repeat 0 k)
                = (fst (step find get_tile c o), [mkThread h Ready ((o, snd (step find get_tile c o)) :: past)])).
  { assert (St : step find get_tile c o = match truthy (find (asked_at o)) with None => (c, answer_without o)
                 | Some id => let '(c', r) := get_interpolation_grid get_tile c id in (c', answer_with o r) end).
    { destruct o as [w|w]; cbn; unfold set_elevation, describe_region; destruct (truthy (find w)); try reflexivity; destruct (get_interpolation_grid _ _ _); reflexivity. }
    rewrite St. destruct (truthy (find (asked_at o))) as [id|] eqn:Fd.
    - unfold get_interpolation_grid. destruct (lookup id (entries c)) as [v|] eqn:Lk.
      + exists 1. split; [lia|]. unfold run_threads. cbn [repeat fold_left]. erewrite one_step by (unfold thread_step; cbn; rewrite Fd, Lk; reflexivity). reflexivity.
      + assert (A : thread_step find get_tile c (mkThread (o :: h) Ready past) = (c, mkThread (o :: h) (Loading id) past)) by (unfold thread_step; cbn; rewrite Fd, Lk; reflexivity).
        unfold run_threads. destruct (load_grid get_tile (List.length (loads c)) id) as [v|e] eqn:G.
        * exists 3. split; [lia|]. cbn [repeat fold_left]. rewrite (one_step _ _ _ _ _ _ A).
          erewrite one_step by (unfold thread_step; cbn; rewrite G; reflexivity).
          erewrite one_step by (unfold thread_step, store_again; cbn; rewrite Lk; reflexivity). reflexivity.
        * exists 2. split; [lia|]. cbn [repeat fold_left]. rewrite (one_step _ _ _ _ _ _ A).
          erewrite one_step by (unfold thread_step; cbn; rewrite G; reflexivity). reflexivity.
    - exists 1. split; [lia|]. unfold run_threads. cbn [repeat fold_left]. erewrite one_step by (unfold thread_step; cbn; rewrite Fd; reflexivity). reflexivity. }
  destruct One as (k & K & E). cbn [List.length] in L. replace n with (k + (n - k)) by lia. rewrite repeat_app. unfold run_threads in *. rewrite fold_left_app, E.
  cbn [run combine rev]. destruct (step find get_tile c o) as [c1 a]. cbn [fst snd]. specialize (IH (n - k) c1 ((o, a) :: past) ltac:(lia)). rewrite IH.
  destruct (run find get_tile c1 h) as [c2 l]. cbn [fst snd combine rev]. rewrite <- app_assoc. reflexivity.
Qed.
Print Assumptions C80_alone.

(** One load per tile is not guaranteed, however large the cache: two threads that ask for a new tile
    at the same time both load it. *)
Theorem C80_single_load_refuted : forall (find : Geodetic -> option string) (get_tile : nat -> string -> res Tile) size w id g,
  find w = Some id -> id <> EmptyString -> load_grid get_tile 0 id = Ok g -> load_grid get_tile 1 id = Ok g ->
  loads (fst (run_threads find get_tile (start size [[SetElevation w]; [SetElevation w]]) [0; 1; 0; 1; 0; 1])) = [id; id].
Proof.
  intros find get_tile size w id g F N G0 G1. destruct id as [|a s]; [congruence|]. set (id := String a s) in *.
  assert (Tr : truthy (find w) = Some id) by (rewrite F; reflexivity).
  unfold run_threads, start. cbn [fold_left List.map].
  erewrite first_step by (unfold thread_step; cbn; rewrite Tr; cbn; reflexivity).
  erewrite second_step by (unfold thread_step; cbn; rewrite Tr; cbn; reflexivity).
  erewrite first_step by (unfold thread_step; cbn; rewrite G0; reflexivity).
  erewrite second_step by (unfold thread_step; cbn; rewrite G1; reflexivity).
  erewrite first_step by (unfold thread_step; cbn; reflexivity).
  erewrite second_step by (unfold thread_step; cbn; reflexivity). reflexivity.
Qed.
Print Assumptions C80_single_load_refuted.

(** Two threads over the tiles of the C15 example that load in the other order than they started. *)
Local Open Scope R_scope.
Example C80_non_vacuous :
  let s := run_threads demo_find (fun _ => demo_load) (start 1 [[SetElevation (mkGeo 2 1 7)]; [SetElevation (mkGeo 11 1 7)]]) [0; 1; 1; 0; 1; 0]%nat in
  exists a b, snd s = [mkThread [] Ready [a]; mkThread [] Ready [b]] /\ loads (fst s) = ["a"; "b"]%string
  /\ snd a = Located (Ok (mkGeo 2 1 60)) /\ snd b = Located (Ok (mkGeo 11 1 7)).
Proof.
  cbv zeta. assert (A : truthy (demo_find (mkGeo 2 1 7)) = Some "a"%string).
  { unfold demo_find. cbn [longitude]. destruct (Rlt_dec 2 0); [lra|]. destruct (Rlt_dec 2 10); [reflexivity|lra]. }
  assert (B : truthy (demo_find (mkGeo 11 1 7)) = Some "b"%string).
  { unfold demo_find. cbn [longitude]. destruct (Rlt_dec 11 0); [lra|]. destruct (Rlt_dec 11 10); [lra|reflexivity]. }
  do 2 eexists. unfold run_threads, start. cbn [List.map fold_left].
  erewrite first_step by (unfold thread_step; cbn [todo doing asked_at]; rewrite A; cbn; reflexivity).
  erewrite second_step by (unfold thread_step; cbn [todo doing asked_at]; rewrite B; cbn; reflexivity).
  erewrite second_step by (unfold thread_step; cbn -[bilinear]; reflexivity).
  erewrite first_step by (unfold thread_step; cbn -[bilinear]; reflexivity).
  erewrite second_step by (unfold thread_step; cbn -[bilinear]; reflexivity).
  erewrite first_step by (unfold thread_step; cbn -[bilinear]; reflexivity).
  split; [reflexivity|]. split; [reflexivity|]. cbn -[bilinear]. split; [|reflexivity].
  pose proof (bilinear_node demo_raster 3 2 2 1 ltac:(lia) ltac:(lia) ltac:(lia) ltac:(lia)) as N.
  cbn [INR] in N. unfold value_T in N. cbn -[bilinear] in N. replace (1 + 1) with 2 in N by ring. rewrite N. reflexivity.
Qed.
(** Two threads that ask for the same tile of the C15 example. *)
Example C80_single_load_non_vacuous :
  loads (fst (run_threads demo_find (fun _ => demo_load) (start 5 [[SetElevation (mkGeo 2 1 7)]; [SetElevation (mkGeo 2 1 7)]]) [0; 1; 0; 1; 0; 1]%nat)) = ["a"; "a"]%string.
Proof. eapply C80_single_load_refuted; [apply demo_at_2|discriminate|reflexivity|reflexivity]. Qed.
