(** Proofs about coordinates as objects. *)
Require Import ZArith Reals String List Lia.
Require Import Verif.Base Verif.Vec Verif.RpcModel Verif.RsmModel Verif.TransformModel Verif.SicdModel Verif.HeapModel Verif.HeapSpec.
Require Verif.DemModel.
Import ListNotations.
Local Open Scope R_scope.

Lemma nth_replace {A} n (x : A) l k : nth_error (replace_nth n x l) k =
  if Nat.eqb k n then match nth_error l k with Some _ => Some x | None => None end else nth_error l k.
Proof.
  revert n k. induction l as [|y l IH]; intros n k.
  - destruct n, k; cbn; try reflexivity. now destruct (Nat.eqb k n).
  - destruct n as [|n], k as [|k]; cbn; try reflexivity. apply IH.
Qed.
Lemma length_replace {A} n (x : A) l : List.length (replace_nth n x l) = List.length l.
Proof. revert n. induction l as [|y l IH]; intros [|n]; cbn; auto. Qed.
Lemma replace_app {A} (h1 : list A) c h2 x : replace_nth (List.length h1) x (h1 ++ c :: h2) = (h1 ++ x :: h2)%list.
Proof. induction h1 as [|y h1 IH]; cbn; [reflexivity | now rewrite IH]. Qed.
Lemma nth_mid {A} (h1 : list A) c h2 : nth_error (h1 ++ c :: h2) (List.length h1) = Some c.
Proof. induction h1; cbn; auto. Qed.
Lemma nth_ext {A} (h t : list A) k v : nth_error h k = Some v -> nth_error (h ++ t) k = Some v.
Proof. intros H. rewrite nth_error_app1; [exact H|]. apply nth_error_Some. congruence. Qed.

(** *** Frames *)
(** Started with at least [b] arrays, the code leaves the first [n] alone; [P] relates the number of
    arrays at the end to what it returns. *)
Definition frames {A} (n b : nat) (P : nat -> A -> Prop) (m : M A) : Prop :=
  forall h, (n <= List.length h)%nat -> (b <= List.length h)%nat ->
  unchanged_below n h (fst (m h)) /\ forall a, snd (m h) = Ok a -> P (List.length (fst (m h))) a.
Definition any {A} (c : nat) (a : A) : Prop := True.
Definition fresh (n c l : nat) : Prop := (n <= l < c)%nat.

Lemma below_refl n h : unchanged_below n h h.
Proof. split; auto. Qed.
Lemma below_trans n a b c : unchanged_below n a b -> unchanged_below n b c -> unchanged_below n a c.
Proof. intros [L1 H1] [L2 H2]. split; [lia|]. intros k K. rewrite H2, H1; auto. Qed.

Lemma frames_seq {A B} n b P Q (m : M A) (k : A -> M B) :
  frames n b P m -> (forall a c, (b <= c)%nat -> P c a -> frames n c Q (k a)) -> frames n b Q (seq_ m k).
Proof.
  intros Hm Hk h L Lb. destruct (Hm h L Lb) as [U V]. unfold seq_. destruct (m h) as [h1 [a|e]]; cbn in *.
  - destruct U as [U1 U2]. destruct (Hk a (List.length h1) ltac:(lia) (V a eq_refl) h1 ltac:(lia) ltac:(lia)) as [W X].
    split; [|exact X]. apply below_trans with h1; [now split | exact W].
  - split; [exact U | discriminate].
Qed.
Lemma frames_ret {A} n b (P : nat -> A -> Prop) a : (forall c, (b <= c)%nat -> P c a) -> frames n b P (ret a).
Proof. intros H h L Lb. split; [apply below_refl|]. cbn. intros x E. injection E as <-. now apply H. Qed.
Lemma frames_raise {A} n b (P : nat -> A -> Prop) e : frames n b P (raise e).
Proof. intros h L Lb. split; [apply below_refl | discriminate]. Qed.
Lemma frames_lift {A} n b (r : res A) : frames n b any (lift r).
Proof. intros h L Lb. split; [apply below_refl | intros; exact I]. Qed.
Lemma frames_read n b l : frames n b any (read l).
Proof. intros h L Lb. unfold read. destruct (nth_error h l); (split; [apply below_refl | intros; exact I]). Qed.
Lemma frames_new n b v : frames n b (fresh n) (new_array v).
Proof.
  intros h L Lb. cbn. rewrite app_length. cbn. unfold fresh. split; [|intros a E; injection E as <-; lia].
  split; [rewrite app_length; lia|]. intros k K. apply nth_error_app1. lia.
Qed.
Lemma frames_set n b l i x : (n <= l)%nat -> frames n b any (set_item l i x).
Proof.
  intros N h L Lb. unfold set_item. destruct (nth_error h l) as [v|]; [destruct (Nat.ltb _ _)|]; cbn; (split; [|intros; exact I]); try apply below_refl.
  split; [rewrite length_replace; auto|]. intros k K. rewrite nth_replace.
  destruct (Nat.eqb_spec k l); [lia | reflexivity].
Qed.
Lemma frames_world n b v : frames n b (fresh n) (world_coordinate v).
Proof. unfold world_coordinate. destruct v as [v|]; destruct (Nat.eqb _ _); try apply frames_new; apply frames_raise. Qed.
Lemma frames_image n b v : frames n b (fresh n) (image_coordinate v).
Proof. unfold image_coordinate. destruct v as [v|]; destruct (Nat.eqb _ _); try apply frames_new; apply frames_raise. Qed.
Lemma frames_item n b l i : frames n b any (item l i).
Proof.
  eapply frames_seq; [apply frames_read|]. intros v c _ _.
  destruct (nth_error v i); [apply frames_ret; intros; exact I | apply frames_raise].
Qed.
Ltac items := repeat (eapply frames_seq; [apply frames_item|intros ? ? _ _]); apply frames_ret; intros; exact I.
Lemma frames_vector n b l : frames n b any (vector l).
Proof. unfold vector. items. Qed.
Lemma frames_geodetic n b l : frames n b any (geodetic l).
Proof. unfold geodetic. items. Qed.
Lemma frames_pixel n b l : frames n b any (pixel l).
Proof. unfold pixel. items. Qed.
Lemma frames_optional n b em l : polite_option em -> (n <= l < b)%nat -> frames n b any (set_optional em l).
Proof.
  intros P N. destruct em as [e|]; [|apply frames_ret; intros; exact I].
  intros h L Lb. cbn. destruct (e l h) as [h' r] eqn:E. destruct (P h l h' r ltac:(lia) E) as (A & B & _). cbn.
  split; [|intros; exact I]. split; [exact A|]. intros k K. apply B; lia.
Qed.
Lemma frames_weaken {A} n b (P Q : nat -> A -> Prop) m : (forall c a, P c a -> Q c a) -> frames n b P m -> frames n b Q m.
Proof. intros PQ H h L Lb. destruct (H h L Lb) as [U V]. split; [exact U|]. intros a E. apply PQ, V, E. Qed.

(** One statement of a program at a time. *)
Ltac frame_step :=
  match goal with
  | |- frames _ _ _ (seq_ (set_item _ _ _) _) => eapply frames_seq; [apply frames_set; unfold fresh in *; lia | intros ? ? ? _]
  | |- frames _ _ _ (seq_ (constant_set_elevation _ _) _) => eapply frames_seq; [apply frames_set; unfold fresh in *; lia | intros ? ? ? _]
  | |- frames _ _ _ (seq_ (set_optional _ _) _) => eapply frames_seq; [apply frames_optional; [assumption | unfold fresh in *; lia] | intros ? ? ? _]
  | |- frames _ _ _ (seq_ (new_array _) _) => eapply frames_seq; [apply frames_new | intros ? ? ? ?]
  | |- frames _ _ _ (seq_ (world_coordinate _) _) => eapply frames_seq; [apply frames_world | intros ? ? ? ?]
  | |- frames _ _ _ (seq_ (image_coordinate _) _) => eapply frames_seq; [apply frames_image | intros ? ? ? ?]
  | |- frames _ _ _ (seq_ (read _) _) => eapply frames_seq; [apply frames_read | intros ? ? ? _]
  | |- frames _ _ _ (seq_ (item _ _) _) => eapply frames_seq; [apply frames_item | intros ? ? ? _]
  | |- frames _ _ _ (seq_ (vector _) _) => eapply frames_seq; [apply frames_vector | intros ? ? ? _]
  | |- frames _ _ _ (seq_ (geodetic _) _) => eapply frames_seq; [apply frames_geodetic | intros ? ? ? _]
  | |- frames _ _ _ (seq_ (pixel _) _) => eapply frames_seq; [apply frames_pixel | intros ? ? ? _]
  | |- frames _ _ _ (seq_ (lift _) _) => eapply frames_seq; [apply frames_lift | intros ? ? ? _]
  | |- frames _ _ (fresh _) (world_coordinate _) => apply frames_world
  | |- frames _ _ (fresh _) (image_coordinate _) => apply frames_image
  | |- frames _ _ (fresh _) (ret _) => apply frames_ret; intros; unfold fresh in *; lia
  | |- frames _ _ any (ret _) => apply frames_ret; intros; exact I
  | |- frames _ _ _ (raise _) => apply frames_raise
  end.
Ltac frame := repeat (cbv zeta; frame_step).

Lemma frames_surface n b d em x : polite_option em -> frames n b (fresh n) (h_surface d em x).
Proof. intros P. unfold h_surface. frame. Qed.
Lemma frames_objective n b w2i d i em x : polite_option em -> (forall l c, frames n c (fresh n) (w2i l)) ->
  frames n b any (h_objective w2i d i em x).
Proof.
  intros P W. unfold h_objective. eapply frames_seq; [now apply frames_surface|]. intros w c _ Fw.
  eapply frames_seq; [apply W|]. intros j c' _ _. frame.
Qed.
Lemma frames_follow n obj : (forall x b, frames n b any (obj x)) -> forall s b, frames n b any (follow s obj).
Proof.
  intros O. induction s as [x|e|x next IH]; intros b; cbn; [frame | frame |].
  eapply frames_seq; [apply O|]. intros d c _ _. apply IH.
Qed.

(** From frames to the specification. *)
Lemma frames_spec (m : M nat) : (forall n, frames n n (fresh n) m) -> writes_nothing_old m /\ answers_new m.
Proof.
  intros F. split.
  - intros h h' r E. destruct (F (List.length h) h ltac:(lia) ltac:(lia)) as [U _]. rewrite E in U. exact U.
  - intros h h' l E. destruct (F (List.length h) h ltac:(lia) ltac:(lia)) as [_ V]. rewrite E in V. apply (V l eq_refl).
Qed.
(** A sensor model all of whose calls are framed. *)
Definition framed (s : HSensor) : Prop :=
  (forall n b i em o, polite_option em -> frames n b (fresh n) (h_image_to_world s i em o))
  /\ (forall n b l, frames n b (fresh n) (h_world_to_image s l)).
Lemma framed_harmless s : framed s -> harmless s.
Proof. intros [A B]. split; [intros i em o P; apply frames_spec; intros n; now apply A | intros l; apply frames_spec; intros n; apply B]. Qed.
Lemma harmless_framed s : harmless s -> framed s.
Proof.
  intros [A B].
  assert (G : forall (m : M nat), writes_nothing_old m /\ answers_new m -> forall n b, frames n b (fresh n) m).
  { intros m [W N] n b h L Lb. destruct (m h) as [h' r] eqn:E. specialize (W h h' r E). destruct W as [W1 W2]. cbn. split.
    - split; [exact W1|]. intros k K. apply W2. lia.
    - intros l El. subst r. specialize (N h h' l E). unfold fresh. lia. }
  split; [intros n b i em o P; apply G; now apply A | intros n b l; apply G; apply B].
Qed.

Lemma framed_affine m : framed (h_affine m).
Proof. split; intros; cbn [h_affine h_image_to_world h_world_to_image]; frame. Qed.
Lemma framed_projective t : framed (h_projective t).
Proof. split; intros; cbn [h_projective h_image_to_world h_world_to_image]; frame. Qed.
Lemma framed_chipped s t : framed s -> framed (h_chipped s t).
Proof.
  intros [A B]. split; intros; cbn [h_chipped h_image_to_world h_world_to_image].
  - frame. now apply A.
  - eapply frames_seq; [apply B|]. intros i c _ _. frame.
Qed.
Lemma framed_composite a p : framed a -> framed p -> framed (h_composite a p).
Proof.
  intros [A _] [P1 P2]. split; intros; cbn [h_composite h_image_to_world h_world_to_image]; [|apply P2].
  eapply frames_seq; [now apply A|]. intros w c _ _. frame. now apply P1.
Qed.
Lemma frames_rpc m n b l : frames n b (fresh n) (h_rpc_world_to_image m l).
Proof. unfold h_rpc_world_to_image. frame. Qed.
Lemma framed_rpc min m : framed (h_rpc min m).
Proof.
  split; intros; cbn [h_rpc h_image_to_world h_world_to_image]; [|apply frames_rpc]. frame.
  eapply frames_seq; [apply frames_follow; intros; apply frames_objective; [assumption | intros; apply frames_rpc]|].
  intros x c' _ _. now apply frames_surface.
Qed.
Lemma frames_to_domain tc d n b l : frames n b any (h_to_ground_domain tc d l).
Proof.
  unfold h_to_ground_domain. destruct (gd_form (hd_rest d)); [frame | frame |].
  - eapply frames_weaken; [|apply frames_world]. intros; exact I.
  - destruct (hd_origin d) as [o|]; [|apply frames_raise]. destruct (gd_units (hd_rest d)) as [[u i]|]; [|apply frames_raise].
    frame. eapply frames_weaken; [|apply frames_world]. intros; exact I.
Qed.
Lemma frames_from_domain tg d n b l : frames n b (fresh n) (h_from_ground_domain tg d l).
Proof.
  unfold h_from_ground_domain, world_coordinate_of. destruct (gd_form (hd_rest d)); [frame | frame |].
  destruct (hd_origin d) as [o|]; [|apply frames_raise]. destruct (gd_units (hd_rest d)) as [[u i]|]; [|apply frames_raise]. frame.
Qed.
Lemma frames_domain_to_image m n b l : frames n b (fresh n) (h_ground_domain_to_image m l).
Proof. unfold h_ground_domain_to_image. frame. Qed.
Lemma frames_rsm tc o m n b l : frames n b (fresh n) (h_rsm_world_to_image tc o m l).
Proof. unfold h_rsm_world_to_image. eapply frames_seq; [apply frames_to_domain|]. intros v c _ _. apply frames_domain_to_image. Qed.
Lemma framed_rsm tc min o m : framed (h_rsm tc min o m).
Proof.
  split; intros; cbn [h_rsm h_image_to_world h_world_to_image]; [|apply frames_rsm].
  destruct (nth_error _ 0) as [v1|]; [|apply frames_raise]. destruct (nth_error _ 3) as [v4|]; [|apply frames_raise]. frame.
  eapply frames_seq; [apply frames_follow; intros; apply frames_objective; [assumption | intros; apply frames_rsm]|].
  intros x c' _ _. now apply frames_surface.
Qed.
Lemma py_nth_in {A} (l : list A) i x : py_nth l i = Ok x -> In x l.
Proof.
  unfold py_nth. cbv zeta. destruct (_ <? 0)%Z eqn:E1; [discriminate|].
  destruct (nth_error l _) eqn:E; [|discriminate]. intros H. injection H as <-. eapply nth_error_In, E.
Qed.
Lemma section_in models ix s : h_section_at models ix = Ok s -> exists row, In row models /\ In s row.
Proof.
  unfold h_section_at. destruct (py_nth models (snd ix)) as [row|e] eqn:E; cbn; [|discriminate].
  intros H. exists row. split; [eapply py_nth_in, E | eapply py_nth_in, H].
Qed.
Lemma framed_sectioned tc o m models : (forall row s, In row models -> In s row -> framed s) -> framed (h_sectioned tc o m models).
Proof.
  intros F.
  assert (S : forall n b ix (k : HSensor -> M nat), (forall s c, framed s -> frames n c (fresh n) (k s)) ->
    frames n b (fresh n) (seq_ (lift (h_section_at models ix)) k)).
  { intros n b ix k K h L Lb. unfold seq_, lift. destruct (h_section_at models ix) as [s|e] eqn:E.
    - destruct (section_in _ _ _ E) as (row & I1 & I2). apply (K s b); auto. eapply F; eassumption.
    - split; [apply below_refl | discriminate]. }
  split; intros; cbn [h_sectioned h_image_to_world h_world_to_image].
  - frame_step. apply S. intros s ? [A _]. now apply A.
  - eapply frames_seq; [apply frames_to_domain|]. intros v c _ _. do 3 frame_step. apply S. intros s ? [_ B]. apply B.
Qed.

(** *** Values *)
Lemma app_nil h : (h ++ [])%list = h :> cells.
Proof. apply app_nil_r. Qed.
Lemma computes_ret {A B} (rep : cells -> A -> B -> Prop) h a b : rep h a b -> computes rep (ret a) h (Ok b).
Proof. intros H. exists [], (Ok a). rewrite app_nil. split; [reflexivity | exact H]. Qed.
Lemma computes_raise {A B} (rep : cells -> A -> B -> Prop) h e : computes rep (raise e) h (Err e).
Proof. exists [], (Err e). rewrite app_nil. split; reflexivity. Qed.
Lemma computes_lift {A} h (r : res A) : computes value (lift r) h r.
Proof. exists [], r. rewrite app_nil. split; [reflexivity|]. destruct r; reflexivity. Qed.
Lemma computes_seq {A B C D} rep1 rep2 (m : M A) (k : A -> M B) h (r : res C) (f : C -> res D) :
  computes rep1 m h r ->
  (forall t a c, r = Ok c -> rep1 (h ++ t)%list a c -> computes (fun h' => rep2 h') (k a) (h ++ t)%list (f c)) ->
  computes rep2 (seq_ m k) h (bind r f).
Proof.
  intros (t & x & E & H) K. unfold seq_, computes. rewrite E. destruct r as [c|e], x as [a|e']; try contradiction; cbn.
  - destruct (K t a c eq_refl H) as (t2 & y & E2 & H2). rewrite E2. exists (t ++ t2)%list, y. rewrite app_assoc. split; [reflexivity | exact H2].
  - exists t, (Err e'). split; [reflexivity | exact H].
Qed.
(** The same where the value level has no bind. *)
Lemma computes_then {A B C D} rep1 rep2 (m : M A) (k : A -> M B) h (c : C) (r : res D) :
  computes rep1 m h (Ok c) ->
  (forall t a, rep1 (h ++ t)%list a c -> computes rep2 (k a) (h ++ t)%list r) ->
  computes rep2 (seq_ m k) h r.
Proof. intros H K. apply (computes_seq rep1 rep2 m k h (Ok c) (fun _ => r) H). intros t a c' E. injection E as <-. apply K. Qed.

Definition holds (n : nat) (v : list R) (h : cells) (l : nat) (_ : unit) : Prop := (n <= l)%nat /\ nth_error h l = Some v.
Lemma computes_read h l v : nth_error h l = Some v -> computes value (read l) h (Ok v).
Proof. intros E. exists [], (Ok v). unfold read. rewrite E, app_nil. split; reflexivity. Qed.
Lemma computes_item h l v i x : nth_error h l = Some v -> nth_error v i = Some x -> computes value (item l i) h (Ok x).
Proof.
  intros E F. unfold item. eapply computes_then; [apply computes_read, E|]. intros t a Ht; unfold value in Ht; subst. rewrite F. now apply computes_ret.
Qed.
Lemma computes_geodetic h l g : nth_error h l = Some (geo_array g) -> computes value (geodetic l) h (Ok g).
Proof.
  intros E. unfold geodetic.
  eapply computes_then; [eapply computes_item; [exact E | reflexivity]|]. intros t1 ? Ht1; unfold value in Ht1; subst.
  eapply computes_then; [eapply computes_item; [apply nth_ext, E | reflexivity]|]. intros t2 ? Ht2; unfold value in Ht2; subst.
  eapply computes_then; [eapply computes_item; [apply nth_ext, nth_ext, E | reflexivity]|]. intros t3 ? Ht3; unfold value in Ht3; subst.
  apply computes_ret. now destruct g.
Qed.
Lemma computes_vector h l v : nth_error h l = Some (vec_array v) -> computes value (vector l) h (Ok v).
Proof.
  intros E. unfold vector.
  eapply computes_then; [eapply computes_item; [exact E | reflexivity]|]. intros t1 ? Ht1; unfold value in Ht1; subst.
  eapply computes_then; [eapply computes_item; [apply nth_ext, E | reflexivity]|]. intros t2 ? Ht2; unfold value in Ht2; subst.
  eapply computes_then; [eapply computes_item; [apply nth_ext, nth_ext, E | reflexivity]|]. intros t3 ? Ht3; unfold value in Ht3; subst.
  apply computes_ret. now destruct v.
Qed.
Lemma computes_pixel h l i : nth_error h l = Some (image_array i) -> computes value (pixel l) h (Ok i).
Proof.
  intros E. unfold pixel.
  eapply computes_then; [eapply computes_item; [exact E | reflexivity]|]. intros t1 ? Ht1; unfold value in Ht1; subst.
  eapply computes_then; [eapply computes_item; [apply nth_ext, E | reflexivity]|]. intros t2 ? Ht2; unfold value in Ht2; subst.
  apply computes_ret. now destruct i.
Qed.
Lemma computes_vec3 h l a b c : nth_error h l = Some [a; b; c] -> computes value (vector l) h (Ok (mkVec a b c)).
Proof. intros E. now apply computes_vector. Qed.
Lemma computes_pixel2 h l a b : nth_error h l = Some [a; b] -> computes value (pixel l) h (Ok (mkImage a b)).
Proof. intros E. now apply computes_pixel. Qed.
Lemma computes_new h v : computes (holds (List.length h) v) (new_array v) h (Ok tt).
Proof. exists [v], (Ok (List.length h)). split; [reflexivity|]. split; [lia | apply nth_mid]. Qed.
Lemma computes_world h v : List.length v = 3%nat -> computes (holds (List.length h) v) (world_coordinate (Some v)) h (Ok tt).
Proof. intros L. unfold world_coordinate. rewrite L. apply computes_new. Qed.
Lemma computes_image h v : List.length v = 2%nat -> computes (holds (List.length h) v) (image_coordinate (Some v)) h (Ok tt).
Proof. intros L. unfold image_coordinate. rewrite L. apply computes_new. Qed.
Lemma computes_weaken {A B} (r1 r2 : cells -> A -> B -> Prop) m h r : (forall h' a b, r1 h' a b -> r2 h' a b) -> computes r1 m h r -> computes r2 m h r.
Proof. intros W (t & x & E & H). exists t, x. split; [exact E|]. destruct r, x; auto. Qed.
Lemma computes_new_image (h h0 : cells) i : (List.length h0 <= List.length h)%nat -> forall v, v = image_array i ->
  computes (new_image (List.length h0)) (image_coordinate (Some v)) h (Ok i).
Proof.
  intros L v ->. destruct (computes_image h (image_array i) eq_refl) as (t & x & E & H). exists t, x. split; [exact E|].
  destruct x; [|exact H]. destruct H as [A B]. split; [lia | exact B].
Qed.

(** A new coordinate that is then given its elevation. *)
Lemma surface_step h g em f : implements_option em f ->
  exists t, seq_ (set_optional em (List.length h)) (fun _ => ret (List.length h)) (h ++ [geo_array g])%list
  = ((h ++ geo_array (match f with None => g | Some f => f g end) :: t)%list, Ok (List.length h)).
Proof.
  intros I. unfold seq_. destruct em as [e|], f as [f|]; try contradiction; cbn.
  - destruct (I (h ++ [geo_array g])%list (List.length h) g (nth_mid h _ [])) as [t ->]. exists t. cbn.
    now rewrite replace_app, <- app_assoc.
  - exists []. reflexivity.
Qed.
Lemma computes_surface h d em f x : implements_option em f ->
  computes (new_world (List.length h)) (h_surface d em x) h (Ok (surface_point (constant_elevation d) f x)).
Proof.
  intros I. unfold h_surface, world_coordinate. cbn [List.length Nat.eqb].
  destruct (surface_step h (constant_elevation d (mkGeo (fst x) (snd x) 0)) em f I) as [t E].
  exists (geo_array (surface_point (constant_elevation d) f x) :: t), (Ok (List.length h)).
  split; [|split; [lia | apply nth_mid]].
  unfold seq_ at 1, new_array. unfold seq_ at 1, constant_set_elevation, set_item. rewrite nth_mid. cbn [List.length Nat.ltb Nat.leb].
  rewrite replace_app. cbn [replace_nth]. exact E.
Qed.
Lemma computes_optional h g em f : implements_option em f ->
  computes (new_world (List.length h)) (w <== world_coordinate (Some (geo_array g)) ;; set_optional em w ;;; ret w) h
    (Ok (match f with None => g | Some f => f g end)).
Proof.
  intros I. unfold world_coordinate, geo_array at 1. cbn [List.length Nat.eqb]. destruct (surface_step h g em f I) as [t E].
  eexists. eexists. split; [unfold seq_ at 1, new_array; exact E|]. split; [lia | apply nth_mid].
Qed.
Lemma ext_trans a b t : extends a b -> extends a (b ++ t)%list.
Proof. intros [u ->]. exists (u ++ t)%list. now rewrite app_assoc. Qed.

Lemma computes_follow h0 obj f : (forall h x, extends h0 h -> computes value (obj x) h (f x)) ->
  forall s h, extends h0 h -> computes value (follow s obj) h (outcome s f).
Proof.
  intros O. induction s as [x|e|x next IH]; intros h X; cbn [follow outcome].
  - now apply computes_ret.
  - apply computes_raise.
  - eapply computes_seq; [apply O, X|]. intros t a c _ ->. apply IH. now apply ext_trans.
Qed.
Lemma computes_objective h0 w2i w2i' d i p em f :
  (forall h l g, extends h0 h -> nth_error h l = Some (geo_array g) -> computes (new_image (List.length h)) (w2i l) h (w2i' g)) ->
  nth_error h0 i = Some (image_array p) -> implements_option em f ->
  forall h x, extends h0 h -> computes value (h_objective w2i d i em x) h
    (bind (w2i' (surface_point (constant_elevation d) f x)) (fun q => Ok (image_distance p q))).
Proof.
  intros W Ei I h x X. unfold h_objective.
  eapply computes_then; [apply (computes_surface h d em f x I)|]. intros t w [_ Ew].
  eapply computes_seq; [apply W; [now apply ext_trans | exact Ew]|]. intros t2 j q _ [_ Ej].
  assert (Ei' : forall t', nth_error (h ++ t') i = Some (image_array p)).
  { intros t'. apply nth_ext. destruct X as [u ->]. now apply nth_ext. }
  eapply computes_then; [apply computes_pixel; rewrite <- app_assoc; apply Ei'|]. intros t3 ? Ht3; unfold value in Ht3; subst.
  eapply computes_then; [apply computes_pixel; apply nth_ext, Ej|]. intros t4 ? Ht4; unfold value in Ht4; subst. now apply computes_ret.
Qed.
Lemma len_app h t : (List.length h <= List.length (h ++ t : cells))%nat.
Proof. rewrite app_length. lia. Qed.
Lemma computes_mono_image n n' (m : M nat) h r : (n <= n')%nat -> computes (new_image n') m h r -> computes (new_image n) m h r.
Proof. intros L. apply computes_weaken. intros h' a b [A B]. split; [lia | exact B]. Qed.
Lemma computes_mono_world n n' (m : M nat) h r : (n <= n')%nat -> computes (new_world n') m h r -> computes (new_world n) m h r.
Proof. intros L. apply computes_weaken. intros h' a b [A B]. split; [lia | exact B]. Qed.
Ltac longer := rewrite ?app_length; lia.

Lemma faithful_affine h0 m : faithful h0 (h_affine m) (affine_sensor m).
Proof.
  split; cbn [h_affine h_image_to_world h_world_to_image affine_sensor image_to_world world_to_image].
  - intros h i p em f o X E I. eapply computes_then; [apply computes_pixel, E|]. intros t ? Ht; unfold value in Ht; subst.
    unfold affine_image_to_world. cbv zeta.
    eapply computes_mono_world; [apply (len_app h t)|].
    apply (computes_optional (h ++ t) (mkGeo _ _ 0) em f I).
  - intros h l g X E. eapply computes_then; [apply computes_geodetic, E|]. intros t ? Ht; unfold value in Ht; subst.
    apply computes_new_image; [apply len_app | reflexivity].
Qed.
Lemma faithful_projective h0 m : faithful h0 (h_projective m) (projective_sensor m).
Proof.
  split; cbn [h_projective h_image_to_world h_world_to_image projective_sensor image_to_world world_to_image].
  - intros h i p em f o X E I. eapply computes_then; [apply computes_pixel, E|]. intros t ? Ht; unfold value in Ht; subst.
    unfold projective_image_to_world. cbv zeta.
    eapply computes_mono_world; [apply (len_app h t)|].
    apply (computes_optional (h ++ t) (mkGeo _ _ 0) em f I).
  - intros h l g X E. eapply computes_then; [apply computes_geodetic, E|]. intros t ? Ht; unfold value in Ht; subst.
    apply computes_new_image; [apply len_app | reflexivity].
Qed.
Lemma faithful_chipped h0 S s t : faithful h0 S s -> faithful h0 (h_chipped S t) (chipped_sensor (mkChipped s t)).
Proof.
  intros [A B].
  split; cbn [h_chipped h_image_to_world h_world_to_image chipped_sensor image_to_world world_to_image].
  - intros h i p em f o X E I. eapply computes_then; [apply computes_pixel, E|]. intros t1 ? Ht1; unfold value in Ht1; subst.
    unfold chipped_image_to_world. cbv zeta. cbn [full_to_chip full_sensor].
    eapply computes_then; [apply computes_image; reflexivity|]. intros t2 q [_ Eq].
    eapply computes_mono_world; [|apply A; [now do 2 apply ext_trans | exact Eq | exact I]]. longer.
  - intros h l g X E. unfold chipped_world_to_image. cbn [full_to_chip full_sensor].
    eapply computes_seq; [apply B; [exact X | exact E]|]. intros t1 j q _ [_ Ej].
    eapply computes_then; [apply computes_pixel, Ej|]. intros t2 ? Ht2; unfold value in Ht2; subst.
    apply computes_new_image; [longer | reflexivity].
Qed.
Lemma composite_pure m i em o : composite_image_to_world m i em o =
  bind (image_to_world (approximate m) i em o) (fun w =>
  image_to_world (precision m) i em (Some (dict_set INITIAL_SEARCH_DISTANCE (VNum (radians 0.005))
    (dict_set INITIAL_GUESS (VList [longitude w; latitude w]) (match o with None => [] | Some d => d end))))).
Proof.
  destruct o as [d|]; unfold composite_image_to_world, composite_run; cbn [load nth_error];
  destruct (image_to_world (approximate m) i em _); reflexivity.
Qed.
Lemma faithful_composite h0 A B a b : faithful h0 A a -> faithful h0 B b -> faithful h0 (h_composite A B) (composite_sensor (mkComposite a b)).
Proof.
  intros [Aw _] [Bw Bi].
  split; cbn [h_composite h_image_to_world h_world_to_image composite_sensor image_to_world world_to_image].
  - intros h i p em f o X E I. rewrite composite_pure. cbn [approximate precision].
    eapply computes_seq; [apply Aw; [exact X | exact E | exact I]|]. intros t1 w g _ [_ Ew].
    eapply computes_then; [apply computes_geodetic, Ew|]. intros t2 ? Ht2; unfold value in Ht2; subst. cbv zeta.
    eapply computes_mono_world; [|apply Bw; [now do 2 apply ext_trans | now do 2 apply nth_ext | exact I]]. longer.
  - exact Bi.
Qed.

Lemma computes_rpc h l g m : nth_error h l = Some (geo_array g) ->
  computes (new_image (List.length h)) (h_rpc_world_to_image m l) h (rpc_world_to_image m g).
Proof.
  intros E. unfold h_rpc_world_to_image, rpc_world_to_image.
  eapply computes_then; [apply computes_geodetic, E|]. intros t1 ? Ht1; unfold value in Ht1; subst.
  eapply computes_then; [apply computes_world; reflexivity|]. intros t2 n [_ En].
  eapply computes_then; [apply computes_vec3, En|]. intros t3 ? Ht3; unfold value in Ht3; subst. cbn [vx vy vz].
  eapply computes_seq; [apply computes_lift|]. intros t4 ? ? _ Ht4; unfold value in Ht4; subst.
  eapply computes_seq; [apply computes_lift|]. intros t5 ? ? _ Ht5; unfold value in Ht5; subst.
  eapply computes_seq; [apply computes_lift|]. intros t6 ? ? _ Ht6; unfold value in Ht6; subst.
  eapply computes_seq; [apply computes_lift|]. intros t7 ? ? _ Ht7; unfold value in Ht7; subst.
  apply computes_new_image; [longer | reflexivity].
Qed.

Lemma faithful_rpc h0 min m : faithful h0 (h_rpc min m) (rpc_sensor (fun f g t => outcome (min g t) f) m).
Proof.
  split; cbn [h_rpc h_image_to_world h_world_to_image rpc_sensor image_to_world world_to_image].
  - intros h i p em f o X E I. unfold rpc_image_to_world.
    eapply computes_seq; [apply computes_lift|]. intros t1 ? ? _ Ht1; unfold value in Ht1; subst.
    eapply computes_seq; [apply computes_lift|]. intros t2 ? ? _ Ht2; unfold value in Ht2; subst.
    eapply computes_seq.
    + apply (computes_follow ((h ++ t1) ++ t2)%list); [|exists []; now rewrite app_nil].
      intros h' x Xh. apply (computes_objective ((h ++ t1) ++ t2)%list _ (rpc_world_to_image m)); auto.
      * intros h'' l g _ El. now apply computes_rpc.
      * now do 2 apply nth_ext.
    + intros t3 ? ? _ Ht3; unfold value in Ht3; subst. eapply computes_mono_world; [|now apply computes_surface]. longer.
  - intros h l g X E. now apply computes_rpc.
Qed.

Definition new_vec (h : cells) (l : nat) (v : Vec) : Prop := nth_error h l = Some (vec_array v).
Lemma computes_new_vec h v a : a = vec_array v -> computes new_vec (world_coordinate (Some a)) h (Ok v).
Proof.
  intros ->. destruct (computes_world h (vec_array v) eq_refl) as (t & x & E & H). exists t, x. split; [exact E|].
  destruct x; [|exact H]. apply H.
Qed.
Lemma computes_new_world h n g a : (n <= List.length h)%nat -> a = geo_array g -> computes (new_world n) (world_coordinate (Some a)) h (Ok g).
Proof.
  intros L ->. destruct (computes_world h (geo_array g) eq_refl) as (t & x & E & H). exists t, x. split; [exact E|].
  destruct x; [|exact H]. destruct H. split; [lia | assumption].
Qed.
Lemma origin_ext h t o v : origin_is h o v -> origin_is (h ++ t)%list o v.
Proof. destruct o, v; cbn; auto. apply nth_ext. Qed.
Lemma computes_to_domain h tc d o l g : origin_is h o (gd_origin d) -> nth_error h l = Some (geo_array g) ->
  computes new_vec (h_to_ground_domain tc (mkHDomain o d) l) h (geodetic_to_ground_domain_coordinate tc d g).
Proof.
  intros O E. unfold h_to_ground_domain, geodetic_to_ground_domain_coordinate. cbn [hd_rest hd_origin].
  destruct (gd_form d).
  - now apply computes_ret.
  - eapply computes_then; [apply computes_geodetic, E|]. intros t1 ? Ht1; unfold value in Ht1; subst.
    now apply computes_new_vec.
  - destruct o as [o|], (gd_origin d) as [v|]; try contradiction; [|apply computes_raise].
    destruct (gd_units d) as [[u iu]|]; [|apply computes_raise]. cbn in O.
    eapply computes_then; [apply computes_geodetic, E|]. intros t1 ? Ht1; unfold value in Ht1; subst.
    eapply computes_then; [apply (computes_new_vec _ _ _ eq_refl)|]. intros t2 e Ee.
    eapply computes_then; [apply computes_vector, Ee|]. intros t3 ? Ht3; unfold value in Ht3; subst.
    eapply computes_then; [apply computes_vector; do 3 apply nth_ext; exact O|]. intros t4 ? Ht4; unfold value in Ht4; subst.
    now apply computes_new_vec.
Qed.
Lemma computes_from_domain h tg d o l v : origin_is h o (gd_origin d) -> nth_error h l = Some (vec_array v) ->
  computes (new_world (List.length h)) (h_from_ground_domain tg (mkHDomain o d) l) h (ground_domain_coordinate_to_geodetic tg d v).
Proof.
  intros O E. unfold h_from_ground_domain, world_coordinate_of, ground_domain_coordinate_to_geodetic, from_ground_domain. cbn [hd_rest hd_origin].
  destruct (gd_form d).
  - eapply computes_then; [apply computes_read, E|]. intros t1 ? Ht1; unfold value in Ht1; subst.
    apply computes_new_world; [longer | reflexivity].
  - eapply computes_then; [apply computes_read, E|]. intros t1 ? Ht1; unfold value in Ht1; subst.
    apply computes_new_world; [longer | reflexivity].
  - destruct o as [o|], (gd_origin d) as [w|]; try contradiction; [|apply computes_raise].
    destruct (gd_units d) as [[u iu]|]; [|apply computes_raise]. cbn in O.
    eapply computes_then; [apply computes_vector, E|]. intros t1 ? Ht1; unfold value in Ht1; subst.
    eapply computes_then; [apply computes_vector; apply nth_ext; exact O|]. intros t2 ? Ht2; unfold value in Ht2; subst.
    eapply computes_then; [apply (computes_new_vec _ _ _ eq_refl)|]. intros t3 e Ee.
    eapply computes_then; [apply computes_vector, Ee|]. intros t4 ? Ht4; unfold value in Ht4; subst.
    apply computes_new_world; [longer | reflexivity].
Qed.
Lemma computes_domain_to_image h m l v : nth_error h l = Some (vec_array v) ->
  computes (new_image (List.length h)) (h_ground_domain_to_image m l) h (Ok (ground_domain_to_image m v)).
Proof.
  intros E. unfold h_ground_domain_to_image, ground_domain_to_image. cbv zeta.
  eapply computes_then; [apply computes_vector, E|]. intros t1 ? Ht1; unfold value in Ht1; subst.
  eapply computes_then; [apply (computes_new_vec _ _ _ eq_refl)|]. intros t2 e Ee.
  eapply computes_then; [apply computes_vector, Ee|]. intros t3 ? Ht3; unfold value in Ht3; subst.
  eapply computes_then; [apply computes_image; reflexivity|]. intros t4 i [_ Ei].
  eapply computes_then; [apply computes_pixel2, Ei|]. intros t5 ? Ht5; unfold value in Ht5; subst.
  apply computes_new_image; [longer | reflexivity].
Qed.
Lemma computes_rsm h tc o m l g : origin_is h o (gd_origin (rp_domain m)) -> nth_error h l = Some (geo_array g) ->
  computes (new_image (List.length h)) (h_rsm_world_to_image tc o m l) h (rsm_world_to_image tc m g).
Proof.
  intros O E. unfold h_rsm_world_to_image, rsm_world_to_image.
  eapply computes_seq; [apply computes_to_domain; eassumption|]. intros t1 e v _ Ee.
  eapply computes_mono_image; [|apply computes_domain_to_image, Ee]. longer.
Qed.
Lemma extends_origin h0 h o v : extends h0 h -> origin_is h0 o v -> origin_is h o v.
Proof. intros [t ->]. apply origin_ext. Qed.
Lemma faithful_rsm h0 tc min o m : origin_is h0 o (gd_origin (rp_domain m)) ->
  faithful h0 (h_rsm tc min o m) (rsm_sensor tc (fun f g b t => outcome (min g b t) f) m).
Proof.
  intros O. split; cbn [h_rsm h_image_to_world h_world_to_image rsm_sensor image_to_world world_to_image].
  - intros h i p em f op X E I. unfold rsm_image_to_world.
    destruct (nth_error _ 0) as [v1|]; [|apply computes_raise]. destruct (nth_error _ 3) as [v4|]; [|apply computes_raise].
    eapply computes_seq; [apply computes_lift|]. intros t1 ? ? _ Ht1; unfold value in Ht1; subst.
    eapply computes_seq; [apply computes_lift|]. intros t2 ? ? _ Ht2; unfold value in Ht2; subst.
    eapply computes_seq.
    + apply (computes_follow ((h ++ t1) ++ t2)%list); [|exists []; now rewrite app_nil].
      intros h' x Xh. apply (computes_objective ((h ++ t1) ++ t2)%list _ (rsm_world_to_image tc m)); auto.
      * intros h'' l g Xh' El. apply computes_rsm; [|exact El]. eapply extends_origin; [exact Xh'|].
        now do 2 apply origin_ext; apply (extends_origin h0 h).
      * now do 2 apply nth_ext.
    + intros t3 ? ? _ Ht3; unfold value in Ht3; subst. eapply computes_mono_world; [|now apply computes_surface]. longer.
  - intros h l g X E. apply computes_rsm; [eapply extends_origin; eassumption | exact E].
Qed.

Lemma Forall2_nth {A B} (P : A -> B -> Prop) l1 l2 n : Forall2 P l1 l2 ->
  match nth_error l1 n, nth_error l2 n with Some a, Some b => P a b | None, None => True | _, _ => False end.
Proof. intros H. revert n. induction H; intros [|n]; cbn; auto; apply IHForall2. Qed.
Lemma Forall2_len {A B} (P : A -> B -> Prop) l1 l2 : Forall2 P l1 l2 -> List.length l1 = List.length l2.
Proof. induction 1; cbn; auto. Qed.
Lemma Forall2_py {A B} (P : A -> B -> Prop) l1 l2 i : Forall2 P l1 l2 ->
  match py_nth l1 i, py_nth l2 i with Ok a, Ok b => P a b | Err e, Err e' => e = e' | _, _ => False end.
Proof.
  intros H. unfold py_nth. cbv zeta. rewrite (Forall2_len _ _ _ H).
  destruct (_ <? 0)%Z; [reflexivity|]. generalize (Forall2_nth _ _ _ (Z.to_nat (if (i <? 0)%Z then i + Z.of_nat (List.length l2) else i)) H).
  destruct (nth_error l1 _), (nth_error l2 _); auto.
Qed.
Lemma computes_section h0 models m ix h : Forall2 (Forall2 (faithful h0)) models (section_models m) ->
  computes (fun _ => faithful h0) (lift (h_section_at models ix)) h (section_at m ix).
Proof.
  intros F. exists [], (h_section_at models ix). rewrite app_nil. split; [reflexivity|].
  unfold h_section_at, section_at. generalize (Forall2_py _ _ _ (snd ix) F).
  destruct (py_nth models (snd ix)) as [r1|e1], (py_nth (section_models m) (snd ix)) as [r2|e2]; try contradiction; cbn [bind]; [|congruence].
  intros F2. generalize (Forall2_py _ _ _ (fst ix) F2).
  destruct (py_nth r1 (fst ix)) as [s1|], (py_nth r2 (fst ix)) as [s2|]; try contradiction; auto; congruence.
Qed.
Lemma faithful_sectioned h0 tc o m models : origin_is h0 o (gd_origin (sc_domain m)) ->
  Forall2 (Forall2 (faithful h0)) models (section_models m) -> faithful h0 (h_sectioned tc o m models) (sectioned_sensor tc m).
Proof.
  intros O F. split; cbn [h_sectioned h_image_to_world h_world_to_image sectioned_sensor image_to_world world_to_image].
  - intros h i p em f op X E I. unfold sectioned_image_to_world.
    eapply computes_then; [apply computes_pixel, E|]. intros t1 ? Ht1; unfold value in Ht1; subst.
    eapply computes_seq; [apply computes_section, F|]. intros t2 S s _ [A _].
    eapply computes_mono_world; [|apply A; [now do 2 apply ext_trans | now do 2 apply nth_ext | exact I]]. longer.
  - intros h l g X E. unfold sectioned_world_to_image.
    eapply computes_seq; [apply computes_to_domain; [eapply extends_origin; eassumption | exact E]|]. intros t1 e v _ Ee. cbv zeta.
    eapply computes_then; [apply computes_vector, Ee|]. intros t2 ? Ht2; unfold value in Ht2; subst.
    eapply computes_then; [apply computes_image; reflexivity|]. intros t3 i [_ Ei].
    eapply computes_then; [apply computes_pixel2, Ei|]. intros t4 ? Ht4; unfold value in Ht4; subst.
    eapply computes_seq; [apply computes_section, F|]. intros t5 S s _ [_ B].
    eapply computes_mono_image; [|apply B; [now do 5 apply ext_trans | now do 5 apply nth_ext]]. longer.
Qed.

(** *** SICD *)
Lemma nth_len1 {A} (h : list A) a b t : nth_error (h ++ a :: b :: t) (S (List.length h)) = Some b.
Proof. induction h; cbn; auto. Qed.
Lemma item_at h l v i x : nth_error h l = Some v -> nth_error v i = Some x -> item l i h = (h, Ok x).
Proof. intros E F. unfold item, seq_, read. now rewrite E, F. Qed.
Lemma vector_at h l v : nth_error h l = Some (vec_array v) -> vector l h = (h, Ok v).
Proof.
  intros E. unfold vector. unfold seq_ at 1. rewrite (item_at h l _ 0 _ E eq_refl).
  unfold seq_ at 1. rewrite (item_at h l _ 1 _ E eq_refl). unfold seq_ at 1. rewrite (item_at h l _ 2 _ E eq_refl). now destruct v.
Qed.
Lemma geodetic_at h l g : nth_error h l = Some (geo_array g) -> geodetic l h = (h, Ok g).
Proof.
  intros E. unfold geodetic. unfold seq_ at 1. rewrite (item_at h l _ 0 _ E eq_refl).
  unfold seq_ at 1. rewrite (item_at h l _ 1 _ E eq_refl). unfold seq_ at 1. rewrite (item_at h l _ 2 _ E eq_refl). now destruct g.
Qed.
Lemma set_at h l v i x : nth_error h l = Some v -> (i < List.length v)%nat -> set_item l i x h = (replace_nth l (replace_nth i x v) h, Ok tt).
Proof. intros E L. unfold set_item. rewrite E. apply Nat.ltb_lt in L. now rewrite L. Qed.
Lemma replace_twice {A} l (x y : A) h : replace_nth l x (replace_nth l y h) = replace_nth l x h.
Proof. revert l. induction h as [|z h IH]; intros [|l]; cbn; auto. now rewrite IH. Qed.
Lemma nth_replaced {A} l (x : A) h v : nth_error h l = Some v -> nth_error (replace_nth l x h) l = Some x.
Proof. intros E. rewrite nth_replace, Nat.eqb_refl, E. reflexivity. Qed.
Lemma add_at h l v d : nth_error h l = Some (vec_array v) -> add_in_place l d h = (replace_nth l (vec_array (vadd v d)) h, Ok tt).
Proof.
  intros E. unfold add_in_place. unfold seq_ at 1. rewrite (item_at h l _ 0 _ E eq_refl).
  unfold seq_ at 1. rewrite (item_at h l _ 1 _ E eq_refl). unfold seq_ at 1. rewrite (item_at h l _ 2 _ E eq_refl).
  unfold seq_ at 1. rewrite (set_at h l _ 0 _ E) by (cbn; lia).
  unfold seq_ at 1. erewrite set_at; [|eapply nth_replaced, E | cbn; lia]. rewrite replace_twice.
  erewrite set_at; [|eapply nth_replaced, E | cbn; lia]. rewrite replace_twice. reflexivity.
Qed.
Definition same_outcome {A B C} (rep : A -> B -> Prop) (x : res A) (r : res B) (_ : C) : Prop :=
  match r, x with Ok b, Ok a => rep a b | Err e, Err e' => e' = e | _, _ => False end.
Lemma scene_loop tg m : forall more h s v it, exists v' x,
  h_scene_to_grid tg m (List.length h) (S (List.length h)) more (h ++ [vec_array s; vec_array v])%list
    = ((h ++ [vec_array s; v'])%list, x) /\ same_outcome (fun a b => a = fst b) x (scene_to_grid tg m s v more it) tt.
Proof.
  induction more as [|more IH]; intros h s v it; cbn [h_scene_to_grid scene_to_grid]; cbv zeta;
  unfold seq_ at 1; rewrite (vector_at _ _ v) by apply nth_len1; unfold seq_ at 1, lift;
  destruct (ground_intersection _ _ _ _ _) as [[p|]|e]; try (eexists; eexists; split; [reflexivity|]; reflexivity);
  unfold seq_ at 1; rewrite (vector_at _ _ s) by apply nth_mid; unfold seq_ at 1;
  rewrite (add_at _ _ v) by apply nth_len1;
  replace (h ++ [vec_array s; vec_array v])%list with ((h ++ [vec_array s]) ++ [vec_array v])%list by (rewrite <- app_assoc; reflexivity);
  replace (S (List.length h)) with (List.length (h ++ [vec_array s])) by (rewrite app_length; cbn; lia);
  rewrite replace_app, <- app_assoc; cbn [app];
  (destruct (Rlt_dec _ _); [|eexists; eexists; split; [reflexivity|]; reflexivity]).
  - eexists; eexists; split; [reflexivity|]; reflexivity.
  - replace (List.length (h ++ [vec_array s])) with (S (List.length h)) by (rewrite app_length; cbn; lia). apply IH.
Qed.
Lemma computes_sicd h tg tc m l g : nth_error h l = Some (geo_array g) ->
  computes (new_image (List.length h)) (h_sicd_world_to_image tg tc m l) h (sicd_world_to_image tg tc m g).
Proof.
  intros E. unfold h_sicd_world_to_image, sicd_world_to_image. cbv zeta.
  eapply computes_then; [apply computes_geodetic, E|]. intros t1 ? Ht1; unfold value in Ht1; subst.
  eapply computes_then; [apply (computes_new_vec _ _ _ eq_refl)|]. intros t2 e Ee.
  eapply computes_then; [apply computes_vector, Ee|]. intros t3 ? Ht3; unfold value in Ht3; subst.
  set (H := (((h ++ t1) ++ t2) ++ t3)%list). set (s := tc g).
  assert (L : (List.length h <= List.length H)%nat) by (subst H; longer). clearbody H.
  destruct (scene_loop tg m 9 H s s 1) as (v' & x & Ex & Sx).
  unfold computes. unfold seq_ at 1, new_array at 1. unfold seq_ at 1, read. rewrite nth_mid.
  unfold seq_ at 1, new_array at 1. rewrite <- app_assoc. cbn [app]. rewrite app_length. cbn [List.length].
  rewrite Nat.add_1_r. unfold seq_ at 1. rewrite Ex. unfold same_outcome in Sx.
  destruct (scene_to_grid tg m s s 9 1) as [b|e0]; destruct x as [y|e1]; try contradiction; cbn [bind].
  - subst y. unfold image_coordinate. cbn [image_array List.length Nat.eqb]. unfold new_array.
    exists [vec_array s; v'; image_array (to_pixel m (fst b))], (Ok (List.length (H ++ [vec_array s; v']))).
    rewrite <- app_assoc. split; [reflexivity|]. split; [rewrite app_length; lia|].
    replace (H ++ [vec_array s; v'; image_array (to_pixel m (fst b))])%list with ((H ++ [vec_array s; v']) ++ [image_array (to_pixel m (fst b))])%list
      by (rewrite <- app_assoc; reflexivity). apply nth_mid.
  - subst e1. exists [vec_array s; v'], (Err e0). split; reflexivity.
Qed.
Lemma computes_height h tg e t p : implements e (set_elevation t) ->
  computes value (h_height_above tg e p) h (Ok (height_above tg t p)).
Proof.
  intros I. unfold h_height_above, world_coordinate_of, height_above. cbv zeta.
  eapply computes_then; [apply (computes_new_vec _ _ _ eq_refl)|]. intros t1 l El.
  eapply computes_then; [apply computes_vector, El|]. intros t2 ? Ht2; unfold value in Ht2; subst.
  eapply computes_then; [apply (computes_new_world _ _ (tg p) _ (le_n _) eq_refl)|]. intros t3 lle [_ Elle].
  set (H := (((h ++ t1) ++ t2) ++ t3)%list) in *. clearbody H.
  destruct (I (H ++ [geo_array (tg p)])%list (List.length H) (tg p) (nth_mid _ _ _)) as [u Eu].
  rewrite replace_app, <- app_assoc in Eu. cbn [app] in Eu.
  unfold computes. unfold seq_ at 1. unfold seq_ at 1, read. rewrite Elle. unfold world_coordinate. cbn [geo_array List.length Nat.eqb].
  unfold new_array at 1. unfold seq_ at 1. change [longitude (tg p); latitude (tg p); elevation (tg p)] with (geo_array (tg p)). rewrite Eu.
  unfold seq_ at 1. erewrite item_at; [|apply nth_ext; exact Elle | reflexivity].
  unfold seq_ at 1. erewrite item_at; [|apply nth_mid | reflexivity].
  eexists. eexists. split; [reflexivity|]. reflexivity.
Qed.
Lemma computes_heights tg e t : implements e (set_elevation t) -> forall ps h,
  computes value (h_sample_heights tg e ps) h
    (Ok (List.map (fun p => (p, match p with Some q => Some (height_above tg t q) | None => None end)) ps)).
Proof.
  intros I. induction ps as [|[p|] ps IH]; intros h; cbn [h_sample_heights List.map].
  - now apply computes_ret.
  - eapply computes_then; [apply (computes_height _ _ _ t), I|]. intros t1 ? Ht1; unfold value in Ht1; subst.
    eapply computes_then; [apply IH|]. intros t2 ? Ht2; unfold value in Ht2; subst. now apply computes_ret.
  - eapply computes_then; [apply IH|]. intros t2 ? Ht2; unfold value in Ht2; subst. now apply computes_ret.
Qed.
Lemma computes_locate h n tg p : (n <= List.length h)%nat ->
  computes (new_world_option n) (h_locate tg p) h (Ok (option_map tg p)).
Proof.
  intros L. destruct p as [p|]; cbn [h_locate option_map]; [|now apply computes_ret].
  eapply computes_then; [apply (computes_new_vec _ _ _ eq_refl)|]. intros t1 l El.
  eapply computes_then; [apply computes_vector, El|]. intros t2 ? Ht2; unfold value in Ht2; subst.
  eapply computes_then; [apply (computes_new_world _ n (tg p) _); [longer | reflexivity]|]. intros t3 lle Elle.
  now apply computes_ret.
Qed.
Lemma computes_sicd_image h tg tc m i p em t : nth_error h i = Some (image_array p) ->
  match em, t with None, None => True | Some (set, describe), Some t => implements set (set_elevation t) /\ describe = describe_region t | _, _ => False end ->
  computes (new_world_option (List.length h)) (h_sicd_image_to_world tg tc m i em) h (sicd_image_to_world tg tc m p t).
Proof.
  intros E T. unfold h_sicd_image_to_world, sicd_image_to_world. cbv zeta.
  eapply computes_then; [apply computes_pixel, E|]. intros t1 ? Ht1; unfold value in Ht1; subst.
  destruct em as [[set describe]|], t as [t|]; try contradiction.
  - destruct T as [I ->]. unfold make_dem. cbn [describe_region].
    destruct (describe_region t _) as [[[lo hi] sp]|]; cbn [bind]; [|eapply (computes_seq value _ (lift _) _ _ (Err AttributeError) (fun _ : Dem => Ok None)); [apply computes_lift | discriminate]].
    eapply computes_then; [apply computes_lift|]. intros t2 ? Ht2; unfold value in Ht2; subst.
    unfold dem_intersection.
    change (dem_sampling tg tc {| d_scp := scp_ecf (converter m); d_side := side_of_track m; d_terrain := t; hae_min := lo; hae_max := hi; delta_dist_dem := 0.5 * sp; delta_dist_rrc := 10; delta_hd_lim := 0.001 |})
      with (dem_sampling tg tc {| d_scp := scp_ecf (converter m); d_side := side_of_track m; d_terrain := {| set_elevation := fun g : Geodetic => g; describe_region := describe_region t |}; hae_min := lo; hae_max := hi; delta_dist_dem := 0.5 * sp; delta_dist_rrc := 10; delta_hd_lim := 0.001 |}).
    destruct (dem_sampling _ _ _ _ _ _ _) as [s|e0]; cbn [bind]; [|eapply (computes_seq value _ (lift _) _ _ (Err e0) (fun _ : Sampling => Ok None)); [apply computes_lift | discriminate]].
    eapply computes_then; [apply computes_lift|]. intros t3 ? Ht3; unfold value in Ht3; subst.
    eapply computes_then; [apply (computes_heights _ _ t), I|]. intros t4 ? Ht4; unfold value in Ht4; subst.
    rewrite map_map. unfold sample_heights. cbn [d_terrain delta_hd_lim]. cbv zeta.
    destruct (dem_scan _ _ _ _ _) as [|q qs]; [apply computes_raise|].
    replace (match q with Some p0 => Ok (Some (tg p0)) | None => Ok None end) with (Ok (option_map tg q)) by (now destruct q).
    apply computes_locate. longer.
  - destruct (ground_intersection _ _ _ _ _) as [q|e0]; cbn [bind]; [|eapply (computes_seq value _ (lift _) _ _ (Err e0) (fun _ : option Vec => Ok None)); [apply computes_lift | discriminate]].
    eapply computes_then; [apply computes_lift|]. intros t2 ? Ht2; unfold value in Ht2; subst.
    replace (match q with Some p0 => Ok (Some (tg p0)) | None => Ok None end) with (Ok (option_map tg q)) by (now destruct q).
    apply computes_locate. longer.
Qed.
Lemma frames_height n b tg e p : polite e -> frames n b any (h_height_above tg e p).
Proof.
  intros P. unfold h_height_above, world_coordinate_of. do 3 frame_step.
  eapply frames_seq; [frame_step; apply frames_world|]. intros dem ? ? F.
  eapply frames_seq; [apply (frames_optional n _ (Some e) dem P); unfold fresh in *; lia|]. intros ? ? ? _. frame.
Qed.
Lemma frames_heights n tg e : polite e -> forall ps b, frames n b any (h_sample_heights tg e ps).
Proof.
  intros P. induction ps as [|[p|] ps IH]; intros b; cbn [h_sample_heights].
  - frame.
  - eapply frames_seq; [now apply frames_height|]. intros ? ? _ _. eapply frames_seq; [apply IH|]. intros ? ? _ _. frame.
  - eapply frames_seq; [apply IH|]. intros ? ? _ _. frame.
Qed.
Definition fresh_option (n c : nat) (l : option nat) : Prop := match l with None => True | Some l => fresh n c l end.
Lemma frames_locate n b tg p : frames n b (fresh_option n) (h_locate tg p).
Proof.
  destruct p as [p|]; cbn [h_locate]; [|apply frames_ret; intros; exact I]. do 3 frame_step.
  apply frames_ret. intros. unfold fresh_option, fresh in *. lia.
Qed.
Lemma frames_sicd_image n b tg tc m i em : match em with None => True | Some (set, _) => polite set end ->
  frames n b (fresh_option n) (h_sicd_image_to_world tg tc m i em).
Proof.
  intros P. unfold h_sicd_image_to_world. frame_step. cbv zeta. destruct em as [[set describe]|].
  - do 2 frame_step. eapply frames_seq; [now apply frames_heights|]. intros hs c' _ _.
    destruct (dem_scan _ _ _ _ _); [apply frames_raise | apply frames_locate].
  - frame_step. apply frames_locate.
Qed.
Lemma frames_add n b l d : (n <= l)%nat -> frames n b any (add_in_place l d).
Proof.
  intros N. unfold add_in_place. do 3 frame_step. do 2 (eapply frames_seq; [now apply frames_set|]; intros ? ? _ _). now apply frames_set.
Qed.
Lemma frames_scene n tg m scene g : (n <= g)%nat -> forall more b, frames n b any (h_scene_to_grid tg m scene g more).
Proof.
  intros N. induction more as [|more IH]; intros b; cbn [h_scene_to_grid]; do 2 (cbv zeta; frame_step);
  (destruct (a0 : option Vec) as [p|]; [|frame]); frame_step; cbv zeta; (eapply frames_seq; [now apply frames_add|]); intros ? ? _ _;
  (destruct (Rlt_dec _ _); [|frame]); [frame | apply IH].
Qed.
Lemma frames_sicd n b tg tc m l : frames n b (fresh n) (h_sicd_world_to_image tg tc m l).
Proof.
  unfold h_sicd_world_to_image. do 6 frame_step. eapply frames_seq; [apply frames_scene; unfold fresh in *; lia|].
  intros ? ? _ _. frame.
Qed.
Lemma frames_grid_call n b lon lat elev em x y : polite_option em -> frames n b (fresh n) (h_grid_call lon lat elev em x y).
Proof. intros P. unfold h_grid_call. frame. Qed.
Lemma computes_grid_call h lon lat elev em f x y : implements_option em f ->
  computes (new_world (List.length h)) (h_grid_call lon lat elev em x y) h
    (Ok (let g := mkGeo (lon x y) (lat x y) (elev x y) in match f with None => g | Some f => f g end)).
Proof. intros I. apply (computes_optional h (mkGeo (lon x y) (lat x y) (elev x y)) em f I). Qed.

(** *** Elevation models *)
Lemma set_polite h l i x h' r : (2 <= i)%nat -> set_item l i x h = (h', r) ->
  (List.length h <= List.length h')%nat /\ (forall k, k <> l -> nth_error h' k = nth_error h k)
  /\ (forall v, nth_error h l = Some v -> exists v', nth_error h' l = Some v' /\ List.length v' = List.length v /\ firstn 2 v' = firstn 2 v).
Proof.
  intros I. unfold set_item. destruct (nth_error h l) as [v|] eqn:E; [destruct (Nat.ltb i (List.length v))|]; intros H; injection H as <- <-.
  - rewrite length_replace. split; [lia|]. split.
    + intros k K. rewrite nth_replace. apply Nat.eqb_neq in K. now rewrite K.
    + intros w Ew. injection Ew as <-. exists (replace_nth i x v). rewrite (nth_replaced _ _ _ v E), length_replace. split; [reflexivity|]. split; [reflexivity|].
      destruct i as [|[|i]]; [lia | lia|]. destruct v as [|a [|b v]]; reflexivity.
  - split; [lia|]. split; [auto|]. intros w Ew. exists w. repeat split; congruence.
  - split; [lia|]. split; [auto|]. intros w Ew. congruence.
Qed.
Lemma polite_constant e : polite (constant_set_elevation e).
Proof. intros h l h' r L E. destruct (set_polite h l 2 e h' r ltac:(lia) E) as (A & B & C). auto. Qed.
Lemma implements_constant e : implements (constant_set_elevation e) (constant_elevation e).
Proof. intros h l g E. exists []. rewrite app_nil. unfold constant_set_elevation. now rewrite (set_at _ _ _ _ _ E) by (cbn; lia). Qed.

(** A coordinate keeps its place while others are added, and only its elevation changes. *)
Definition gentle (l : nat) (h h' : cells) : Prop :=
  (List.length h <= List.length h')%nat
  /\ (forall k, (k < List.length h)%nat -> k <> l -> nth_error h' k = nth_error h k)
  /\ (forall v, nth_error h l = Some v -> exists v', nth_error h' l = Some v' /\ List.length v' = List.length v /\ firstn 2 v' = firstn 2 v).
Lemma gentle_refl l h : gentle l h h.
Proof. split; [lia|]. split; [auto|]. intros v E. exists v. auto. Qed.
Lemma gentle_trans l a b c : gentle l a b -> gentle l b c -> gentle l a c.
Proof.
  intros (A1 & A2 & A3) (B1 & B2 & B3). split; [lia|]. split; [intros k K N; rewrite B2, A2; auto; lia|].
  intros v E. destruct (A3 v E) as (v1 & E1 & L1 & F1). destruct (B3 v1 E1) as (v2 & E2 & L2 & F2). exists v2. repeat split; congruence.
Qed.
Lemma gentle_below l h h' : (l < List.length h)%nat -> unchanged_below (List.length h) h h' -> gentle l h h'.
Proof.
  intros L [A B]. split; [exact A|]. split; [auto|]. intros v E. exists v. rewrite B by exact L. auto.
Qed.
Lemma gentle_seq {A B} l (m : M A) (k : A -> M B) h : (l < List.length h)%nat ->
  gentle l h (fst (m h)) -> (forall a h', (l < List.length h')%nat -> gentle l h' (fst (k a h'))) -> gentle l h (fst (seq_ m k h)).
Proof.
  intros L G K. unfold seq_. destruct (m h) as [h1 [a|e]]; cbn in *; [|exact G].
  eapply gentle_trans; [exact G|]. apply K. destruct G. lia.
Qed.
Lemma gentle_frames {A} l (m : M A) h : (l < List.length h)%nat -> frames (List.length h) (List.length h) any m -> gentle l h (fst (m h)).
Proof. intros L F. apply gentle_below; [exact L|]. apply (F h); lia. Qed.
Lemma polite_dem find grid : (forall id g s, grid id = Ok g -> hg_sensor g = Some s -> forall l, writes_nothing_old (s l)) ->
  polite (dem_set_elevation find grid).
Proof.
  intros G h l h' r L E. change (gentle l h h'). replace h' with (fst (dem_set_elevation find grid l h)) by now rewrite E.
  clear E h' r. unfold dem_set_elevation. apply gentle_seq; [exact L | apply gentle_frames; [exact L | apply frames_geodetic]|].
  clear h L. intros g h L. destruct (DemModel.truthy (find g)) as [id|]; [|apply gentle_refl].
  unfold seq_ at 1, lift. destruct (grid id) as [t|e] eqn:Eg; [|apply gentle_refl].
  destruct (hg_interp t) as [f|]; [|apply gentle_refl]. destruct (hg_sensor t) as [s|] eqn:Es; [|apply gentle_refl].
  apply gentle_seq; [exact L| |].
  - apply gentle_below; [exact L|]. destruct (s l h) as [h1 r1] eqn:E1. apply (G id t s Eg Es l h h1 r1 E1).
  - clear h L. intros i h L. apply gentle_seq; [exact L | apply gentle_frames; [exact L | apply frames_pixel]|].
    clear h L. intros p h L. destruct (set_item _ _ _ h) as [h1 r1] eqn:E1. destruct (set_polite h l 2 _ h1 r1 ltac:(lia) E1) as (A & B & C).
    split; [exact A|]. split; [auto | exact C].
Qed.
Lemma replace_same {A} l (x : A) h : nth_error h l = Some x -> replace_nth l x h = h.
Proof. revert l. induction h as [|y h IH]; intros [|l]; cbn; try discriminate; [congruence|]. intros E. now rewrite IH. Qed.
Lemma replace_ext {A} l (x : A) h t : (l < List.length h)%nat -> replace_nth l x (h ++ t) = (replace_nth l x h ++ t)%list.
Proof. revert l. induction h as [|y h IH]; intros [|l]; cbn; intros L; try lia; [reflexivity|]. rewrite IH by lia. reflexivity. Qed.
Lemma dem_set find grid (get_tile : nat -> string -> res DemModel.Tile) size h l w :
  (forall id, grid_implements (grid id) (DemModel.load_grid get_tile 0 id)) -> nth_error h l = Some (geo_array w) ->
  match snd (DemModel.set_elevation find get_tile (DemModel.new_cache size) w) with
  | Ok w' => exists t, dem_set_elevation find grid l h = ((replace_nth l (geo_array w') h ++ t)%list, Ok tt)
  | Err e => dem_set_elevation find grid l h = (h, Err e)
  end.
Proof.
  intros G E.
  set (K := fun t : HGrid => match hg_interp t, hg_sensor t with
      | Some f, Some s => i <== s l ;; p <== pixel i ;; set_item l 2 (f (ix p) (iy p))
      | _, _ => ret tt
      end).
  assert (D : dem_set_elevation find grid l h = match DemModel.truthy (find w) with
      | None => (h, Ok tt) | Some id => match grid id with Ok t => K t h | Err e => (h, Err e) end end).
  { unfold dem_set_elevation. unfold seq_ at 1. rewrite (geodetic_at _ _ _ E). destruct (DemModel.truthy (find w)) as [id|]; [|reflexivity].
    unfold seq_ at 1, lift. now destruct (grid id). }
  rewrite D. clear D.
  unfold DemModel.set_elevation. destruct (DemModel.truthy (find w)) as [id|].
  2:{ exists []. now rewrite app_nil, (replace_same _ _ _ E). }
  unfold DemModel.get_interpolation_grid, DemModel.new_cache. cbn [DemModel.entries DemModel.lookup DemModel.loads List.length].
  specialize (G id).
  destruct (grid id) as [t|e], (DemModel.load_grid get_tile 0 id) as [t'|e']; try contradiction; cbn [snd bind].
  2:{ cbn in G. now subst e. }
  destruct G as [Gi Gs]. subst K. cbv beta. rewrite Gi. clear Gi. destruct (DemModel.g_interp t') as [f|].
  2:{ exists []. now rewrite app_nil, (replace_same _ _ _ E). }
  destruct (hg_sensor t) as [s|], (DemModel.g_sensor t') as [s'|]; try contradiction.
  2:{ exists []. now rewrite app_nil, (replace_same _ _ _ E). }
  destruct (Gs h l w E) as (u & x & Es & X). destruct x as [i|]; [|contradiction]. destruct X as [_ Ei].
  assert (L : (l < List.length h)%nat) by (apply nth_error_Some; congruence).
  destruct (s' w) as [px py]. cbn [fst snd] in *.
  exists u. unfold seq_ at 1. rewrite Es. unfold seq_ at 1.
  assert (P : pixel i (h ++ u)%list = ((h ++ u)%list, Ok (mkImage px py))).
  { unfold pixel. unfold seq_ at 1. rewrite (item_at _ i _ 0 _ Ei eq_refl). unfold seq_ at 1. now rewrite (item_at _ i _ 1 _ Ei eq_refl). }
  rewrite P. rewrite (set_at _ l _ 2 _ (nth_ext h u l _ E)) by (cbn; lia). rewrite (replace_ext _ _ _ _ L). reflexivity.
Qed.

(** *** Histories *)
Lemma events_spec es : Forall well_behaved es -> forall h h' answers, run_events es h = (h', answers) ->
  (List.length h <= List.length h')%nat
  /\ (forall k, (k < List.length h)%nat -> (forall e, In e es -> ~ assigned e k) -> nth_error h' k = nth_error h k)
  /\ NoDup answers /\ (forall l, In l answers -> (List.length h <= l < List.length h')%nat).
Proof.
  induction 1 as [|e es W _ IH]; intros h h' answers E.
  - cbn in E. injection E as <- <-. repeat split; auto. constructor. all: contradiction.
  - destruct e as [m|l i x]; cbn [run_events] in E.
    + destruct (m h) as [h1 r] eqn:Em. destruct (run_events es h1) as [h2 a2] eqn:Er. injection E as <- <-.
      destruct (IH h1 h2 a2 Er) as (A & B & C & D). destruct W as [W N]. destruct (W h h1 r Em) as [W1 W2].
      split; [lia|]. split.
      { intros k K NA. rewrite B; [apply W2, K | lia|]. intros e' I. apply NA. now right. }
      destruct r as [l|e'].
      * pose proof (N h h1 l Em) as NL. split.
        { constructor; [|exact C]. intros I. apply D in I. lia. }
        { intros l' [<-|I]; [lia|]. apply D in I. lia. }
      * split; [exact C|]. intros l I. apply D in I. lia.
    + destruct (set_item l i x h) as [h1 r] eqn:Es. cbn [fst] in E. destruct (IH h1 h' answers E) as (A & B & C & D).
      assert (S : List.length h1 = List.length h /\ forall k, k <> l -> nth_error h1 k = nth_error h k).
      { unfold set_item in Es. destruct (nth_error h l) as [v|]; [destruct (Nat.ltb _ _)|]; injection Es as <- <-; split; auto.
        - apply length_replace.
        - intros k K. rewrite nth_replace. apply Nat.eqb_neq in K. now rewrite K. }
      destruct S as [S1 S2]. rewrite S1 in *. repeat split; auto; try (intros; now apply D).
      * intros k K NA. rewrite B; auto. { apply S2. intros ->. apply (NA (Assign l i x)); [now left | reflexivity]. }
        intros e' I. apply NA. now right.
Qed.
Lemma events_app es1 es2 h : run_events (es1 ++ es2) h =
  let '(h1, a1) := run_events es1 h in let '(h2, a2) := run_events es2 h1 in (h2, (a1 ++ a2)%list).
Proof.
  revert h. induction es1 as [|[m|l i x] es1 IH]; intros h; cbn [run_events app].
  - destruct (run_events es2 h); reflexivity.
  - destruct (m h) as [h1 r]. rewrite IH. destruct (run_events es1 h1) as [h2 a2]. destruct (run_events es2 h2). now destruct r.
  - apply IH.
Qed.
