(** Property theorems for a tile factory shared by threads: C82. *)
Require Import ZArith Reals String List Lia Bool.
Require Import Verif.Base Verif.SarMetaModel Verif.SarMetaProofs Verif.SarMetaProps Verif.DemThreadModel Verif.DemThreadProps Verif.EncodeThreadModel.
Import ListNotations.

(** The metadata that belongs to a window of the image described by [d]. *)
Definition chip_of (d : SicdMeta) (b : Bounds) : SicdMeta :=
  with_image_data d (mkImageData (bh b) (bw b) (first_row (image_data d) + by_ b) (first_col (image_data d) + bx b)).
(** A request that asks for no scaling. *)
Definition unscaled (q : request) : Prop := snd q = None \/ snd q = Some (bw (fst q), bh (fst q)).

Lemma update_spec d u q : original_first_row u = first_row (image_data d) -> original_first_col u = first_col (image_data d) ->
  (exists i, sicd_doc u = with_image_data d i) ->
  (unscaled q -> snd (sicd_update u q) = Ok tt /\ sicd_doc (fst (sicd_update u q)) = chip_of d (fst q))
  /\ (~ unscaled q -> sicd_update u q = (u, Err ValueError))
  /\ original_first_row (fst (sicd_update u q)) = first_row (image_data d) /\ original_first_col (fst (sicd_update u q)) = first_col (image_data d)
  /\ exists i, sicd_doc (fst (sicd_update u q)) = with_image_data d i.
Proof.
  intros A B [i C]. assert (K : exists i, sicd_doc u = with_image_data d i) by now exists i.
  destruct q as [b [[w h]|]]; unfold sicd_update, unscaled, chip_of; cbn.
  - destruct (Z.eqb_spec w (bw b)) as [->|N1]; cbn; [destruct (Z.eqb_spec h (bh b)) as [->|N2]; cbn|].
    + rewrite A, B, C. split; [now split|]. split; [intros H; exfalso; apply H; now right|]. split; [reflexivity|]. split; [reflexivity|]. now eexists.
    + split; [intros [H|H]; congruence|]. split; [reflexivity|]. now repeat split.
    + split; [intros [H|H]; congruence|]. split; [reflexivity|]. now repeat split.
  - rewrite A, B, C. split; [now split|]. split; [intros H; exfalso; apply H; now left|]. split; [reflexivity|]. split; [reflexivity|]. now eexists.
Qed.

Section Sicd.
Variable xml : SicdMeta -> string.
Variable header : string.
Variable d : SicdMeta.
Notation encode := (fun u => xml (sicd_doc u)).
Notation run := (run_tiles sicd_update encode header).
Notation stp := (tiles_step sicd_update encode header).

Definition doc_ok (u : SicdUpdater) : Prop :=
  original_first_row u = first_row (image_data d) /\ original_first_col u = first_col (image_data d) /\ exists i, sicd_doc u = with_image_data d i.
(** The metadata of a finished tile, and the document while a request is between its two steps, belong
    to requests of this factory. *)
Definition tiles_ok (qs : list request) (s : SicdUpdater * list (request * phase)) : Prop :=
  doc_ok (fst s) /\ List.map fst (snd s) = qs
  /\ (sicd_doc (fst s) = d \/ exists q, In q qs /\ unscaled q /\ sicd_doc (fst s) = chip_of d (fst q))
  /\ ((exists t, In t (snd s) /\ snd t = Updated) -> exists q, In q qs /\ unscaled q /\ sicd_doc (fst s) = chip_of d (fst q))
  /\ (forall t, In t (snd s) -> match snd t with
        | Waiting => True | Updated => unscaled (fst t) | Failed e => e = ValueError /\ ~ unscaled (fst t)
        | Encoded x => unscaled (fst t) /\ exists q, In q qs /\ unscaled q /\ x = (header ++ xml (chip_of d (fst q)))%string end).
Lemma map_replace {A B} (f : A -> B) l i x t : nth_error l i = Some t -> f x = f t -> List.map f (replace_nth i x l) = List.map f l.
Proof. revert i. induction l as [|y l IH]; intros [|i] E H; cbn in *; try discriminate; [injection E as ->; congruence | f_equal; eauto]. Qed.
Lemma in_replace {A} (l : list A) i x y : In y (replace_nth i x l) -> y = x \/ In y l.
Proof. revert i. induction l as [|z l IH]; intros [|i] H; cbn in *; try tauto; [destruct H; [left; congruence|tauto] | destruct H as [H|H]; [tauto | destruct (IH _ H); tauto]]. Qed.
Lemma unscaled_dec q : unscaled q \/ ~ unscaled q.
Proof.
  destruct q as [b [[w h]|]]; unfold unscaled; cbn; [|left; now left].
  destruct (Z.eq_dec w (bw b)) as [->|N]; [destruct (Z.eq_dec h (bh b)) as [->|N]|]; [left; now right | right; intros [H|H]; congruence | right; intros [H|H]; congruence].
Qed.
Lemma tiles_step_ok qs s i : tiles_ok qs s -> tiles_ok qs (stp s i).
Proof.
  intros (D & M & L & W & P). unfold tiles_step. destruct (nth_error (snd s) i) as [[q p]|] eqn:E; [|exact (conj D (conj M (conj L (conj W P))))].
  assert (I : In q qs) by (rewrite <- M; apply in_map_iff; exists (q, p); split; [reflexivity | eapply nth_error_In; exact E]).
  pose proof (P (q, p) (nth_error_In _ _ E)) as Pq. unfold tile_step. cbn [fst snd] in *. destruct p as [| |x|e].
  - destruct D as (D1 & D2 & D3). destruct (update_spec d (fst s) q D1 D2 D3) as (Ok1 & Er1 & A & B & C).
    destruct (unscaled_dec q) as [F|F].
    + destruct (Ok1 F) as [R1 R2]. destruct (sicd_update (fst s) q) as [u r]. cbn [fst snd] in *. subst r.
      assert (Q : exists q0, In q0 qs /\ unscaled q0 /\ sicd_doc u = chip_of d (fst q0)) by (exists q; now repeat split).
      split; [now repeat split|]. cbn [fst snd]. split; [rewrite (map_replace fst _ _ _ _ E); [exact M | reflexivity]|].
      split; [now right|]. split; [now intros _|].
      intros t H. destruct (in_replace _ _ _ _ H) as [->|H']; [exact F | exact (P t H')].
    + rewrite (Er1 F). cbn [fst snd]. split; [now repeat split|]. cbn [fst snd]. split; [rewrite (map_replace fst _ _ _ _ E); [exact M | reflexivity]|].
      split; [exact L|]. split.
      * intros (t & H & U). apply W. destruct (in_replace _ _ _ _ H) as [->|H']; [discriminate | now exists t].
      * intros t H. destruct (in_replace _ _ _ _ H) as [->|H']; [cbn; now split | exact (P t H')].
  - assert (X : exists q0, In q0 qs /\ unscaled q0 /\ sicd_doc (fst s) = chip_of d (fst q0)) by (apply W; exists (q, Updated); split; [eapply nth_error_In; exact E | reflexivity]).
    split; [exact D|]. cbn [fst snd]. split; [rewrite (map_replace fst _ _ _ _ E); [exact M | reflexivity]|]. split; [exact L|]. split; [now intros _|].
    intros t H. destruct (in_replace _ _ _ _ H) as [->|H']; [|exact (P t H')]. cbn. split; [exact Pq|]. destruct X as (q0 & X1 & X2 & X3). exists q0. rewrite X3. now repeat split.
  - unfold tiles_ok. cbn [fst snd]. split; [exact D|]. split; [rewrite (map_replace fst _ _ _ _ E); [exact M | reflexivity]|]. split; [exact L|]. split.
    + intros (t & H & U). apply W. destruct (in_replace _ _ _ _ H) as [->|H']; [discriminate | now exists t].
    + intros t H. destruct (in_replace _ _ _ _ H) as [->|H']; [exact Pq | exact (P t H')].
  - unfold tiles_ok. cbn [fst snd]. split; [exact D|]. split; [rewrite (map_replace fst _ _ _ _ E); [exact M | reflexivity]|]. split; [exact L|]. split.
    + intros (t & H & U). apply W. destruct (in_replace _ _ _ _ H) as [->|H']; [discriminate | now exists t].
    + intros t H. destruct (in_replace _ _ _ _ H) as [->|H']; [exact Pq | exact (P t H')].
Qed.
Lemma run_tiles_ok qs schedule : forall s, tiles_ok qs s -> tiles_ok qs (run s schedule).
Proof. induction schedule as [|i l IH]; intros s H; [exact H|]. cbn. apply IH. now apply tiles_step_ok. Qed.
Lemma start_tiles_ok qs : tiles_ok qs (start_tiles (sicd_updater d) qs).
Proof.
  assert (E : d = with_image_data d (image_data d)) by (destruct d; reflexivity).
  repeat split; cbn.
  - now exists (image_data d).
  - rewrite map_map. cbn. apply map_id.
  - now left.
  - intros (t & H & U). apply in_map_iff in H. destruct H as (q & <- & _). discriminate.
  - intros t H. apply in_map_iff in H. destruct H as (q & <- & _). exact I.
Qed.

(** ** C82 *)

(** Whatever the schedule: scaled requests fail, and the metadata of a finished tile is complete and
    describes a window that some thread asked for. *)
Theorem C82_some_window : forall qs schedule q p, In (q, p) (snd (run (start_tiles (sicd_updater d) qs) schedule)) ->
  match p with
  | Waiting => True
  | Updated => unscaled q
  | Failed e => e = ValueError /\ ~ unscaled q
  | Encoded x => unscaled q /\ exists q', In q' qs /\ unscaled q' /\ x = (header ++ xml (chip_of d (fst q')))%string
  end.
Proof.
  intros qs schedule q p H. destruct (run_tiles_ok qs schedule _ (start_tiles_ok qs)) as (_ & _ & _ & _ & P). exact (P (q, p) H).
Qed.

(** If no request is interrupted between its two steps, it is the window of the request itself. *)
Theorem C82_uninterrupted : forall qs turns q x,
  In (q, Encoded x) (snd (run (start_tiles (sicd_updater d) qs) (flat_map (fun i => [i; i]) turns))) ->
  unscaled q /\ x = (header ++ xml (chip_of d (fst q)))%string.
Proof.
  intros qs turns.
  assert (G : forall turns s, doc_ok (fst s) -> (forall t, In t (snd s) -> match snd t with Waiting | Failed _ => True | Updated => False | Encoded x => unscaled (fst t) /\ x = (header ++ xml (chip_of d (fst (fst t))))%string end) ->
    forall t, In t (snd (run s (flat_map (fun i => [i; i]) turns))) -> match snd t with Waiting | Failed _ => True | Updated => False | Encoded x => unscaled (fst t) /\ x = (header ++ xml (chip_of d (fst (fst t))))%string end).
  { clear qs turns. induction turns as [|i l IH]; intros s D P; [exact P|]. cbn [flat_map app]. unfold run_tiles. cbn [fold_left]. fold (run (stp (stp s i) i) (flat_map (fun i => [i; i]) l)).
    assert (K : stp (stp s i) i = s \/ exists q p u, nth_error (snd s) i = Some (q, Waiting) /\ stp (stp s i) i = (u, replace_nth i (q, p) (snd s)) /\ doc_ok u
                 /\ match p with Waiting | Failed _ => True | Updated => False | Encoded x => unscaled q /\ x = (header ++ xml (chip_of d (fst q)))%string end).
    { unfold tiles_step at 2 4. destruct (nth_error (snd s) i) as [[q p]|] eqn:E.
      2: { left. unfold tiles_step. rewrite E. reflexivity. }
      pose proof (P (q, p) (nth_error_In _ _ E)) as Pq. unfold tile_step at 1 2. cbn [fst snd] in *. destruct p as [| |x|e].
      - right. destruct D as (D1 & D2 & D3). destruct (update_spec d (fst s) q D1 D2 D3) as (Ok1 & Er1 & A & B & C).
        assert (Len : i < List.length (snd s)) by (apply nth_error_Some; congruence).
        destruct (unscaled_dec q) as [F|F].
        + destruct (Ok1 F) as [R1 R2]. destruct (sicd_update (fst s) q) as [u r]. cbn [fst snd] in *. subst r.
          exists q, (Encoded (header ++ xml (sicd_doc u))%string), u. split; [reflexivity|]. split; [|split; [now repeat split | rewrite R2; now split]].
          unfold tiles_step. cbn [snd fst]. rewrite replace_nth_error, Nat.eqb_refl by exact Len. cbn. f_equal. revert i E Len. clear. generalize (snd s). intros l.
          induction l as [|y l IH]; intros [|i] E L; cbn in *; try discriminate; [reflexivity | f_equal; apply IH; [exact E | lia]].
        + rewrite (Er1 F). exists q, (Failed ValueError), (fst s). split; [reflexivity|]. split; [|split; [now repeat split | exact I]].
          unfold tiles_step. cbn [snd fst]. rewrite replace_nth_error, Nat.eqb_refl by exact Len. cbn. f_equal. revert i E Len. clear. generalize (snd s). intros l.
          induction l as [|y l IH]; intros [|i] E L; cbn in *; try discriminate; [reflexivity | f_equal; apply IH; [exact E | lia]].
      - destruct Pq.
      - left. assert (Id : replace_nth i (q, Encoded x) (snd s) = snd s). { revert i E. clear. generalize (snd s). intros l. induction l as [|y l IH]; intros [|i] E; cbn in *; try discriminate; [congruence | f_equal; now apply IH]. }
        rewrite Id. unfold tiles_step. cbn [snd fst]. rewrite E. cbn. rewrite Id. now destruct s.
      - left. assert (Id : replace_nth i (q, Failed e) (snd s) = snd s). { revert i E. clear. generalize (snd s). intros l. induction l as [|y l IH]; intros [|i] E; cbn in *; try discriminate; [congruence | f_equal; now apply IH]. }
        rewrite Id. unfold tiles_step. cbn [snd fst]. rewrite E. cbn. rewrite Id. now destruct s. }
    destruct K as [-> | (q & p & u & E & -> & Du & Pp)]; [now apply IH|]. apply IH; [exact Du|].
    cbn [snd]. intros t H. destruct (in_replace _ _ _ _ H) as [->|H']; [exact Pp | exact (P t H')]. }
  intros q x H. refine (G turns _ _ _ _ H).
  - destruct (start_tiles_ok qs) as [D _]. exact D.
  - cbn. intros t Ht. apply in_map_iff in Ht. destruct Ht as (q0 & <- & _). exact I.
Qed.

(** If another request comes between, the tile gets the other request's metadata: for any two
    requests, not only some. *)
Theorem C82_interrupted : forall q0 q1, unscaled q0 -> unscaled q1 ->
  snd (run (start_tiles (sicd_updater d) [q0; q1]) [0; 1; 0; 1])
  = [(q0, Encoded (header ++ xml (chip_of d (fst q1)))%string); (q1, Encoded (header ++ xml (chip_of d (fst q1)))%string)].
Proof.
  intros q0 q1 F0 F1. destruct (start_tiles_ok [q0; q1]) as [(D1 & D2 & D3) _].
  destruct (update_spec d (sicd_updater d) q0 D1 D2 D3) as (Ok0 & _ & A & B & C). destruct (Ok0 F0) as [R1 R2].
  unfold run_tiles, start_tiles. cbn [fold_left List.map].
  unfold tiles_step at 4. cbn. destruct (sicd_update (sicd_updater d) q0) as [u r]. cbn [fst snd] in *. subst r.
  destruct (update_spec d u q1 A B C) as (Ok1 & _ & _). destruct (Ok1 F1) as [S1 S2].
  unfold tiles_step at 3. cbn. destruct (sicd_update u q1) as [v r]. cbn [fst snd] in *. subst r.
  unfold tiles_step at 2. cbn. unfold tiles_step. cbn. rewrite S2. reflexivity.
Qed.
End Sicd.
Print Assumptions C82_some_window.
Print Assumptions C82_uninterrupted.
Print Assumptions C82_interrupted.

(** "Every tile carries the metadata of its own window" is false of concurrent requests. *)
Theorem C82_own_window_refuted : exists d xml qs schedule q x,
  In (q, Encoded x) (snd (run_tiles sicd_update (fun u => xml (sicd_doc u)) "" (start_tiles (sicd_updater d) qs) schedule))
  /\ x <> xml (chip_of d (fst q)).
Proof.
  exists demo_meta, (fun m => if (first_row (image_data m) =? 32)%Z then "32" else "?")%string, [(mkBounds 1 2 3 4, None); (mkBounds 9 9 9 9, None)], [0; 1; 0; 1].
  exists (mkBounds 1 2 3 4, None), "?"%string. split; [vm_compute; left; reflexivity|]. vm_compute. discriminate.
Qed.
Print Assumptions C82_own_window_refuted.

Example C82_non_vacuous : let xml := (fun m => if (first_row (image_data m) =? 32)%Z then "32" else "?")%string in
  snd (run_tiles sicd_update (fun u => xml (sicd_doc u)) "" (start_tiles (sicd_updater demo_meta) [(mkBounds 1 2 3 4, None); (mkBounds 9 9 9 9, None); (mkBounds 1 2 3 4, Some (9, 9)%Z)]) (flat_map (fun i => [i; i]) [1; 0; 2]))
  = [((mkBounds 1 2 3 4, None), Encoded "32"); ((mkBounds 9 9 9 9, None), Encoded "?"); ((mkBounds 1 2 3 4, Some (9, 9)%Z), Failed ValueError)]%string.
Proof. vm_compute. reflexivity. Qed.
