(** Proofs about data binding: rendering an object and parsing the result gives the object back. *)
Require Import ZArith String Ascii List Bool Lia.
Require Import Verif.Base Verif.SchemaModel Verif.SchemaSpec.
Import ListNotations.
Local Open Scope string_scope.

Lemma qname_eqb_spec a b : qname_eqb a b = true <-> a = b.
Proof.
  unfold qname_eqb. rewrite andb_true_iff, !String.eqb_eq. destruct a, b. cbn. split.
  - intros [-> ->]. reflexivity.
  - intros E. injection E as -> ->. tauto.
Qed.
Lemma qname_eqb_refl a : qname_eqb a a = true.
Proof. apply qname_eqb_spec. reflexivity. Qed.
Lemma qname_eqb_neq a b : a <> b -> qname_eqb a b = false.
Proof. intros N. destruct (qname_eqb a b) eqn:E; [|reflexivity]. apply qname_eqb_spec in E. contradiction. Qed.

(** *** Words *)
Lemma split_word : forall w r, (forall i c, String.get i w = Some c -> is_space c = false) ->
  split_words (w ++ String " " r) = (w, words r).
Proof.
  induction w as [|c w IH]; intros r H.
  - cbn [append split_words]. unfold words. destruct (split_words r) as [w ws]. reflexivity.
  - cbn [append split_words]. rewrite IH by (intros i d G; apply (H (S i) d G)).
    rewrite (H 0%nat c eq_refl). reflexivity.
Qed.
Lemma split_last : forall w, (forall i c, String.get i w = Some c -> is_space c = false) -> split_words w = (w, []).
Proof.
  induction w as [|c w IH]; intros H; [reflexivity|].
  cbn [split_words]. rewrite IH by (intros i d G; apply (H (S i) d G)). rewrite (H 0%nat c eq_refl). reflexivity.
Qed.
Lemma eqb_nonempty s : s <> "" -> String.eqb s "" = false.
Proof. apply String.eqb_neq. Qed.
Lemma words_concat l : Forall is_word l -> words (String.concat " " l) = l.
Proof.
  induction l as [|w l IH]; intros H; [reflexivity|]. inversion_clear H as [|? ? [N W] Hl]. specialize (IH Hl).
  destruct l as [|w2 l].
  - unfold words. cbn [String.concat]. rewrite (split_last w W), (eqb_nonempty w N). reflexivity.
  - change (String.concat " " (w :: w2 :: l)) with (w ++ " " ++ String.concat " " (w2 :: l)).
    change (" " ++ String.concat " " (w2 :: l)) with (String " " (String.concat " " (w2 :: l))).
    unfold words at 1. rewrite (split_word w _ W), (eqb_nonempty w N), IH. reflexivity.
Qed.

Section Binding_proofs.
Context {F D T : Type}.
Notation Value := (Value F D T).
Notation Obj := (Obj F D T).
Variable L : Lexical F D T.
Variable S : Schema.

(** *** Induction over objects *)
Fixpoint Obj_deep (P : Obj -> Prop) (HL : forall v, P (Leaf v)) (HI : forall c slots, Forall (Forall P) slots -> P (Inst c slots)) (o : Obj) : P o :=
  match o with
  | Leaf v => HL v
  | Inst c slots =>
    HI c slots ((fix outer (ss : list (list Obj)) : Forall (Forall P) ss :=
      match ss with
      | [] => Forall_nil _
      | s :: sr => Forall_cons s
          ((fix inner (os : list Obj) : Forall P os :=
              match os with [] => Forall_nil _ | x :: r => Forall_cons x (Obj_deep P HL HI x) (inner r) end) s)
          (outer sr)
      end) slots)
  end.

Lemma shaped_inst ok t c slots :
  shaped L S ok t (Inst c slots) <->
  t = TClass c /\ exists k, find_class S c = Some k /\
    Forall2 (fun s f => slot_ok L f s /\ Forall (shaped L S ok (ty f)) s) slots (c_fields k).
Proof.
  cbn [shaped]. split; intros [E (k & Ek & H)]; (split; [exact E|]); exists k; (split; [exact Ek|]); clear E Ek; revert H; generalize (c_fields k).
  - induction slots as [|s sr IH]; intros [|f fr] H; try contradiction; constructor.
    + destruct H as (A & B & _). split; [exact A|]. clear - B. induction s as [|o s IHs]; constructor; [apply B|apply IHs, B].
    + apply IH, H.
  - induction slots as [|s sr IH]; intros [|f fr] H; inversion_clear H as [|? ? ? ? [A B] Hr]; [exact I|].
    split; [exact A|]. split; [|apply IH, Hr]. clear - B. induction B; [exact I|split; assumption].
Qed.
Lemma complete_inst c (slots : list (list Obj)) :
  complete S (Inst c slots) ->
  exists k, find_class S c = Some k /\
    forall i f, nth_error (c_fields k) i = Some f -> forall s, nth_error slots i = Some s -> (required f = true -> s <> []) /\ Forall (fun o : Obj => complete S o) s.
Proof.
  cbn [complete]. intros (k & Ek & H). exists k. split; [exact Ek|]. revert H. generalize (c_fields k). clear Ek.
  induction slots as [|s sr IH]; intros [|f fr] H i f' Ef s' Es; try (destruct i; discriminate).
  destruct H as (A & B & C). destruct i as [|i]; cbn in Ef, Es.
  - injection Ef as <-. injection Es as <-. split; [exact A|]. clear - B. induction s as [|o s IHs]; constructor; [apply B|apply IHs, B].
  - apply (IH fr C i f' Ef s' Es).
Qed.

(** *** Values *)
Hypothesis LO : lexical_ok L.
Hypothesis SO : schema_ok S.

Lemma find_class_ok c k : find_class S c = Some k -> class_ok k /\ c_name k = c.
Proof.
  intros E. apply find_some in E as [I E]. split; [|apply String.eqb_eq, E].
  destruct SO as [H _]. rewrite Forall_forall in H. apply H, I.
Qed.
Lemma value_in_enum e m : In m (values S e) -> m <> "" /\ collapse m = m.
Proof.
  unfold values. destruct find as [p|] eqn:E; [|intros []]. intros I. apply find_some in E as [J _].
  destruct SO as (_ & H & _). rewrite Forall_forall in H. exact (H p J m I).
Qed.
Lemma member_value e m : In m (values S e) -> member S e m = Some m.
Proof.
  intros I. unfold member. destruct (value_in_enum e m I) as [_ ->].
  destruct find eqn:E.
  - apply find_some in E as [_ E]. apply String.eqb_eq in E. subst. reflexivity.
  - exfalso. pose proof (find_none _ _ E m I) as C. cbn in C. rewrite String.eqb_refl in C. discriminate.
Qed.
Lemma member_none e s : ~ In (collapse s) (values S e) -> member S e s = None.
Proof.
  intros N. unfold member. destruct find eqn:E; [|reflexivity]. apply find_some in E as [I E]. apply String.eqb_eq in E. subst. contradiction.
Qed.
Lemma member_in e s m : member S e s = Some m -> In m (values S e).
Proof. intros E. apply find_some in E. apply E. Qed.
Lemma member_nothing e : member S e "" = None.
Proof.
  destruct (member S e "") eqn:E; [|reflexivity]. pose proof (member_in _ _ _ E) as I. apply find_some in E as [_ E].
  apply String.eqb_eq in E. cbn in E. subst. destruct (value_in_enum e "" I) as [N _]. contradiction.
Qed.
Lemma read_nothing t : read L S t "" = VStr "".
Proof.
  destruct LO as (_ & A & _ & B & _ & C & _ & E & _). destruct t as [[]|e|e|c]; cbn [read read_prim]; rewrite ?A, ?B, ?C, ?E, ?member_nothing; reflexivity.
Qed.
Lemma value_stable t v : value_ok S t v -> text_type t /\ stable L S t v.
Proof.
  unfold stable. destruct LO as (A & _ & B & _ & C & _ & E & _).
  destruct t as [[]|e|e|c]; destruct v; cbn [value_ok]; try contradiction; intros H; (split; [exact I|]); cbn [read show read_prim]; try reflexivity.
  - rewrite A. reflexivity.
  - rewrite B. reflexivity.
  - destruct b; reflexivity.
  - rewrite C. reflexivity.
  - rewrite E. reflexivity.
  - destruct H as [-> J]. rewrite (member_value e member J). reflexivity.
  - rewrite (member_none e s H). reflexivity.
  - destruct H as [-> J]. rewrite (member_value e member J). reflexivity.
Qed.
Lemma read_stable t s : text_type t -> stable L S t (read L S t s).
Proof.
  unfold stable. destruct LO as (A & _ & B & _ & C & _ & E & _). destruct t as [[]|e|e|c]; intros TT; try contradiction; cbn [read read_prim].
  - reflexivity.
  - destruct (read_int L s) eqn:R; cbn [option_map show]; [rewrite A|rewrite R]; reflexivity.
  - destruct (read_float L s) eqn:R; cbn [option_map show]; [rewrite B|rewrite R]; reflexivity.
  - destruct (read_bool (collapse s)) as [[]|] eqn:R; cbn [option_map show]; [reflexivity|reflexivity|rewrite R; reflexivity].
  - destruct (read_date L s) eqn:R; cbn [option_map show]; [rewrite C|rewrite R]; reflexivity.
  - destruct (read_datetime L s) eqn:R; cbn [option_map show]; [rewrite E|rewrite R]; reflexivity.
  - destruct (member S e s) as [m|] eqn:R; cbn [show]; [rewrite (member_value e m (member_in _ _ _ R))|rewrite R]; reflexivity.
  - destruct (member S e s) as [m|] eqn:R; cbn [show]; [rewrite (member_value e m (member_in _ _ _ R))|rewrite R]; reflexivity.
Qed.
Lemma show_empty t v : stable L S t v -> show L v = "" -> v = VStr "".
Proof. intros H E. unfold stable in H. rewrite E, read_nothing in H. symmetry. exact H. Qed.
Lemma show_read t s : text_type t -> show L (read L S t s) = "" -> s = "".
Proof.
  intros TT E. pose proof (show_empty t _ (read_stable t s TT) E) as R.
  destruct t as [[]|e|e|c]; cbn [read read_prim] in R; try contradiction.
  - injection R as ->. reflexivity.
  - destruct (read_int L s); [discriminate|injection R as ->; reflexivity].
  - destruct (read_float L s); [discriminate|injection R as ->; reflexivity].
  - destruct (read_bool (collapse s)); [discriminate|injection R as ->; reflexivity].
  - destruct (read_date L s); [discriminate|injection R as ->; reflexivity].
  - destruct (read_datetime L s); [discriminate|injection R as ->; reflexivity].
  - destruct (member S e s); [discriminate|injection R as ->; reflexivity].
  - destruct (member S e s); [discriminate|injection R as ->; reflexivity].
Qed.
Notation held := (shaped L S (stable L S)).
Lemma typed_held o : forall t, typed L S t o -> held t o.
Proof.
  induction o as [v|c slots IH] using Obj_deep; intros t H.
  - destruct H as [_ H]. apply value_stable, H.
  - unfold typed in H. apply shaped_inst in H as [-> (k & Ek & R)]. apply shaped_inst. split; [reflexivity|]. exists k. split; [exact Ek|].
    revert IH R. generalize (c_fields k). intros fs IH. revert fs. induction IH as [|s sr Hs _ IHr]; intros fs R; inversion_clear R as [|? f ? fr [A B] R']; constructor.
    + split; [exact A|]. rewrite Forall_forall in *. intros o I. apply Hs; [exact I|]. apply B, I.
    + apply IHr, R'.
Qed.

(** *** Slots *)
Notation any := (shaped L S (fun _ _ => True)).
Fixpoint back (slots : list (list Obj)) (fs : list Field) : list (list Obj) :=
  match slots, fs with s :: sr, f :: fr => map (reread L S (ty f)) s :: back sr fr | _, _ => [] end.
Lemma reread_class c k slots t : find_class S c = Some k -> reread L S t (Inst c slots) = Inst c (back slots (c_fields k)).
Proof. intros E. cbn [reread]. rewrite E. reflexivity. Qed.
Lemma back_nth : forall fs slots i f s, nth_error fs i = Some f -> nth_error (back slots fs) i = Some s ->
  exists s', nth_error slots i = Some s' /\ s = map (reread L S (ty f)) s'.
Proof.
  induction fs as [|g fr IH]; intros [|u sr] i f s Ef Es; try (destruct i; discriminate).
  destruct i as [|i]; cbn in Ef, Es.
  - injection Ef as ->. injection Es as <-. exists u. split; reflexivity.
  - apply (IH sr i f s Ef Es).
Qed.
Lemma back_length : forall fs slots, List.length slots = List.length fs -> List.length (back slots fs) = List.length fs.
Proof. induction fs as [|f fr IH]; intros [|s sr] E; try discriminate; [reflexivity|]. cbn. rewrite IH; [reflexivity|]. injection E as ->. reflexivity. Qed.
Lemma any_leaf t o : text_type t -> any t o -> exists v, o = Leaf v.
Proof.
  destruct o as [v|c slots]; intros TT H; [exists v; reflexivity|]. apply shaped_inst in H as [-> _]. destruct TT.
Qed.
Lemma read_slot_text f s : text_type (ty f) -> mult f <> Many -> s <> [] -> slot_ok L f s -> Forall (any (ty f)) s ->
  (mult f = Tokens -> default f = NoDefault) -> read_slot L S f (slot_text L s) = map (reread L S (ty f)) s.
Proof.
  intros TT M N H Ty DT. unfold read_slot. unfold slot_ok in H. destruct (mult f) eqn:Em; [|contradiction|].
  - assert (Ls : List.length s = 1%nat).
    { destruct (default f); [destruct H as [H _]; destruct s; [contradiction|cbn in *; lia]|exact H|subst; reflexivity|subst; reflexivity]. }
    destruct s as [|o [|? ?]]; try discriminate. inversion_clear Ty as [|? ? Ho _].
    destruct (any_leaf _ _ TT Ho) as (v & ->). reflexivity.
  - rewrite (DT eq_refl) in H. destruct H as [W _]. unfold slot_text. rewrite words_concat by (rewrite Forall_map; exact W).
    rewrite map_map. clear - TT Ty. induction Ty as [|o s Ho _ IH]; [reflexivity|]. cbn [map]. rewrite IH.
    destruct (any_leaf _ _ TT Ho) as (v & ->). reflexivity.
Qed.
Lemma settle_ok f s : field_ok f -> slot_ok L f s -> settle f (map (reread L S (ty f)) s) = Ok (map (reread L S (ty f)) s).
Proof.
  intros [_ FD]. unfold slot_ok, settle. destruct (default f); intros H; try reflexivity; subst s; rewrite FD; cbn [map reread read show read_prim].
  - destruct LO as (A & _). rewrite A. cbn [option_map]. rewrite Z.eqb_refl. reflexivity.
  - destruct b; reflexivity.
Qed.

(** *** Attributes and content *)

Lemma attribute_absent : forall fs slots q, ~ In q (map qname (filter is_attribute fs)) -> find_text q (render_attributes L fs slots) = None.
Proof.
  induction fs as [|f fr IH]; intros [|s sr] q N; cbn [render_attributes]; try reflexivity.
  cbn [filter] in N. unfold is_attribute at 1 in N. destruct (kind f); try (apply IH, N).
  cbn [map] in N. destruct s as [|o s]; [apply IH; intros C; apply N; right; exact C|].
  unfold find_text. cbn [find fst]. rewrite qname_eqb_neq by (intros C; apply N; left; exact C).
  apply (IH sr q). intros C. apply N. right. exact C.
Qed.
Lemma attribute_found : forall fs slots, List.length slots = List.length fs -> NoDup (map qname (filter is_attribute fs)) ->
  forall i f s, nth_error fs i = Some f -> nth_error slots i = Some s -> kind f = Attribute ->
  find_text (qname f) (render_attributes L fs slots) = match s with [] => None | _ => Some (slot_text L s) end.
Proof.
  induction fs as [|g fr IH]; intros [|u sr] Len ND i f s Ef Es K; try (destruct i; discriminate).
  cbn [filter] in ND. cbn [render_attributes]. destruct i as [|i]; cbn in Ef, Es.
  - injection Ef as ->. injection Es as ->. unfold is_attribute in ND. rewrite K in *. cbn [map] in ND. inversion_clear ND as [|? ? N ND'].
    destruct s as [|o s]; [apply attribute_absent, N|].
    unfold find_text. cbn [find fst]. rewrite qname_eqb_refl. reflexivity.
  - injection Len as Len. unfold is_attribute in ND at 1. destruct (kind g); try (apply (IH sr Len ND i f s Ef Es K)).
    cbn [map] in ND. inversion_clear ND as [|? ? N ND'].
    destruct u as [|o u]; [apply (IH sr Len ND' i f s Ef Es K)|].
    unfold find_text. cbn [find fst]. rewrite qname_eqb_neq; [apply (IH sr Len ND' i f s Ef Es K)|].
    intros C. apply N. rewrite C. apply in_map. apply filter_In. split; [eapply nth_error_In, Ef|unfold is_attribute; rewrite K; reflexivity].
Qed.
Lemma content_found : forall fs slots, List.length slots = List.length fs -> (List.length (filter is_content fs) <= 1)%nat ->
  forall i f s, nth_error fs i = Some f -> nth_error slots i = Some s -> kind f = Content -> render_content L fs slots = slot_text L s.
Proof.
  induction fs as [|g fr IH]; intros [|u sr] Len C i f s Ef Es K; try (destruct i; discriminate).
  cbn [filter] in C. cbn [render_content]. destruct i as [|i]; cbn in Ef, Es.
  - injection Ef as ->. injection Es as ->. unfold is_content. rewrite K. reflexivity.
  - injection Len as Len. destruct (is_content g) eqn:G; [|apply (IH sr Len C i f s Ef Es K)].
    exfalso. cbn [List.length] in C. assert (I : In f (filter is_content fr)).
    { apply filter_In. split; [eapply nth_error_In, Ef|unfold is_content; rewrite K; reflexivity]. }
    destruct (filter is_content fr); [destruct I|cbn in C; lia].
Qed.

(** *** Children *)
Fixpoint render_children (slots : list (list Obj)) (fs : list Field) : list Xml :=
  match slots, fs with
  | s :: sr, f :: fr => ((if is_element f then map (render L S (qname f)) s else []) ++ render_children sr fr)%list
  | _, _ => []
  end.
Fixpoint named (slots : list (list Obj)) (fs : list Field) : list (QName * Obj) :=
  match slots, fs with
  | s :: sr, f :: fr => ((if is_element f then map (pair (qname f)) s else []) ++ named sr fr)%list
  | _, _ => []
  end.
Section Children.
Variable p : Ty -> Xml -> res Obj.
Variable k : Class.
Fixpoint parse_children (xs : list Xml) (seen : list QName) : res (list (QName * Obj)) :=
  match xs with
  | [] => Ok []
  | y :: r =>
    match find_element k (tag y) with
    | None => Err OtherError
    | Some f =>
      if (is_one f && existsb (qname_eqb (qname f)) seen)%bool then Err OtherError else
      bind (p (ty f) y) (fun o =>
      bind (parse_children r (qname f :: seen)) (fun l => Ok ((qname f, o) :: l)))
    end
  end.
End Children.
Lemma parse_class c k q attributes text children : find_class S c = Some k ->
  parse L S (TClass c) (Node q attributes text children)
  = bind (parse_children (parse L S) k children []) (fun parsed =>
    bind (collect (fill L S attributes text parsed) (c_fields k)) (fun slots => Ok (Inst c slots))).
Proof. intros E. cbn [parse]. rewrite E. reflexivity. Qed.
Lemma render_class c k q slots : find_class S c = Some k ->
  render L S q (Inst c slots) = Node q (render_attributes L (c_fields k) slots) (render_content L (c_fields k) slots) (render_children slots (c_fields k)).
Proof. intros E. cbn [render]. rewrite E. f_equal. Qed.
Lemma tag_render q o : tag (render L S q o) = q.
Proof. destruct o as [v|c slots]; cbn [render]; [reflexivity|]. destruct (find_class S c); reflexivity. Qed.

Lemma existsb_none q seen : ~ In q seen -> existsb (qname_eqb q) seen = false.
Proof.
  intros N. destruct existsb eqn:E; [|reflexivity]. apply existsb_exists in E as (x & I & E). apply qname_eqb_spec in E. subst. contradiction.
Qed.
Lemma parse_slot p k f g s rest seen :
  find_element k (qname f) = Some f ->
  (is_one f = true -> (List.length s <= 1)%nat /\ (s <> [] -> ~ In (qname f) seen)) ->
  Forall (fun o => p (ty f) (render L S (qname f) o) = Ok (g o)) s ->
  exists seen', (forall q, In q seen' -> In q seen \/ q = qname f) /\
  parse_children p k (map (render L S (qname f)) s ++ rest) seen
  = bind (parse_children p k rest seen') (fun l => Ok (map (pair (qname f)) (map g s) ++ l)%list).
Proof.
  intros FE. revert seen. induction s as [|o s IH]; intros seen O H.
  - exists seen. split; [tauto|]. cbn [map app]. destruct parse_children; reflexivity.
  - inversion_clear H as [|? ? Ho Hs].
    assert (O' : is_one f = true -> (List.length s <= 1)%nat /\ (s <> [] -> ~ In (qname f) (qname f :: seen))).
    { intros I. destruct (O I) as [A _]. cbn in A. split; [lia|]. intros N. destruct s; [contradiction|cbn in A; lia]. }
    destruct (IH (qname f :: seen) O' Hs) as (seen' & In' & E). exists seen'. split.
    + intros q I. destruct (In' q I) as [[X|X]|X]; auto.
    + cbn [map app parse_children]. rewrite tag_render, FE.
      assert (G : (is_one f && existsb (qname_eqb (qname f)) seen)%bool = false).
      { destruct (is_one f) eqn:I; [|reflexivity]. cbn [andb]. apply existsb_none. apply (O eq_refl). discriminate. }
      rewrite G, Ho. cbn [bind]. rewrite E. destruct (parse_children p k rest seen'); reflexivity.
Qed.
Lemma parse_all p k : forall fs slots seen,
  (forall f, In f fs -> is_element f = true -> find_element k (qname f) = Some f) ->
  NoDup (map qname (filter is_element fs)) ->
  (forall f, In f fs -> is_element f = true -> ~ In (qname f) seen) ->
  Forall2 (fun s f => is_element f = true -> (is_one f = true -> (List.length s <= 1)%nat) /\ Forall (fun o => p (ty f) (render L S (qname f) o) = Ok (reread L S (ty f) o)) s) slots fs ->
  parse_children p k (render_children slots fs) seen = Ok (named (back slots fs) fs).
Proof.
  induction fs as [|f fr IH]; intros slots seen FE ND NS H; inversion H as [|s ? sr ? Hs Hr]; subst; [reflexivity|].
  cbn [render_children back named]. cbn [filter] in ND. destruct (is_element f) eqn:I.
  - destruct (Hs eq_refl) as [O P]. cbn [map] in ND. inversion_clear ND as [|? ? N ND'].
    destruct (parse_slot p k f (reread L S (ty f)) s (render_children sr fr) seen) as (seen' & In' & E).
    + apply FE; [left; reflexivity|exact I].
    + intros Hone. split; [apply O, Hone|]. intros _. apply NS; [left; reflexivity|exact I].
    + exact P.
    + rewrite E, (IH sr seen'); [reflexivity| | exact ND' | |exact Hr].
      * intros g G Ig. apply FE; [right; exact G|exact Ig].
      * intros g G Ig C. apply In' in C as [C|C]; [apply (NS g (or_intror G) Ig C)|].
        apply N. rewrite <- C. apply in_map, filter_In. tauto.
  - cbn [app]. apply IH; [|exact ND| |exact Hr].
    + intros g G Ig. apply FE; [right; exact G|exact Ig].
    + intros g G Ig. apply NS; [right; exact G|exact Ig].
Qed.
Lemma find_element_self k f : NoDup (map qname (filter is_element (c_fields k))) -> In f (c_fields k) -> is_element f = true ->
  find_element k (qname f) = Some f.
Proof.
  intros ND I E. unfold find_element. revert ND I. induction (c_fields k) as [|g fr IH]; intros ND I; [destruct I|].
  cbn [find]. destruct I as [->|I].
  - rewrite E, qname_eqb_refl. reflexivity.
  - cbn [filter] in ND. destruct (is_element g) eqn:G; cbn [andb]; [|apply IH; assumption].
    cbn [map] in ND. inversion_clear ND as [|? ? N ND'].
    rewrite qname_eqb_neq; [apply IH; assumption|].
    intros C. apply N. rewrite C. apply in_map, filter_In. tauto.
Qed.
Lemma filter_pair q q' (s : list Obj) :
  map snd (filter (fun x => qname_eqb (fst x) q) (map (pair q') s)) = if qname_eqb q' q then s else [].
Proof.
  induction s as [|o s IH]; cbn [map filter fst]; [destruct qname_eqb; reflexivity|].
  destruct (qname_eqb q' q) eqn:E; cbn [map snd]; rewrite IH; reflexivity.
Qed.
Lemma named_absent : forall fs slots q, ~ In q (map qname (filter is_element fs)) ->
  map snd (filter (fun x => qname_eqb (fst x) q) (named slots fs)) = [].
Proof.
  induction fs as [|f fr IH]; intros [|s sr] q N; try reflexivity. cbn [named]. rewrite filter_app, map_app.
  cbn [filter] in N. destruct (is_element f).
  - cbn [map] in N. rewrite filter_pair, qname_eqb_neq by (intros C; apply N; left; exact C). cbn [app]. apply IH. intros C. apply N. right. exact C.
  - cbn [filter map app]. apply IH, N.
Qed.
Lemma named_found : forall fs slots, List.length slots = List.length fs -> NoDup (map qname (filter is_element fs)) ->
  forall i f s, nth_error fs i = Some f -> nth_error slots i = Some s -> is_element f = true ->
  map snd (filter (fun x => qname_eqb (fst x) (qname f)) (named slots fs)) = s.
Proof.
  induction fs as [|g fr IH]; intros [|u sr] Len ND i f s Ef Es K; try (destruct i; discriminate).
  cbn [filter] in ND. cbn [named]. rewrite filter_app, map_app. destruct i as [|i]; cbn in Ef, Es.
  - injection Ef as ->. injection Es as ->. rewrite K in *. cbn [map] in ND. inversion_clear ND as [|? ? N ND'].
    rewrite filter_pair, qname_eqb_refl, named_absent by exact N. apply app_nil_r.
  - injection Len as Len. destruct (is_element g) eqn:G; cbn [map] in ND.
    + inversion_clear ND as [|? ? N ND']. rewrite filter_pair, qname_eqb_neq; [apply (IH sr Len ND' i f s Ef Es K)|].
      intros C. apply N. rewrite C. apply in_map, filter_In. split; [eapply nth_error_In, Ef|exact K].
    + cbn [filter map app]. apply (IH sr Len ND i f s Ef Es K).
Qed.

Lemma collect_pointwise {A B} (g : A -> res B) : forall l r, List.length r = List.length l ->
  (forall i a b, nth_error l i = Some a -> nth_error r i = Some b -> g a = Ok b) -> collect g l = Ok r.
Proof.
  induction l as [|a l IH]; intros [|b r] Len H; try discriminate; [reflexivity|].
  cbn [collect]. rewrite (H 0%nat a b eq_refl eq_refl). cbn [bind]. rewrite (IH r); [reflexivity|injection Len as ->; reflexivity|].
  intros i x y X Y. apply (H (Datatypes.S i) x y X Y).
Qed.
Lemma Forall2_same_length {A B} (R : A -> B -> Prop) l r : Forall2 R l r -> List.length l = List.length r.
Proof. induction 1 as [|x y l r _ _ IH]; [reflexivity|]. cbn. rewrite IH. reflexivity. Qed.
Lemma Forall2_nth {A B} (R : A -> B -> Prop) l r : Forall2 R l r -> forall i a b, nth_error l i = Some a -> nth_error r i = Some b -> R a b.
Proof.
  induction 1 as [|x y l r Rx _ IH]; intros [|i] a b Ha Hb; try discriminate; cbn in Ha, Hb.
  - injection Ha as <-. injection Hb as <-. exact Rx.
  - apply (IH i a b Ha Hb).
Qed.
Lemma Forall2_impl_in {A B} (R Q : A -> B -> Prop) l r : Forall2 R l r -> (forall a b, In a l -> In b r -> R a b -> Q a b) -> Forall2 Q l r.
Proof.
  induction 1 as [|x y l r Rx H IH]; intros I; constructor.
  - apply I; [left; reflexivity|left; reflexivity|exact Rx].
  - apply IH. intros a b Ia Ib. apply I; right; assumption.
Qed.

Lemma slot_default f s : slot_ok L f s -> s = [] -> default_slot (default f) = s.
Proof.
  unfold slot_ok. destruct (default f); intros H ->; try reflexivity; discriminate.
Qed.
Lemma render_reread o : forall t q, any t o -> parse L S t (render L S q o) = Ok (reread L S t o).
Proof.
  induction o as [v|c slots IH] using Obj_deep; intros t q H.
  - destruct H as [TT _]. cbn [render parse reread].
    assert (E : Ok (Leaf (if String.eqb (show L v) "" then VStr "" else read L S t (show L v))) = Ok (Leaf (read L S t (show L v)))).
    { destruct (String.eqb_spec (show L v) "") as [E|_]; [rewrite E, read_nothing; reflexivity|reflexivity]. }
    destruct t; try exact E. destruct TT.
  - apply shaped_inst in H as [-> (k & Ek & R)]. destruct (find_class_ok c k Ek) as [(FO & NE & NA & NC & _) _].
    rewrite Forall_forall in FO. rewrite (render_class c k q slots Ek), (parse_class c k _ _ _ _ Ek), (reread_class c k slots _ Ek).
    assert (Len : List.length slots = List.length (c_fields k)) by (eapply Forall2_same_length, R).
    pose proof (back_length _ _ Len) as Len'.
    rewrite (parse_all (parse L S) k (c_fields k) slots []).
    + cbn [bind]. rewrite (collect_pointwise _ _ (back slots (c_fields k)) Len'); [reflexivity|].
      intros i f s' Ef Es'. destruct (back_nth _ _ i f s' Ef Es') as (s & Es & ->).
      destruct (Forall2_nth _ _ _ R i s f Es Ef) as [SK TS].
      pose proof (FO f (nth_error_In _ _ Ef)) as Ff. pose proof Ff as [FK FD]. unfold fill. destruct (kind f) eqn:K.
      * f_equal. apply (named_found (c_fields k) (back slots (c_fields k)) Len' NE i f _ Ef Es'). unfold is_element. rewrite K. reflexivity.
      * destruct FK as (M & TT & DT). rewrite (attribute_found (c_fields k) slots Len NA i f s Ef Es K).
        destruct s as [|o s]; [f_equal; apply (slot_default f [] SK eq_refl)|].
        rewrite (read_slot_text f (o :: s) TT M ltac:(discriminate) SK TS DT). apply settle_ok; assumption.
      * destruct FK as (M & TT & DT). rewrite (content_found (c_fields k) slots Len NC i f s Ef Es K).
        destruct (String.eqb_spec (slot_text L s) "") as [E|E].
        -- f_equal. destruct s as [|o s]; [apply (slot_default f [] SK eq_refl)|].
           pose proof SK as SK'. unfold slot_ok in SK'. destruct (default f).
           ++ destruct SK' as [_ X]. destruct (X K ltac:(discriminate) E).
           ++ destruct s; [|discriminate]. inversion_clear TS as [|? ? To _]. destruct (any_leaf _ _ TT To) as (v & ->).
              unfold slot_text in E. cbn [map String.concat leaf_text] in E. cbn [map reread default_slot]. rewrite E, read_nothing. reflexivity.
           ++ exfalso. rewrite SK' in E. unfold slot_text in E. cbn in E. destruct LO as (_ & _ & _ & _ & _ & _ & _ & _ & W & _). destruct (W z) as [N _]. contradiction.
           ++ exfalso. rewrite SK' in E. destruct b; discriminate.
        -- assert (N : s <> []) by (intros ->; apply E; reflexivity).
           rewrite (read_slot_text f s TT M N SK TS DT). apply settle_ok; assumption.
    + intros f I E. apply find_element_self; assumption.
    + exact NE.
    + intros f _ _ [].
    + apply (Forall2_impl_in _ _ _ _ R). intros s f Is If [SK TS] E. split.
      * intros O. unfold slot_ok in SK. pose proof (FO f If) as [FK _]. unfold is_element in E. destruct (kind f); try discriminate.
        destruct FK as [_ DN]. rewrite DN in SK. destruct SK as [SK _]. unfold is_one in O. destruct (mult f); try discriminate. exact SK.
      * rewrite Forall_forall in IH. specialize (IH s Is). rewrite Forall_forall in *. intros o Io. apply IH; [exact Io|]. apply TS, Io.
Qed.
Lemma held_any o : forall t, held t o -> any t o.
Proof.
  induction o as [v|c slots IH] using Obj_deep; intros t H.
  - destruct H as [TT _]. split; [exact TT|exact I].
  - apply shaped_inst in H as [-> (k & Ek & R)]. apply shaped_inst. split; [reflexivity|]. exists k. split; [exact Ek|].
    apply (Forall2_impl_in _ _ _ _ R). intros s f Is _ [A B]. split; [exact A|]. rewrite Forall_forall in IH. specialize (IH s Is).
    rewrite Forall_forall in *. intros o Io. apply IH; [exact Io|]. apply B, Io.
Qed.
Lemma held_reread o : forall t, held t o -> reread L S t o = o.
Proof.
  induction o as [v|c slots IH] using Obj_deep; intros t H.
  - destruct H as [_ H]. cbn [reread]. rewrite H. reflexivity.
  - apply shaped_inst in H as [-> (k & Ek & R)]. rewrite (reread_class c k slots _ Ek). f_equal. clear Ek.
    revert R. generalize (c_fields k). induction IH as [|s sr Hs _ IHr]; intros fs R; inversion_clear R as [|? f ? fr [_ B] R']; [reflexivity|].
    cbn [back]. rewrite (IHr fr R'). f_equal. clear - Hs B. induction B as [|o s Ho _ IHs]; [reflexivity|]. inversion_clear Hs as [|? ? H1 H2].
    cbn [map]. rewrite (H1 _ Ho), (IHs H2). reflexivity.
Qed.
Lemma round_trip o t q : held t o -> parse L S t (render L S q o) = Ok o.
Proof. intros H. rewrite (render_reread o t q (held_any o t H)), (held_reread o t H). reflexivity. Qed.

(** *** What is parsed can be rendered *)
Fixpoint Xml_deep (P : Xml -> Prop) (H : forall q a t kids, Forall P kids -> P (Node q a t kids)) (x : Xml) : P x :=
  match x with
  | Node q a t kids => H q a t kids
      ((fix inner (xs : list Xml) : Forall P xs :=
          match xs with [] => Forall_nil _ | y :: r => Forall_cons y (Xml_deep P H y) (inner r) end) kids)
  end.

Lemma split_words_are_words s : (forall i c, String.get i (fst (split_words s)) = Some c -> is_space c = false) /\ Forall is_word (snd (split_words s)).
Proof.
  induction s as [|c s IH]; cbn [split_words].
  - split; [intros i c; destruct i; discriminate|constructor].
  - destruct (split_words s) as [w ws]. cbn [fst snd] in IH. destruct IH as [A B]. destruct (is_space c) eqn:E; cbn [fst snd].
    + split; [intros i d; destruct i; discriminate|]. destruct (String.eqb_spec w "") as [|N]; [exact B|constructor; [split; assumption|exact B]].
    + split; [|exact B]. intros [|i] d G; cbn in G; [injection G as <-; exact E|apply (A i d G)].
Qed.
Lemma words_are_words s : Forall is_word (words s).
Proof.
  unfold words. destruct (split_words_are_words s) as [A B]. destruct (split_words s) as [w ws]. cbn [fst snd] in *.
  destruct (String.eqb_spec w "") as [|N]; [exact B|constructor; [split; assumption|exact B]].
Qed.
Lemma word_shown t w : text_type t -> is_word w -> is_word (show L (read L S t w)).
Proof.
  intros TT W. destruct LO as (_ & _ & _ & _ & _ & _ & _ & _ & A & B & C & E).
  assert (M : forall e m, member S e w = Some m -> is_word m).
  { intros e m R. apply find_some in R as [_ R]. apply String.eqb_eq in R. subst m. unfold collapse.
    assert (Ew : words w = [w]). { change w with (String.concat " " [w]) at 1. apply words_concat. constructor; [exact W|constructor]. }
    rewrite Ew. exact W. }
  destruct t as [[]|e|e|c]; try contradiction; cbn [read read_prim].
  - exact W.
  - destruct (read_int L w); cbn [option_map show]; auto.
  - destruct (read_float L w); cbn [option_map show]; auto.
  - assert (Tf : is_word "true" /\ is_word "false").
    { split; (split; [discriminate|]); intros i c G; do 6 (destruct i as [|i]; [cbn in G; try discriminate; injection G as <-; reflexivity|]); destruct i; discriminate. }
    destruct (read_bool (collapse w)) as [[]|]; cbn [option_map show]; tauto.
  - destruct (read_date L w); cbn [option_map show]; auto.
  - destruct (read_datetime L w); cbn [option_map show]; auto.
  - destruct (member S e w) as [m|] eqn:R; cbn [show]; [apply (M e m R)|exact W].
  - destruct (member S e w) as [m|] eqn:R; cbn [show]; [apply (M e m R)|exact W].
Qed.

Lemma parse_children_ok p k : forall xs seen parsed, parse_children p k xs seen = Ok parsed ->
  Forall (fun x => exists f y, In f (c_fields k) /\ is_element f = true /\ qname f = fst x /\ In y xs /\ p (ty f) y = Ok (snd x)) parsed.
Proof.
  induction xs as [|y r IH]; intros seen parsed E; cbn [parse_children] in E; [injection E as <-; constructor|].
  destruct (find_element k (tag y)) as [f|] eqn:Fe; [|discriminate]. destruct (_ && _)%bool; [discriminate|].
  destruct (p (ty f) y) as [o|] eqn:Ep; [|discriminate]. cbn [bind] in E.
  destruct (parse_children p k r (qname f :: seen)) as [l|] eqn:El; [|discriminate]. cbn [bind] in E. injection E as <-.
  constructor.
  - apply find_some in Fe as [I Fe]. apply andb_true_iff in Fe as [Ie _]. exists f, y. cbn [fst snd]. repeat split; auto. left. reflexivity.
  - eapply Forall_impl; [|apply (IH _ _ El)]. intros x (g & z & A & B & C & In' & Q). exists g, z. repeat split; auto. right. exact In'.
Qed.
Lemma parse_children_one p k f : NoDup (map qname (filter is_element (c_fields k))) -> In f (c_fields k) -> is_element f = true -> is_one f = true ->
  forall xs seen parsed, parse_children p k xs seen = Ok parsed ->
  let n := List.length (filter (fun x => qname_eqb (fst x) (qname f)) parsed) in (n <= 1)%nat /\ (In (qname f) seen -> n = 0%nat).
Proof.
  intros ND If Ie Io. induction xs as [|y r IH]; intros seen parsed E; cbn [parse_children] in E; [injection E as <-; cbn; split; [lia|reflexivity]|].
  destruct (find_element k (tag y)) as [g|] eqn:Fe; [|discriminate]. destruct (is_one g && _)%bool eqn:G; [discriminate|].
  destruct (p (ty g) y) as [o|] eqn:Ep; [|discriminate]. cbn [bind] in E.
  destruct (parse_children p k r (qname g :: seen)) as [l|] eqn:El; [|discriminate]. cbn [bind] in E. injection E as <-.
  destruct (IH _ _ El) as [A B]. cbn [filter fst]. destruct (qname_eqb (qname g) (qname f)) eqn:Q.
  - apply qname_eqb_spec in Q. cbn zeta in *. cbn [List.length].
    rewrite (B (or_introl Q)). split; [lia|]. intros C. exfalso.
    assert (gf : g = f).
    { pose proof (find_element_self k f ND If Ie) as X. apply find_some in Fe as [Ig Fe]. apply andb_true_iff in Fe as [Eg _].
      pose proof (find_element_self k g ND Ig Eg) as Y. rewrite Q in Y. rewrite X in Y. injection Y as <-. reflexivity. }
    subst g. rewrite Io in G. cbn [andb] in G.
    assert (X : existsb (qname_eqb (qname f)) seen = true) by (apply existsb_exists; exists (qname f); split; [exact C|apply qname_eqb_refl]).
    rewrite X in G. discriminate.
  - cbn zeta in *. split; [exact A|]. intros C. apply B. right. exact C.
Qed.
Lemma collect_ok {A B} (g : A -> res B) : forall l r, collect g l = Ok r -> Forall2 (fun b a => g a = Ok b) r l.
Proof.
  induction l as [|a l IH]; intros r E; cbn [collect] in E; [injection E as <-; constructor|].
  destruct (g a) as [b|] eqn:Eg; [|discriminate]. cbn [bind] in E. destruct (collect g l) as [bs|] eqn:Ec; [|discriminate].
  injection E as <-. constructor; [exact Eg|apply IH; reflexivity].
Qed.

Lemma default_held f : field_ok f -> is_element f = false -> slot_ok L f (default_slot (default f)) /\ Forall (held (ty f)) (default_slot (default f)).
Proof.
  intros [FK FD] K. assert (K' : mult f <> Many /\ text_type (ty f) /\ (mult f = Tokens -> default f = NoDefault)).
  { unfold is_element in K. destruct (kind f); [discriminate| |]; exact FK. }
  destruct K' as (M & TT & DT). unfold slot_ok. destruct (default f) eqn:E; cbn [default_slot].
  - split; [|constructor]. split; [destruct (mult f); [cbn; lia|exact I|constructor]|]. intros _ C. contradiction.
  - split; [reflexivity|]. constructor; [|constructor]. split; [exact TT|]. rewrite FD. reflexivity.
  - split; [reflexivity|]. constructor; [|constructor]. split; [exact TT|]. rewrite FD. unfold stable. cbn. destruct LO as (A & _). rewrite A. reflexivity.
  - split; [reflexivity|]. constructor; [|constructor]. split; [exact TT|]. rewrite FD. destruct b; reflexivity.
Qed.
Lemma concat_words_nonempty l : l <> [] -> Forall is_word l -> String.concat " " l <> "".
Proof.
  intros N W. inversion W as [|w l' [Nw _] _]; subst; [contradiction|]. destruct l'; cbn [String.concat]; [exact Nw|].
  destruct w; [contradiction|discriminate].
Qed.
Lemma read_held f text slot : field_ok f -> is_element f = false -> (kind f = Content -> text <> "") ->
  settle f (read_slot L S f text) = Ok slot -> slot_ok L f slot /\ Forall (held (ty f)) slot.
Proof.
  intros [FK FD] K NE E. assert (K' : mult f <> Many /\ text_type (ty f) /\ (mult f = Tokens -> default f = NoDefault)).
  { unfold is_element in K. destruct (kind f); [discriminate| |]; exact FK. }
  destruct K' as (M & TT & DT).
  assert (H : Forall (held (ty f)) (read_slot L S f text)).
  { unfold read_slot. destruct (mult f); [|contradiction|].
    - constructor; [|constructor]. split; [exact TT|apply read_stable, TT].
    - rewrite Forall_map. apply Forall_forall. intros w _. split; [exact TT|apply read_stable, TT]. }
  unfold settle in E. unfold slot_ok. destruct (default f) eqn:Ed.
  - injection E as <-. split; [|exact H]. unfold read_slot. destruct (mult f) eqn:Em; [|contradiction|].
    + split; [cbn; lia|]. intros Kc _ C. unfold slot_text in C. cbn [map String.concat leaf_text] in C. apply (NE Kc), (show_read _ _ TT C).
    + assert (W : Forall (fun o => is_word (leaf_text L o)) (map (fun w => Leaf (read L S (ty f) w)) (words text))).
      { rewrite Forall_map. eapply Forall_impl; [|apply words_are_words]. intros w Ww. cbn [leaf_text]. apply word_shown; assumption. }
      split; [exact W|]. intros _ N. unfold slot_text. apply concat_words_nonempty; [intros C; apply N; eapply map_eq_nil, C|rewrite Forall_map; exact W].
  - injection E as <-. split; [|exact H]. unfold read_slot. destruct (mult f) eqn:Em; [reflexivity|contradiction|]. discriminate (DT eq_refl).
  - destruct (read_slot L S f text) as [|[[| z' | | | | | ]|] [|]] eqn:Er; try discriminate. destruct (Z.eqb_spec z z') as [->|]; [|discriminate]. injection E as <-. split; [reflexivity|exact H].
  - destruct (read_slot L S f text) as [|[[| | | b' | | | ]|] [|]] eqn:Er; try discriminate. destruct (Bool.eqb_spec b b') as [->|]; [|discriminate]. injection E as <-. split; [reflexivity|exact H].
Qed.

Lemma parse_held x : forall t o, parse L S t x = Ok o -> held t o.
Proof.
  induction x as [q a text kids IH] using Xml_deep. intros t o E.
  assert (Simple : text_type t -> (match kids with [] => Ok (Leaf (if String.eqb text "" then VStr "" else read L S t text)) | _ :: _ => Err OtherError end) = Ok o -> held t o).
  { intros TT H. destruct kids; [|discriminate]. injection H as <-. split; [exact TT|].
    destruct (String.eqb_spec text "") as [->|_]; [unfold stable; cbn [show]; apply read_nothing|apply read_stable, TT]. }
  destruct t as [p|e|e|c]; [apply Simple; [exact I|exact E]|apply Simple; [exact I|exact E]|apply Simple; [exact I|exact E]|clear Simple].
  destruct (find_class S c) as [k|] eqn:Ek; [|cbn [parse] in E; rewrite Ek in E; discriminate].
  rewrite (parse_class c k _ _ _ _ Ek) in E. destruct (parse_children _ _ _ _) as [parsed|] eqn:Ep; [|discriminate]. cbn [bind] in E.
  destruct (collect _ _) as [slots|] eqn:Ec; [|discriminate]. cbn [bind] in E. injection E as <-.
  apply shaped_inst. split; [reflexivity|]. exists k. split; [exact Ek|].
  destruct (find_class_ok c k Ek) as [(FO & NE & _) _]. rewrite Forall_forall in FO.
  apply collect_ok in Ec. apply (Forall2_impl_in _ _ _ _ Ec). intros s f _ If Ef.
  pose proof (FO f If) as Ff. unfold fill in Ef. destruct (kind f) eqn:K.
  - injection Ef as <-. assert (Ie : is_element f = true) by (unfold is_element; rewrite K; reflexivity). split.
    + destruct Ff as [FK _]. rewrite K in FK. destruct FK as [M Dn]. unfold slot_ok. rewrite Dn, K. split; [|discriminate].
      destruct (mult f) eqn:Em; [|exact I|contradiction]. rewrite map_length.
      assert (Io : is_one f = true) by (unfold is_one; rewrite Em; reflexivity).
      apply (parse_children_one (parse L S) k f NE If Ie Io kids [] parsed Ep).
    + apply Forall_forall. intros o Io. apply in_map_iff in Io as ([q' o'] & <- & Io). apply filter_In in Io as [Io Q]. cbn [fst snd] in *.
      apply qname_eqb_spec in Q. subst q'. pose proof (parse_children_ok _ _ _ _ _ Ep) as H. rewrite Forall_forall in H.
      destruct (H _ Io) as (g & y & Ig & Eg & Qg & Iy & Py). cbn [fst snd] in *.
      assert (g = f).
      { pose proof (find_element_self k f NE If Ie) as X. pose proof (find_element_self k g NE Ig Eg) as Y. rewrite Qg, X in Y. injection Y as <-. reflexivity. }
      subst g. rewrite Forall_forall in IH. apply (IH y Iy _ _ Py).
  - assert (Ie : is_element f = false) by (unfold is_element; rewrite K; reflexivity).
    destruct (find_text (qname f) a) as [s'|]; [apply (read_held f s' s Ff Ie ltac:(rewrite K; discriminate) Ef)|injection Ef as <-; apply (default_held f Ff Ie)].
  - assert (Ie : is_element f = false) by (unfold is_element; rewrite K; reflexivity).
    destruct (String.eqb_spec text "") as [_|N]; [injection Ef as <-; apply (default_held f Ff Ie)|apply (read_held f text s Ff Ie (fun _ => N) Ef)].
Qed.
End Binding_proofs.
