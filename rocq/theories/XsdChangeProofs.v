(** Proofs that changed objects are still rendered to valid elements. *)
Require Import ZArith Reals String Ascii List Bool Lia.
Require Import Verif.Base Verif.SchemaModel Verif.SchemaSpec Verif.SchemaProofs Verif.SarDocModel Verif.SarDocProofs Verif.XsdModel Verif.XsdSpec Verif.XsdProofs.
Import ListNotations.
Local Open Scope string_scope.

Section Change_proofs.
Context {F D T : Type}.
Notation Obj := (Obj F D T).
Variable L : Lexical F D T.
Variable X : XsdTexts F D T.
Variable S : Schema.
Hypothesis SO : schema_ok S.
Variable types : list XClass.
Variable pairs : list (string * string).
Hypothesis FIT : all_fit S pairs types = true.
Notation valid_as := (valid X false types).
Notation fits_as := (fits_type S pairs).
Notation judged := (judged X types).
Notation judged_parsed := (judged_parsed L X S types).

Definition renders (o : Obj) (t : XTy) : Prop := forall q, valid_as (render L S q o) t.
Lemma renders_any q o t : valid_as (render L S q o) t -> renders o t.
Proof. intros V q'. destruct o as [v|c slots]; cbn [render] in *; [destruct t; exact V|]. destruct (find_class S c); destruct t; exact V. Qed.

(** An element of the sequence of a type. *)
Definition element_of (n : string) (q : QName) : option (XTy * nat * option nat) :=
  match find_xclass types n with
  | Some x =>
    match x_particle x with
    | PSequence ps => match find (fun p => match p with PElement q' _ _ _ => qname_eqb q' q | _ => false end) ps with Some (PElement _ t l m) => Some (t, l, m) | _ => None end
    | _ => None
    end
  | None => None
  end.
Lemma element_of_spec n q t l m : element_of n q = Some (t, l, m) ->
  exists x ps, find_xclass types n = Some x /\ x_particle x = PSequence ps /\ In (PElement q t l m) ps.
Proof.
  unfold element_of. destruct (find_xclass types n) as [x|]; [|discriminate]. destruct (x_particle x) as [|ps| |] eqn:E; try discriminate.
  destruct (find _ ps) as [p|] eqn:Ef; [|discriminate]. apply find_some in Ef as [I Q]. destruct p as [q' t' l' m'| | |]; try discriminate.
  apply qname_eqb_spec in Q. subst q'. intros H. injection H as -> -> ->. exists x, ps. auto.
Qed.
Lemma element_leaf q t l m ps : In (PElement q t l m) ps -> In (q, t) (leaves (PSequence ps)).
Proof. intros I. cbn [leaves]. apply in_flat_map. eexists. split; [exact I|left; reflexivity]. Qed.

(** An instance with all its fields. *)
Definition inst_of (c : string) (o : Obj) : Prop := exists slots k, o = Inst c slots /\ find_class S c = Some k /\ List.length slots = List.length (c_fields k).
Lemma shaped_inst_of ok c o : shaped L S ok (TClass c) o -> inst_of c o.
Proof.
  intros H. destruct o as [v|c' slots]; [destruct H as [[] _]|]. apply shaped_inst in H as [E (k & Ek & R)]. injection E as <-.
  exists slots, k. split; [reflexivity|]. split; [exact Ek|apply (Forall2_same_length _ _ _ R)].
Qed.

Lemma named_slots fs : NoDup (map qname (filter is_element fs)) -> forall slots : list (list Obj), List.length slots = List.length fs ->
  Forall2 (fun s f => is_element f = true -> s = map snd (filter (fun p => qname_eqb (fst p) (qname f)) (named slots fs))) slots fs.
Proof.
  intros ND slots Len. assert (H : forall i s f, nth_error slots i = Some s -> nth_error fs i = Some f -> is_element f = true -> s = map snd (filter (fun p => qname_eqb (fst p) (qname f)) (named slots fs))).
  { intros i s f Es Ef Ie. symmetry. apply (named_found fs slots Len ND i f s Ef Es Ie). }
  revert H. generalize (named slots fs). intros l H. clear ND. revert slots Len H. induction fs as [|f fs IH]; intros [|s slots] Len H; try discriminate; constructor.
  - apply (H 0%nat s f eq_refl eq_refl).
  - apply IH; [cbn in Len; lia|]. intros i s' f' Es Ef. apply (H (Datatypes.S i) s' f' Es Ef).
Qed.
Lemma judged_slots fs slots : NoDup (map qname (filter is_element fs)) -> List.length slots = List.length fs ->
  map judged (render_children L S slots fs) = in_order (map qname (filter is_element fs)) (map judged_parsed (named slots fs)).
Proof. intros ND Len. apply judged_children, named_slots; assumption. Qed.
Lemma filter_judged q parsed :
  filter (is_named q) (map judged_parsed parsed) = map (fun o => judged (render L S q o)) (map snd (filter (fun p => qname_eqb (fst p) q) parsed)).
Proof.
  induction parsed as [|p parsed IH]; [reflexivity|]. cbn [map filter]. unfold is_named at 1. unfold XsdProofs.judged_parsed at 1. unfold XsdProofs.judged at 1. cbn [fst].
  rewrite tag_render. destruct (qname_eqb (fst p) q) eqn:E; [|exact IH]. cbn [map]. rewrite IH. f_equal. apply qname_eqb_spec in E. unfold XsdProofs.judged_parsed. rewrite E. reflexivity.
Qed.
Lemma filter_slot fs slots i f s : NoDup (map qname (filter is_element fs)) -> List.length slots = List.length fs ->
  nth_error fs i = Some f -> nth_error slots i = Some s -> is_element f = true ->
  filter (is_named (qname f)) (map judged_parsed (named slots fs)) = map (fun o => judged (render L S (qname f) o)) s.
Proof. intros ND Len Ef Es Ie. rewrite filter_judged, (named_found fs slots Len ND i f s Ef Es Ie). reflexivity. Qed.

Definition put {A} (i : nat) (s : A) (l : list A) : list A := (firstn i l ++ s :: skipn (Datatypes.S i) l)%list.
Lemma put_length {A} i (s : A) : forall l, (i < List.length l)%nat -> List.length (put i s l) = List.length l.
Proof. induction i as [|i IH]; intros [|a l] H; cbn in H; try lia; [reflexivity|]. cbn. f_equal. apply IH. lia. Qed.
Lemma put_same {A} i (s : A) : forall l, (i < List.length l)%nat -> nth_error (put i s l) i = Some s.
Proof. induction i as [|i IH]; intros [|a l] H; cbn in H; try lia; [reflexivity|]. apply (IH l). lia. Qed.
Lemma put_other {A} i (s : A) : forall l j, (i < List.length l)%nat -> i <> j -> nth_error (put i s l) j = nth_error l j.
Proof. induction i as [|i IH]; intros [|a l] [|j] H N; cbn in H; try lia; try reflexivity. apply (IH l j); lia. Qed.
Lemma put_attributes i f s : forall fs slots, nth_error fs i = Some f -> kind f = Element -> (i < List.length slots)%nat ->
  render_attributes L fs (put i s slots) = render_attributes L fs slots.
Proof.
  induction i as [|i IH]; intros [|g fs] [|s0 slots] E K H; cbn in E, H; try discriminate; try lia.
  - injection E as ->. cbn. rewrite K. destruct s, s0; reflexivity.
  - change (put (Datatypes.S i) s (s0 :: slots)) with (s0 :: put i s slots). cbn [render_attributes]. rewrite (IH fs slots E K) by lia. reflexivity.
Qed.
Lemma put_content i f s : forall fs slots, nth_error fs i = Some f -> kind f = Element -> (i < List.length slots)%nat ->
  render_content L fs (put i s slots) = render_content L fs slots.
Proof.
  induction i as [|i IH]; intros [|g fs] [|s0 slots] E K H; cbn in E, H; try discriminate; try lia.
  - injection E as ->. cbn. unfold is_content. rewrite K. reflexivity.
  - change (put (Datatypes.S i) s (s0 :: slots)) with (s0 :: put i s slots). cbn [render_content]. rewrite (IH fs slots E K) by lia. reflexivity.
Qed.

Lemma class_leaves c n k x : fits_as (XComplex n) (TClass c) = true -> find_class S c = Some k -> find_xclass types n = Some x ->
  map qname (filter is_element (c_fields k)) = names (x_particle x) /\ NoDup (map qname (filter is_element (c_fields k))).
Proof.
  intros H Ek Ex. destruct (pair_fits S types pairs FIT c n H) as (k' & x' & Ek' & Ex' & Ft). rewrite Ek in Ek'. rewrite Ex in Ex'. injection Ek' as <-. injection Ex' as <-.
  unfold fits in Ft. do 4 (apply andb_true_iff in Ft as [Ft _]). split; [apply (fits_elements_names S pairs _ _ Ft)|apply (find_class_ok S SO c k Ek)].
Qed.

(** What an element of a valid object holds is valid. *)
Lemma get_renders c n o a f t l m s : fits_as (XComplex n) (TClass c) = true -> inst_of c o -> renders o (XComplex n) -> field_of S c a = Some f -> kind f = Element ->
  element_of n (qname f) = Some (t, l, m) -> get_slot S o a = Ok s -> Forall (fun y => renders y t) s.
Proof.
  intros H (slots & k & -> & Ek & Len) R Ef K El G. destruct (element_of_spec _ _ _ _ _ El) as (x & ps & Ex & Ep & I).
  destruct (class_leaves c n k x H Ek Ex) as [En ND]. specialize (R ("", "")). rewrite (render_class L S c k _ slots Ek) in R.
  apply valid_node in R as (x' & Ex' & M & _). rewrite Ex in Ex'. injection Ex' as <-.
  change (map (fun y => (tag y, valid_as y)) (render_children L S slots (c_fields k))) with (map judged (render_children L S slots (c_fields k))) in M.
  rewrite (judged_slots _ _ ND Len), En in M. unfold field_of in Ef. cbn [get_slot] in G. rewrite Ek in Ef, G.
  destruct (field_index a (c_fields k)) as [i|]; [|discriminate]. injection G as <-. assert (Hi : (i < List.length slots)%nat) by (rewrite Len; apply nth_error_Some; congruence).
  pose proof (nth_error_nth' slots [] Hi) as Es. assert (Ie : is_element f = true) by (unfold is_element; rewrite K; reflexivity).
  pose proof (filter_slot _ slots i f _ ND Len Ef Es Ie) as Fl. pose proof (matches_leaves _ _ M) as ML. rewrite Forall_forall in ML. apply Forall_forall. intros y Iy.
  assert (In (judged (render L S (qname f) y)) (in_order (names (x_particle x)) (map judged_parsed (named slots (c_fields k))))).
  { unfold in_order. apply in_flat_map. exists (qname f). split.
    - rewrite <- En. apply in_map, filter_In. split; [apply (nth_error_In _ _ Ef)|exact Ie].
    - rewrite Fl. apply in_map with (f := fun o => judged (render L S (qname f) o)), Iy. }
  destruct (ML _ H0) as (t' & It & V). unfold XsdProofs.judged in It, V. cbn [fst snd] in It, V. rewrite tag_render in It.
  assert (t' = t). { apply (same_leaf (leaves (x_particle x)) (qname f)); [unfold names in En; rewrite <- En; exact ND|exact It|rewrite Ep; apply (element_leaf _ _ _ _ _ I)]. }
  subst t'. apply (renders_any _ _ _ V).
Qed.

(** An element can be replaced by valid ones. *)
Lemma set_renders c n o a f t l m s o' : fits_as (XComplex n) (TClass c) = true -> inst_of c o -> renders o (XComplex n) -> field_of S c a = Some f -> kind f = Element ->
  element_of n (qname f) = Some (t, l, m) -> (l <= List.length s)%nat -> longest m (@List.length Obj) s -> Forall (fun y => renders y t) s ->
  set_slot S o a s = Ok o' -> inst_of c o' /\ renders o' (XComplex n).
Proof.
  intros H (slots & k & -> & Ek & Len) R Ef K El Ll Lm Rs G. destruct (element_of_spec _ _ _ _ _ El) as (x & ps & Ex & Ep & I).
  destruct (class_leaves c n k x H Ek Ex) as [En ND]. unfold field_of in Ef. cbn [set_slot] in G. rewrite Ek in Ef, G.
  destruct (field_index a (c_fields k)) as [i|]; [|discriminate]. injection G as <-. fold (put i s slots).
  assert (Hi : (i < List.length slots)%nat) by (rewrite Len; apply nth_error_Some; congruence).
  assert (Ie : is_element f = true) by (unfold is_element; rewrite K; reflexivity).
  assert (Len' : List.length (put i s slots) = List.length (c_fields k)) by (rewrite put_length; assumption).
  split; [exists (put i s slots), k; auto|]. intros q. specialize (R q). rewrite (render_class L S c k _ slots Ek) in R. rewrite (render_class L S c k _ (put i s slots) Ek).
  apply valid_node in R as (x' & Ex' & M & Vt & Va). rewrite Ex in Ex'. injection Ex' as <-. apply valid_node. exists x. split; [exact Ex|].
  rewrite (put_attributes i f s _ _ Ef K Hi), (put_content i f s _ _ Ef K Hi). split; [|split; assumption].
  change (fun y => (tag y, valid_as y)) with judged in *. rewrite (judged_slots _ _ ND Len), En in M. rewrite (judged_slots _ _ ND Len'), En.
  assert (NDx : NoDup (names (x_particle x))) by (rewrite <- En; exact ND).
  set (vs := in_order (names (x_particle x)) (map judged_parsed (named slots (c_fields k)))) in *.
  set (new := map (fun o => judged (render L S (qname f) o)) s).
  assert (E : in_order (names (x_particle x)) (map judged_parsed (named (put i s slots) (c_fields k))) = replaced (qname f) new (names (x_particle x)) vs).
  { assert (Fv : forall n0, In n0 (names (x_particle x)) -> filter (is_named n0) vs = filter (is_named n0) (map judged_parsed (named slots (c_fields k)))).
    { unfold vs. generalize (map judged_parsed (named slots (c_fields k))). clear - NDx. intros l. induction NDx as [|y ns Ny NDn IH]; intros n0 I; [destruct I|].
      assert (Fi : forall y, filter (is_named n0) (filter (is_named y) l) = if qname_eqb y n0 then filter (is_named n0) l else []).
      { clear. intros y. induction l as [|p l IH]; [destruct (qname_eqb y n0); reflexivity|]. cbn [filter]. change (is_named y p) with (qname_eqb (fst p) y). destruct (qname_eqb (fst p) y) eqn:E.
        - cbn [filter]. apply qname_eqb_spec in E. change (is_named n0 p) with (qname_eqb (fst p) n0). rewrite E, IH. destruct (qname_eqb y n0); reflexivity.
        - rewrite IH. change (is_named n0 p) with (qname_eqb (fst p) n0). destruct (qname_eqb y n0) eqn:E'; [|reflexivity]. apply qname_eqb_spec in E'. subst n0. rewrite E. reflexivity. }
      assert (Ff : forall ns, filter (is_named n0) (in_order ns l) = flat_map (fun y => if qname_eqb y n0 then filter (is_named n0) l else []) ns).
      { clear - Fi. induction ns as [|y ns IH]; [reflexivity|]. cbn [in_order flat_map]. rewrite filter_app, Fi. f_equal. exact IH. }
      rewrite Ff. cbn [flat_map].
      assert (Z : forall ns, ~ In n0 ns -> flat_map (fun y => if qname_eqb y n0 then filter (is_named n0) l else []) ns = []).
      { clear. induction ns as [|y ns IH]; intros N; [reflexivity|]. cbn [flat_map]. rewrite qname_eqb_neq by (intros C; apply N; left; exact C). apply IH. intros C. apply N. right. exact C. }
      destruct I as [->|I].
      - rewrite qname_eqb_refl, (Z ns Ny), app_nil_r. reflexivity.
      - rewrite qname_eqb_neq by (intros ->; contradiction). cbn [app]. rewrite <- Ff. apply (IH n0 I). }
    assert (Ext : forall (A B : Type) (g h : A -> list B) l, (forall a, In a l -> g a = h a) -> flat_map g l = flat_map h l).
    { clear. intros A B g h l. induction l as [|a l IH]; intros H; [reflexivity|]. cbn [flat_map]. rewrite (H a (or_introl eq_refl)), IH; [reflexivity|]. intros b I. apply H. right. exact I. }
    unfold in_order at 1, replaced. apply Ext. intros n0 I0. rewrite (Fv n0 I0). rewrite <- En in I0. apply in_map_iff in I0 as (g & Qg & Ig). apply filter_In in Ig as [Ig Eg].
    subst n0. apply In_nth_error in Ig as [j Ej]. destruct (Nat.eq_dec i j) as [<-|Nij].
    - rewrite Ef in Ej. injection Ej as <-. rewrite qname_eqb_refl. apply (filter_slot _ _ i f s ND Len' Ef (put_same i s slots Hi) Ie).
    - assert (Nq : qname g <> qname f).
      { intros C. pose proof (find_element_self k f ND (nth_error_In _ _ Ef) Ie) as X1. pose proof (find_element_self k g ND (nth_error_In _ _ Ej) Eg) as X2. rewrite C, X1 in X2. injection X2 as <-.
        pose proof (find_class_ok S SO c k Ek) as [(_ & _ & _ & _ & NDa) _]. apply Nij.
        assert (NDf : NoDup (c_fields k)) by (apply (NoDup_map_inv attr), NDa). apply (proj1 (NoDup_nth_error _) NDf i j); [rewrite <- Len; exact Hi|congruence]. }
      rewrite (qname_eqb_neq _ _ Nq). assert (Hj : (j < List.length slots)%nat) by (rewrite Len; apply nth_error_Some; congruence).
      pose proof (nth_error_nth' slots [] Hj) as Es. rewrite (filter_slot _ slots j g _ ND Len Ej Es Eg).
      apply (filter_slot _ _ j g _ ND Len' Ej); [rewrite (put_other i s slots j Hi Nij); exact Es|exact Eg]. }
  rewrite E. rewrite Ep in *. apply (matches_replaced (qname f) t l m new).
  - unfold new. rewrite Forall_map. eapply Forall_impl; [|exact Rs]. intros y Ry. unfold XsdProofs.judged. cbn [fst snd]. rewrite tag_render. split; [reflexivity|apply Ry].
  - unfold new. rewrite map_length. exact Ll.
  - unfold new. destruct m; cbn in *; [rewrite map_length; exact Lm|exact Logic.I].
  - exact I.
  - exact NDx.
  - exact M.
Qed.

(** A new object whose elements are each there once. *)
Definition once (l : QName * XTy) : Particle := PElement (fst l) (snd l) 1 (Some 1%nat).
Lemma matches_once : forall ls (vs : list Judged), Forall2 (fun v l => fst v = fst l /\ snd v (snd l)) vs ls -> matches (PSequence (map once ls)) vs.
Proof.
  induction ls as [|l ls IH]; intros vs H; inversion_clear H as [|v ? vr ? Hv H']; [reflexivity|]. cbn [map]. apply matches_sequence. exists [v], vr. split; [reflexivity|].
  split; [|apply IH, H']. split; [constructor; [exact Hv|constructor]|]. cbn. lia.
Qed.
Lemma construct_renders c n k x ls args : find_class S c = Some k -> find_xclass types n = Some x -> x_particle x = PSequence (map once ls) -> x_text x = None -> x_attributes x = [] ->
  Forall2 (fun f l => kind f = Element /\ qname f = fst l /\ exists a o, find (fun p => String.eqb (fst p) (attr f)) args = Some (a, [o]) /\ renders o (snd l)) (c_fields k) ls ->
  renders (construct S c args) (XComplex n).
Proof.
  intros Ek Ex Ep Et Ea H q. unfold construct. rewrite Ek, (render_class L S c k _ _ Ek). apply valid_node. exists x. split; [exact Ex|]. rewrite Et, Ea. split; [|split; [exact I|constructor]].
  rewrite Ep. apply matches_once. clear - H. induction H as [|f l fs ls (K & Q & a & o & Fa & Ro) _ IH]; [constructor|].
  cbn [map render_children]. rewrite Fa. unfold is_element. rewrite K. cbn [snd map app]. constructor; [|exact IH]. cbn [fst snd]. rewrite tag_render. split; [exact Q|apply Ro].
Qed.
End Change_proofs.
