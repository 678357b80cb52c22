(** Properties of the data binding of SICD and SIDD documents: C96. *)
Require Import ZArith NArith String Ascii List Bool Lia.
Require Import Verif.Base Verif.Text Verif.TextFacts Verif.SchemaModel Verif.SchemaEnums Verif.SchemaCommon Verif.SchemaSicd Verif.SchemaSidd
  Verif.SchemaSpec Verif.SchemaProofs.
Import ListNotations.
Local Open Scope string_scope.

(** ** C96: documents survive parsing and rendering *)

(** *** The tables are in order *)
Fixpoint distinct {A} (eqb : A -> A -> bool) (l : list A) : bool :=
  match l with [] => true | a :: r => (negb (existsb (eqb a) r) && distinct eqb r)%bool end.
Lemma distinct_sound {A} (eqb : A -> A -> bool) l : (forall a, eqb a a = true) -> distinct eqb l = true -> NoDup l.
Proof.
  intros R. induction l as [|a l IH]; intros E; [constructor|]. cbn in E. apply andb_true_iff in E as [E1 E2].
  constructor; [|apply IH, E2]. intros C. assert (X : existsb (eqb a) l = true) by (apply existsb_exists; exists a; auto).
  rewrite X in E1. discriminate.
Qed.
Definition check_field (f : Field) : bool :=
  (match kind f with
   | Element => match mult f, default f with Tokens, _ => false | _, NoDefault => true | _, _ => false end
   | _ => match mult f, ty f, default f with
          | Many, _, _ => false
          | _, TClass _, _ => false
          | Tokens, _, NoDefault => true
          | Tokens, _, _ => false
          | One, _, _ => true
          end
   end
   && match default f, ty f with
      | FixedInt _, TPrim PInt | FixedBool _, TPrim PBool | EmptyString, TPrim PStr | NoDefault, _ => true
      | _, _ => false
      end)%bool.
Lemma check_field_sound f : check_field f = true -> field_ok f.
Proof.
  unfold check_field, field_ok, text_type. destruct (kind f), (mult f), (default f), (ty f) as [[]| | |]; cbn; try discriminate; intros _;
    repeat split; try discriminate; try (intros C; discriminate C); try reflexivity.
Qed.
Definition check_class (k : Class) : bool :=
  (forallb check_field (c_fields k)
   && distinct qname_eqb (map qname (filter is_element (c_fields k)))
   && distinct qname_eqb (map qname (filter is_attribute (c_fields k)))
   && Nat.leb (List.length (filter is_content (c_fields k))) 1
   && distinct String.eqb (map attr (c_fields k)))%bool.
Lemma check_class_sound k : check_class k = true -> class_ok k.
Proof.
  unfold check_class. rewrite !andb_true_iff. intros [[[[A B] C] Dd] E]. repeat split.
  - apply Forall_forall. intros f I. rewrite forallb_forall in A. apply check_field_sound, A, I.
  - apply (distinct_sound _ _ qname_eqb_refl B).
  - apply (distinct_sound _ _ qname_eqb_refl C).
  - apply Nat.leb_le, Dd.
  - apply (distinct_sound _ _ String.eqb_refl E).
Qed.
Definition check_schema (S : Schema) : bool :=
  (forallb check_class (classes S)
   && forallb (fun e => forallb (fun v => negb (String.eqb v "") && String.eqb (collapse v) v)%bool (snd e)) (enums S)
   && distinct String.eqb (map c_name (classes S)))%bool.
Lemma check_schema_sound S : check_schema S = true -> schema_ok S.
Proof.
  unfold check_schema. rewrite !andb_true_iff. intros [[A B] C]. repeat split.
  - apply Forall_forall. intros k I. rewrite forallb_forall in A. apply check_class_sound, A, I.
  - apply Forall_forall. intros e I v Iv. rewrite forallb_forall in B. specialize (B e I). rewrite forallb_forall in B. specialize (B v Iv).
    apply andb_true_iff in B as [N Ec]. split; [|apply String.eqb_eq, Ec]. intros ->. discriminate.
  - apply (distinct_sound _ _ String.eqb_refl C).
Qed.

(** In each of the 546 dataclasses the names of the elements are different, and those of the
    attributes, and those of the Python attributes; at most one field takes the text; lists of
    elements, token lists and defaults are where xsdata supports them; and the values of the 117
    enumerations are words separated by single spaces. *)
Theorem C96_tables : schema_ok formats.
Proof. apply check_schema_sound. vm_compute. reflexivity. Qed.
Print Assumptions C96_tables.

(** *** Round trips *)

(** Whatever the class and the name of the element: an object whose fields hold values of their types
    is rendered to an element that parses to the same object. *)
Theorem C96_round_trip : forall F D T (L : Lexical F D T), lexical_ok L ->
  forall t o, typed L formats t o -> forall q, parse L formats t (render L formats q o) = Ok o.
Proof. intros F D T L LO t o H q. apply (round_trip L formats LO C96_tables), (typed_held L formats LO C96_tables), H. Qed.
Print Assumptions C96_round_trip.

(** The root elements, with the classes of their documents. *)
Definition roots : list (string * QName) :=
  [ ("sicd121.SICD", ("urn:SICD:1.2.1", "SICD")); ("sicd130.SICD", ("urn:SICD:1.3.0", "SICD"));
    ("sidd100.SIDD", ("urn:SIDD:1.0.0", "SIDD")); ("sidd200.SIDD", ("urn:SIDD:2.0.0", "SIDD")); ("sidd300.SIDD", ("urn:SIDD:3.0.0", "SIDD")) ].
Lemma root_classes c q : In (c, q) roots -> exists k, find_class formats c = Some k /\ find_root formats q = Some k /\ c_qname k = q /\ c_name k = c.
Proof.
  intros I. cbn [roots In] in I.
  decompose [or] I; clear I; try contradiction; (match goal with H : _ = (c, q) |- _ => injection H as <- <- end);
    eexists; (split; [vm_compute; reflexivity|]); (split; [vm_compute; reflexivity|]); split; reflexivity.
Qed.

(** A SICD or SIDD document of each of the five versions is rendered with the root element of its
    version, and parsing finds the same class and the same contents again. *)
Theorem C96_documents : forall F D T (L : Lexical F D T), lexical_ok L ->
  forall c q, In (c, q) roots -> forall o, typed L formats (TClass c) o ->
  exists x, render_document L formats o = Some x /\ tag x = q /\ parse_document L formats x = Ok o.
Proof.
  intros F D T L LO c q I o H. destruct (root_classes c q I) as (k & Ec & Er & Eq & En).
  destruct o as [v|c' slots]; [destruct H as [[] _]|]. pose proof (proj1 (shaped_inst L formats _ _ _ _) H) as [E _]. injection E as <-.
  cbn [render_document]. rewrite Ec. cbn [option_map]. eexists. split; [reflexivity|].
  rewrite Eq. split; [apply tag_render|]. unfold parse_document. rewrite tag_render, Er, En. apply C96_round_trip; assumption.
Qed.
Print Assumptions C96_documents.

(** Whatever document has been parsed, also one with numbers that are not numbers: it can be rendered
    again, under the same root element, and parsing that gives the same object. *)
Theorem C96_reread : forall F D T (L : Lexical F D T), lexical_ok L ->
  forall x o, parse_document L formats x = Ok o ->
  exists y, render_document L formats o = Some y /\ tag y = tag x /\ parse_document L formats y = Ok o.
Proof.
  intros F D T L LO x o E. unfold parse_document in E. destruct (find_root formats (tag x)) as [k|] eqn:Er; [|discriminate].
  pose proof (parse_held L formats LO C96_tables x _ _ E) as H.
  destruct o as [v|c slots]; [destruct H as [[] _]|]. pose proof (proj1 (shaped_inst L formats _ _ _ _) H) as [Ec (k' & Ek' & _)]. injection Ec as Ec.
  apply find_some in Er as Er'. destruct Er' as [Ik Eq]. apply in_rev in Ik. apply qname_eqb_spec in Eq.
  assert (k' = k).
  { apply find_some in Ek' as [Ik' En]. apply String.eqb_eq in En. rewrite <- Ec in En.
    destruct C96_tables as (_ & _ & ND). clear - ND Ik Ik' En. revert ND Ik Ik'. generalize (classes formats). intros l. induction l as [|a l IH]; intros ND I J; [destruct I|].
    cbn [map] in ND. inversion_clear ND as [|? ? N ND']. destruct I as [->|I], J as [->|J]; [reflexivity| | |apply IH; assumption].
    - exfalso. apply N. rewrite <- En. apply in_map, J.
    - exfalso. apply N. rewrite En. apply in_map, I. }
  subst k'. exists (render L formats (c_qname k) (Inst c slots)). split; [cbn [render_document]; rewrite Ek'; reflexivity|].
  rewrite tag_render, Eq. split; [reflexivity|]. unfold parse_document. rewrite tag_render, Er, Ec. apply (round_trip L formats LO C96_tables). rewrite <- Ec. rewrite <- Ec in H. exact H.
Qed.
Print Assumptions C96_reread.

(** *** What is refused *)

(** The only documents with the root name SICD or SIDD that can be parsed are those of the five
    versions, and each becomes an instance of the class of its version. *)
Theorem C96_versions : forall F D T (L : Lexical F D T) x o, parse_document L formats x = Ok o ->
  snd (tag x) = "SICD" \/ snd (tag x) = "SIDD" -> exists c slots, o = Inst c slots /\ In (c, tag x) roots.
Proof.
  intros F D T L x o E R. unfold parse_document in E. destruct (find_root formats (tag x)) as [k|] eqn:Er; [|discriminate].
  assert (K : In (c_name k, tag x) roots).
  { apply find_some in Er as [I Q]. apply in_rev in I. apply qname_eqb_spec in Q. rewrite <- Q in *. clear - I R.
    assert (A : forallb (fun k => (negb (String.eqb (snd (c_qname k)) "SICD" || String.eqb (snd (c_qname k)) "SIDD")
                                  || existsb (fun r => String.eqb (fst r) (c_name k) && qname_eqb (snd r) (c_qname k)) roots)%bool) (classes formats) = true)
      by (vm_compute; reflexivity).
    rewrite forallb_forall in A. specialize (A k I). apply orb_true_iff in A as [A|A].
    - exfalso. destruct R as [R|R]; rewrite R in A; discriminate.
    - apply existsb_exists in A as ([c q] & J & A). apply andb_true_iff in A as [A B]. cbn [fst snd] in *.
      apply String.eqb_eq in A. apply qname_eqb_spec in B. subst. exact J. }
  destruct x as [q a text kids]. cbn [parse] in E. destruct (find_class formats (c_name k)) as [k'|]; [|discriminate].
  destruct (_ kids []) as [parsed|]; [|discriminate]. cbn [bind] in E. destruct (collect _ _) as [slots|]; [|discriminate]. injection E as <-.
  exists (c_name k), slots. split; [reflexivity|exact K].
Qed.
Print Assumptions C96_versions.

Lemma parse_children_err {F D T} (p : Ty -> Xml -> res (Obj F D T)) k : forall pre y post seen,
  (forall f, find_element k (tag y) = Some f -> is_one f = true /\ exists z, In z pre /\ tag z = tag y) ->
  exists e, parse_children p k (pre ++ y :: post) seen = Err e.
Proof.
  assert (G : forall pre y post seen,
    (forall f, find_element k (tag y) = Some f -> is_one f = true /\ ((exists z, In z pre /\ tag z = tag y) \/ In (tag y) seen)) ->
    exists e, parse_children p k (pre ++ y :: post) seen = Err e).
  { induction pre as [|z pre IH]; intros y post seen H; cbn [app parse_children].
    - destruct (find_element k (tag y)) as [f|] eqn:E; [|eexists; reflexivity].
      destruct (H f eq_refl) as [O [(z & [] & _)|I]]. apply find_some in E as [_ E]. apply andb_true_iff in E as [_ E]. apply qname_eqb_spec in E.
      assert (X : existsb (qname_eqb (qname f)) seen = true) by (apply existsb_exists; exists (tag y); split; [exact I|apply qname_eqb_spec, E]).
      rewrite O, X. eexists. reflexivity.
    - destruct (find_element k (tag z)) as [g|] eqn:E; [|eexists; reflexivity].
      destruct (_ && _)%bool; [eexists; reflexivity|]. destruct (p (ty g) z); [|eexists; reflexivity]. cbn [bind].
      apply find_some in E as [_ E]. apply andb_true_iff in E as [_ E]. apply qname_eqb_spec in E.
      destruct (IH y post (qname g :: seen)) as [e Ee]; [|rewrite Ee; eexists; reflexivity].
      intros f Ef. destruct (H f Ef) as [O [(z' & [<-|I] & Tz)|I]]; split; auto.
      + right. left. rewrite E. exact Tz.
      + left. exists z'. auto.
      + right. right. exact I. }
  intros pre y post seen H. apply G. intros f Ef. destruct (H f Ef) as [O Z]. auto.
Qed.
(** An element that its parent's class does not know, in any position, makes the parent unreadable. *)
Theorem C96_unknown : forall F D T (L : Lexical F D T) c k, find_class formats c = Some k ->
  forall q a text pre y post, (forall f, In f (c_fields k) -> kind f = Element -> qname f <> tag y) ->
  exists e, parse L formats (TClass c) (Node q a text (pre ++ y :: post)) = Err e.
Proof.
  intros F D T L c k Ek q a text pre y post H. rewrite (parse_class L formats c k _ _ _ _ Ek).
  destruct (parse_children_err (parse L formats) k pre y post []) as [e E]; [|rewrite E; eexists; reflexivity].
  intros f Ef. exfalso. apply find_some in Ef as [I E]. apply andb_true_iff in E as [Ie E]. apply qname_eqb_spec in E.
  unfold is_element in Ie. apply (H f I); [destruct (kind f); [reflexivity|discriminate|discriminate]|exact E].
Qed.
Print Assumptions C96_unknown.
(** So does a second element of a field that is not a list. *)
Theorem C96_repeated : forall F D T (L : Lexical F D T) c k f, find_class formats c = Some k -> In f (c_fields k) -> kind f = Element -> mult f = One ->
  forall q a text pre y mid z post, tag y = qname f -> tag z = qname f ->
  exists e, parse L formats (TClass c) (Node q a text (pre ++ y :: mid ++ z :: post)) = Err e.
Proof.
  intros F D T L c k f Ek If K M q a text pre y mid z post Ty Tz. rewrite (parse_class L formats c k _ _ _ _ Ek).
  replace (pre ++ y :: mid ++ z :: post)%list with ((pre ++ y :: mid) ++ z :: post)%list by (rewrite <- app_assoc; reflexivity).
  destruct (parse_children_err (parse L formats) k (pre ++ y :: mid) z post []) as [e E]; [|rewrite E; eexists; reflexivity].
  intros g Eg. destruct (find_class_ok formats C96_tables c k Ek) as [(_ & NE & _) _].
  rewrite Tz in Eg. rewrite (find_element_self k f NE If ltac:(unfold is_element; rewrite K; reflexivity)) in Eg. injection Eg as <-.
  split; [unfold is_one; rewrite M; reflexivity|]. exists y. split; [apply in_or_app; right; left; reflexivity|congruence].
Qed.
Print Assumptions C96_repeated.
(** Attributes that the class does not know make no difference. *)
Theorem C96_attributes : forall F D T (L : Lexical F D T) c k, find_class formats c = Some k ->
  forall q pre n v post text kids, (forall f, In f (c_fields k) -> kind f = Attribute -> qname f <> n) ->
  parse L formats (TClass c) (Node q (pre ++ (n, v) :: post) text kids) = parse L formats (TClass c) (Node q (pre ++ post) text kids).
Proof.
  intros F D T L c k Ek q pre n v post text kids H. rewrite !(parse_class L formats c k _ _ _ _ Ek).
  destruct (parse_children _ k kids []) as [parsed|]; [|reflexivity]. cbn [bind]. f_equal.
  assert (X : forall f, In f (c_fields k) -> fill L formats (pre ++ (n, v) :: post) text parsed f = fill L formats (pre ++ post) text parsed f).
  { intros f I. unfold fill. destruct (kind f) eqn:K; try reflexivity.
    assert (E : find_text (qname f) (pre ++ (n, v) :: post) = find_text (qname f) (pre ++ post)).
    { unfold find_text. f_equal. induction pre as [|[m w] pre IH]; cbn [app find fst].
      - rewrite qname_eqb_neq by (intros C; apply (H f I K); congruence). reflexivity.
      - destruct (qname_eqb m (qname f)); [reflexivity|exact IH]. }
    rewrite E. reflexivity. }
  clear H. induction (c_fields k) as [|f fs IH]; [reflexivity|]. cbn [collect]. rewrite X by (left; reflexivity).
  destruct (fill _ _ _ _ _ f); [|reflexivity]. cbn [bind]. rewrite IH; [reflexivity|]. intros g I. apply X. right. exact I.
Qed.
Print Assumptions C96_attributes.

(** *** Values of other types *)

(** Values that are not of the types of their fields come back as what their texts read as, and the
    rest of the object as it was. *)
Theorem C96_rewritten : forall F D T (L : Lexical F D T), lexical_ok L ->
  forall t o, shaped L formats (fun _ _ => True) t o -> forall q, parse L formats t (render L formats q o) = Ok (reread L formats t o).
Proof. intros F D T L LO t o H q. apply (render_reread L formats LO C96_tables), H. Qed.
Print Assumptions C96_rewritten.

(** A SIDD 1.0.0 classification whose DESVersion is not 4 cannot be read. *)
Theorem C96_fixed : forall F D T (L : Lexical F D T) q a text kids s,
  find_text ("urn:us:gov:ic:ism", "DESVersion") a = Some s -> read_int L s <> Some 4%Z ->
  exists e, parse L formats (TClass "sidd100.ProductClassificationType") (Node q a text kids) = Err e.
Proof.
  intros F D T L q a text kids s E N.
  destruct (find_class formats "sidd100.ProductClassificationType") as [k|] eqn:Ek; [|vm_compute in Ek; discriminate].
  rewrite (parse_class L formats _ k _ _ _ _ Ek). destruct (parse_children _ k kids []) as [parsed|]; [|eexists; reflexivity]. cbn [bind].
  set (f := mkField "desversion" Attribute (ns_ism, "DESVersion") (TPrim PInt) One true (FixedInt 4)).
  assert (I : In f (c_fields k)).
  { vm_compute in Ek. injection Ek as <-. vm_compute. repeat (first [left; reflexivity | right]). }
  assert (X : forall fs, In f fs -> exists e, collect (fill L formats a text parsed) fs = Err e).
  { induction fs as [|g fs IH]; [intros []|]. intros J. cbn [collect]. destruct J as [->|J].
    - assert (Ef : fill L formats a text parsed f = Err OtherError).
      { unfold fill. cbn [kind f qname]. change (ns_ism, "DESVersion") with ("urn:us:gov:ic:ism", "DESVersion"). rewrite E.
        unfold settle, read_slot. cbn [mult default f ty read read_prim]. destruct (read_int L s) as [z|] eqn:R; cbn [option_map]; [|reflexivity].
        destruct (Z.eqb_spec 4 z) as [<-|_]; [contradiction|reflexivity]. }
      rewrite Ef. eexists. reflexivity.
    - destruct (fill L formats a text parsed g); [|eexists; reflexivity]. cbn [bind]. destruct (IH J) as [e ->]. eexists. reflexivity. }
  destruct (X _ I) as [e ->]. eexists. reflexivity.
Qed.
Print Assumptions C96_fixed.

(** *** Non-vacuity *)

(** Decimal numerals for integers, which also serve as floats, dates and times. *)
Definition show_Z (z : Z) : string := if (z <? 0)%Z then String "-" (show_N (Z.to_N (- z))) else show_N (Z.to_N z).
Definition read_Z (s : string) : option Z :=
  match s with
  | String "-" r => option_map (fun n => - Z.of_N n)%Z (read_dec r)
  | _ => option_map Z.of_N (read_dec s)
  end.
Definition decimal : Lexical Z Z Z := mkLexical show_Z read_Z show_Z read_Z show_Z read_Z show_Z read_Z.
Lemma read_acc_word : forall s acc n, read_acc s acc = Some n -> forall i c, String.get i s = Some c -> digit_val c <> None.
Proof.
  induction s as [|c s IH]; intros acc n E i d G; [destruct i; discriminate|]. cbn in E. destruct (digit_val c) as [v|] eqn:Ec; [|discriminate].
  destruct i as [|i]; cbn in G; [injection G as <-; rewrite Ec; discriminate|apply (IH _ _ E i d G)].
Qed.
Lemma digit_not_space c : digit_val c <> None -> is_space c = false /\ c <> "-"%char.
Proof. destruct c as [[] [] [] [] [] [] [] []]; cbn; intros H; (split; [reflexivity || (exfalso; apply H; reflexivity)|]); intros C; try discriminate C; apply H; reflexivity. Qed.
Lemma show_N_word n : is_word (show_N n).
Proof. split; [apply show_nonempty|]. intros i c G. apply digit_not_space, (read_acc_word _ _ _ (read_show n) i c G). Qed.
Lemma decimal_ok : lexical_ok decimal.
Proof.
  assert (R : forall z, read_Z (show_Z z) = Some z).
  { intros z. unfold show_Z. destruct (Z.ltb_spec z 0).
    - cbn [read_Z]. rewrite (read_dec_acc _ (show_nonempty _)), read_show. cbn [option_map]. f_equal. lia.
    - assert (E : read_dec (show_N (Z.to_N z)) = Some (Z.to_N z)) by (rewrite (read_dec_acc _ (show_nonempty _)); apply read_show).
      unfold read_Z. destruct (show_N (Z.to_N z)) as [|c r] eqn:Es; [discriminate|].
      assert (Nc : c <> "-"%char) by (apply digit_not_space, (read_acc_word (String c r) 0 (Z.to_N z)) with (i := 0%nat); [rewrite <- Es; apply read_show|reflexivity]).
      assert (X : option_map Z.of_N (read_dec (String c r)) = Some z) by (rewrite E; cbn [option_map]; f_equal; lia).
      destruct c as [[] [] [] [] [] [] [] []]; try exact X. exfalso. apply Nc. reflexivity. }
  assert (W : forall z, is_word (show_Z z)).
  { intros z. unfold show_Z. destruct (z <? 0)%Z; [|apply show_N_word]. destruct (show_N_word (Z.to_N (- z))) as [_ H].
    split; [discriminate|]. intros [|i] c G; cbn in G; [injection G as <-; reflexivity|apply (H i c G)]. }
  repeat split; try exact R; try reflexivity; try apply W.
Qed.

Definition leaf (v : Value Z Z Z) : list (Obj Z Z Z) := [Leaf v].
(** A SICD 1.3.0 document that has only an ImageData with a few numbers and a pixel type. *)
Definition little_sicd : Obj Z Z Z :=
  Inst "sicd130.SICD"
    [ []; [];
      [Inst "sicd130.ImageDataType" [ leaf (VEnum "sicd130.ImagePixelType" "RE32F_IM32F"); []; leaf (VInt 64); leaf (VInt 128); leaf (VInt 3); leaf (VInt (-4)); []; []; [] ]];
      []; []; []; []; []; []; []; []; []; []; []; []; []; [] ].
(** The number of classes and enumerations; a document that is typed, the tree it becomes, and the
    object it comes back as; a document with an unreadable number that is parsed and rendered; and
    documents that are refused. *)
Example C96_non_vacuous :
  List.length (classes formats) = 546%nat /\ List.length (enums formats) = 117%nat /\ lexical_ok decimal /\
  typed decimal formats (TClass "sicd130.SICD") little_sicd /\
  render_document decimal formats little_sicd
  = Some (Node ("urn:SICD:1.3.0", "SICD") [] ""
      [Node ("urn:SICD:1.3.0", "ImageData") [] ""
        [ Node ("urn:SICD:1.3.0", "PixelType") [] "RE32F_IM32F" []; Node ("urn:SICD:1.3.0", "NumRows") [] "64" [];
          Node ("urn:SICD:1.3.0", "NumCols") [] "128" []; Node ("urn:SICD:1.3.0", "FirstRow") [] "3" [];
          Node ("urn:SICD:1.3.0", "FirstCol") [] "-4" [] ]]) /\
  (exists o x, let doc t := Node ("urn:SICD:1.2.1", "SICD") [] ""
        [Node ("urn:SICD:1.2.1", "ImageData") [] "" [Node ("urn:SICD:1.2.1", "NumRows") [] "many" []; Node ("urn:SICD:1.2.1", "PixelType") [] t []]] in
      parse_document decimal formats (doc " RE16I_IM16I ") = Ok o /\ render_document decimal formats o = Some x /\
      get_path formats o ["image_data"; "num_rows"] = Ok (Leaf (VStr "many")) /\
      get_path formats o ["image_data"; "pixel_type"] = Ok (Leaf (VEnum "sicd121.ImagePixelType" "RE16I_IM16I"))) /\
  parse_document decimal formats (Node ("urn:SICD:1.1.0", "SICD") [] "" []) = Err OtherError /\
  parse_document decimal formats (Node ("urn:SICD:1.3.0", "SICD") [] "" [Node ("urn:SICD:1.2.1", "ImageData") [] "" []]) = Err OtherError /\
  is_ok (parse_document decimal formats (Node ("urn:SICD:1.3.0", "SICD") [(("", "id"), "7")] " " [Node ("urn:SICD:1.3.0", "ImageData") [] "" []])).
Proof.
  split; [reflexivity|]. split; [reflexivity|]. split; [exact decimal_ok|]. split.
  { cbn [typed little_sicd]. split; [reflexivity|]. eexists. split; [vm_compute; reflexivity|].
    cbn -[formats]. repeat match goal with |- _ /\ _ => split | |- exists k, _ => eexists; split; [vm_compute; reflexivity|] end; cbn -[formats]; try lia; try discriminate; try exact I; try reflexivity; try tauto.
    all: repeat match goal with |- _ /\ _ => split end; try lia; try discriminate; try exact I; try reflexivity.
    vm_compute. tauto. }
  split; [vm_compute; reflexivity|]. split; [|split; [vm_compute; reflexivity|split; [vm_compute; reflexivity|eexists; vm_compute; reflexivity]]].
  eexists. eexists. split; [vm_compute; reflexivity|]. split; [vm_compute; reflexivity|]. split; vm_compute; reflexivity.
Qed.
(** What the refusals need, and that they are refusals of single elements and values: an ImageData
    with one NumRows is read, with two it is not; DESVersion 4 is read, 5 is not. *)
Example C96_refusal_cases : let one := Node ("urn:SICD:1.3.0", "NumRows") [] "64" [] in let ism := "urn:us:gov:ic:ism" in
  let image kids := parse decimal formats (TClass "sicd130.ImageDataType") (Node ("urn:SICD:1.3.0", "ImageData") [] "" kids) in
  let classification v := parse decimal formats (TClass "sidd100.ProductClassificationType") (Node ("urn:SIDD:1.0.0", "Classification") [((ism, "DESVersion"), v)] "" []) in
  (exists k f, find_class formats "sicd130.ImageDataType" = Some k /\ In f (c_fields k) /\ kind f = Element /\ mult f = One /\ tag one = qname f) /\
  is_ok (image [one]) /\ image [one; one] = Err OtherError /\
  find_text (ism, "DESVersion") [((ism, "DESVersion"), "5")] = Some "5" /\ read_int decimal "5" <> Some 4%Z /\
  is_ok (classification "4") /\ classification "5" = Err OtherError.
Proof.
  cbv zeta. split; [|repeat split; try (eexists; vm_compute; reflexivity); try (vm_compute; reflexivity); vm_compute; discriminate].
  destruct (find_class formats "sicd130.ImageDataType") as [k|] eqn:E; [|vm_compute in E; discriminate].
  exists k. vm_compute in E. injection E as <-. cbn [c_fields]. eexists. split; [reflexivity|].
  split; [right; right; left; reflexivity|]. repeat split.
Qed.
