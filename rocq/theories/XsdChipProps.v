(** Properties of SIDD documents that are valid against the schemas when a chip is added, of what the
    dataclasses do not check, and examples: C98. *)
Require Import ZArith Reals String List Bool Lia.
Require Import Verif.Base Verif.Vec Verif.SicdModel Verif.SarMetaModel Verif.SarMetaProps Verif.SchemaModel Verif.SchemaSpec Verif.SchemaProofs Verif.SchemaProps
  Verif.SarDocModel Verif.SarDocProofs Verif.SchemaCheck Verif.ExampleDocs Verif.SarDocProps
  Verif.XsdModel Verif.XsdSidd Verif.XsdPairs Verif.XsdSpec Verif.XsdProofs Verif.XsdChangeProofs Verif.XsdCheck Verif.XsdProps.
Import ListNotations.
Local Open Scope string_scope.

(** *** SIDD *)
Section Chips.
Context {F D T : Type} (L : Lexical F D T) (X : XsdTexts F D T) (LO : lexical_ok L) (AG : agrees X L).
Notation renders := (renders L X formats all_types).

(** Integers up to 2^53 are written as texts of doubles. *)
Definition whole_texts : Prop := forall z, (Z.abs z <= 2 ^ 53)%Z -> exists f, double_text X (show_int L z) f.
Lemma number_renders num v r : whole_texts -> stands_for num v r -> renders (Leaf v) (XSimple SNumber).
Proof.
  intros W H q. destruct AG as (_ & _ & _ & A & _). split; [reflexivity|]. destruct v; try contradiction; cbn [show valid_simple].
  - destruct (W z (proj1 H)) as [f Hf]. exists f. repeat split. exact Hf.
  - exists f. repeat split. apply A.
Qed.

(** A class and a type whose elements are each there once. *)
Definition once_class (c : string) (fs : list (string * XTy)) : Prop :=
  exists k x, find_class formats c = Some k /\ find_xclass all_types c = Some x /\ x_text x = None /\ x_attributes x = [] /\
    map (fun f => (attr f, kind f)) (c_fields k) = map (fun p => (fst p, Element)) fs /\
    x_particle x = PSequence (map once (combine (map qname (c_fields k)) (map snd fs))).
Lemma once_renders c fs args : once_class c fs -> Forall (fun p => exists a o, find (fun q => String.eqb (fst q) (fst p)) args = Some (a, [o]) /\ renders o (snd p)) fs ->
  renders (construct formats c args) (XComplex c).
Proof.
  intros (k & x & Ek & Ex & Et & Ea & Ef & Ep) H. apply (construct_renders L X formats all_types c c k x _ args Ek Ex Ep Et Ea). clear - Ef H.
  revert fs Ef H. induction (c_fields k) as [|f r IH]; intros [|p fs] Ef H; try discriminate; [constructor|]. inversion_clear H as [|? ? Hp Hs]. cbn [map] in Ef.
  injection Ef as E1 E2 E3. cbn [map combine]. constructor; [|apply IH; assumption]. cbn [fst snd]. rewrite E1. auto.
Qed.
Lemma chip_types v : In v ["sidd100"; "sidd200"; "sidd300"] ->
  let '(ds, ch, ic, dc) := chip_classes (v ++ ".SIDD") in
  fits_type formats class_types (XComplex (v ++ ".SIDD/")) (TClass (v ++ ".SIDD")) = true /\
  fits_type formats class_types (XComplex ds) (TClass ds) = true /\
  (exists f, field_of formats (v ++ ".SIDD") "downstream_reprocessing" = Some f /\ kind f = Element /\ ty f = TClass ds /\
     element_of all_types (v ++ ".SIDD/") (qname f) = Some (XComplex ds, 0%nat, Some 1%nat)) /\
  (exists f, field_of formats ds "geometric_chip" = Some f /\ kind f = Element /\ element_of all_types ds (qname f) = Some (XComplex ch, 0%nat, Some 1%nat)) /\
  once_class ch [("chip_size", XComplex ic); ("original_upper_left_coordinate", XComplex dc); ("original_upper_right_coordinate", XComplex dc);
                 ("original_lower_left_coordinate", XComplex dc); ("original_lower_right_coordinate", XComplex dc)] /\
  once_class ic [("row", XSimple SInt32); ("col", XSimple SInt32)] /\ once_class dc [("row", XSimple SNumber); ("col", XSimple SNumber)] /\
  inst_of formats ds (construct formats ds [] : Obj F D T) /\ renders (construct formats ds []) (XComplex ds).
Proof.
  intros I. cbn [In] in I. decompose [or] I; clear I; try contradiction; subst v; cbn [append chip_classes String.eqb Ascii.eqb Bool.eqb];
    (split; [vm_compute; reflexivity|]); (split; [vm_compute; reflexivity|]);
    (split; [eexists; split; [vm_compute; reflexivity|]; split; [reflexivity|]; split; [reflexivity|]; vm_compute; reflexivity|]);
    (split; [eexists; split; [vm_compute; reflexivity|]; split; [reflexivity|]; vm_compute; reflexivity|]);
    do 3 (split; [eexists; eexists; split; [vm_compute; reflexivity|]; split; [vm_compute; reflexivity|]; split; [reflexivity|]; split; [reflexivity|]; split; reflexivity|]);
    (split; [eexists; eexists; split; [vm_compute; reflexivity|]; split; [vm_compute; reflexivity|]; reflexivity|]);
    (intros q;
     lazymatch goal with |- valid _ _ _ (render _ _ _ (construct _ ?c [])) _ =>
       let o := eval vm_compute in (construct formats c [] : Obj F D T) in change (construct formats c [] : Obj F D T) with o;
       let k := eval vm_compute in (find_class formats c) in
       let x := eval vm_compute in (find_xclass all_types c) in
       match k with Some ?k => match x with Some ?x =>
         rewrite (render_class L formats c k q _ ltac:(vm_compute; reflexivity)); apply valid_node; exists x; split; [vm_compute; reflexivity|] end end
     end;
     split; [exists [], []; split; [reflexivity|]; split; [split; [constructor|split; cbn; lia]|]; exists [], []; split; [reflexivity|]; split; [split; [constructor|split; cbn; lia || exact I]|reflexivity]|];
     split; [exact I|constructor]).
Qed.
End Chips.

Lemma sidd_class c q : In (c, q) roots -> snd q = "SIDD" -> exists v, In v ["sidd100"; "sidd200"; "sidd300"] /\ c = v ++ ".SIDD".
Proof.
  intros I R. cbn [roots In] in I. decompose [or] I; try contradiction; (match goal with H : _ = (c, q) |- _ => injection H as <- E; subst q end); try discriminate;
    [exists "sidd100"|exists "sidd200"|exists "sidd300"]; split; cbn; tauto.
Qed.
(** A valid SIDD document, chipped already or not, with a chip put into it whose size is in the range of
    xs:int is rendered to a valid document, of which the builder reads the document with that chip. *)
Theorem C98_sidd_chip : forall F D T (L : Lexical F D T) (X : XsdTexts F D T) (num : F -> R), lexical_ok L -> agrees X L -> whole_numbers L num -> whole_texts L X ->
  forall x o d, valid_document X false x -> snd (tag x) = "SIDD" -> parse_document L formats x = Ok o -> sidd_meta num formats o = Ok d ->
  forall c ul ur lr ll, stand_for num ul (upper_left c) -> stand_for num ur (upper_right c) -> stand_for num lr (lower_right c) -> stand_for num ll (lower_left c) ->
  in_int (chip_cols c) -> in_int (chip_rows c) ->
  exists o' y, sidd_put_chip formats o (chip_cols c, chip_rows c) ul ur lr ll = Ok o' /\ render_document L formats o' = Some y /\ tag y = tag x /\
    valid_document X false y /\ bind (parse_document L formats y) (sidd_meta num formats) = Ok (with_chip d c).
Proof.
  intros F D T L X num LO AG W WT x o d V R Po M c ul ur lr ll Hul Hur Hlr Hll Zc Zr.
  destruct (C97_sidd_chip F D T L num LO W x o d Po R M c ul ur lr ll Hul Hur Hlr Hll) as (o' & y & o'' & P & Ry & Ty & Py & My).
  exists o', y. split; [exact P|]. split; [exact Ry|]. split; [exact Ty|]. split; [|rewrite Py; exact My].
  destruct (valid_document_parsed L X LO AG x V) as (k & o1 & Ik & Po1 & To & _ & Ro). rewrite Po in Po1. injection Po1 as <-.
  destruct (sidd_class k _ Ik R) as (v & Iv & ->). pose proof (chip_types L X v Iv) as CT. pose proof (shaped_inst_of L formats _ _ o To) as Io.
  replace ((v ++ ".SIDD") ++ "/") with (v ++ ".SIDD/") in Ro by (cbn [In] in Iv; decompose [or] Iv; try contradiction; subst v; reflexivity).
  assert (Q : inst_of formats (v ++ ".SIDD") o' /\ renders L X formats all_types o' (XComplex (v ++ ".SIDD/"))).
  2: { destruct Q as [I' R']. replace (v ++ ".SIDD/") with ((v ++ ".SIDD") ++ "/") in R' by (cbn [In] in Iv; decompose [or] Iv; try contradiction; subst v; reflexivity).
       destruct (renders_document L X _ _ _ Ik I' R') as (y' & Ry' & _ & Vy). rewrite Ry in Ry'. injection Ry' as <-. exact Vy. }
  assert (P' : let '(ds, ch, ic, dc) := chip_classes (v ++ ".SIDD") in
    exists s d1, get_slot formats o "downstream_reprocessing" = Ok s /\
    set_slot formats (match s with [d0] => d0 | _ => construct formats ds [] end) "geometric_chip"
      [construct formats ch [("chip_size", [row_col formats ic (VInt (chip_rows c)) (VInt (chip_cols c))]); ("original_upper_left_coordinate", [row_col formats dc (snd ul) (fst ul)]);
         ("original_upper_right_coordinate", [row_col formats dc (snd ur) (fst ur)]); ("original_lower_left_coordinate", [row_col formats dc (snd ll) (fst ll)]);
         ("original_lower_right_coordinate", [row_col formats dc (snd lr) (fst lr)])]] = Ok d1 /\
    set_slot formats o "downstream_reprocessing" [d1] = Ok o').
  { destruct Io as (slots & kk & -> & _). unfold sidd_put_chip in P. destruct (chip_classes (v ++ ".SIDD")) as [[[ds ch] ic] dc].
    destruct (get_slot formats _ "downstream_reprocessing") as [s|]; [|discriminate]. cbn [bind fst snd] in P. exists s.
    destruct (set_slot formats _ "geometric_chip" _) as [d1|] eqn:E1; [|discriminate]. exists d1. repeat split; assumption. }
  clear P. destruct (chip_classes (v ++ ".SIDD")) as [[[ds ch] ic] dc]. destruct P' as (s & d1 & Gs & S1 & S2).
  destruct CT as (Fv & Fd & (f1 & E1 & K1 & T1 & El1) & (f2 & E2 & K2 & El2) & Oc & Oi & Od & Id & Rd).
  pose proof (get_renders L X formats C96_tables all_types class_types C98_classes_fit _ _ o _ f1 _ _ _ _ Fv Io Ro E1 K1 El1 Gs) as Rs.
  destruct (get_field L formats _ _ o _ f1 To E1) as (s' & Gs' & _ & Hs). rewrite Gs in Gs'. injection Gs' as <-. rewrite T1 in Hs.
  set (d0 := match s with [d0] => d0 | _ => construct formats ds [] end) in *.
  assert (A0 : inst_of formats ds d0 /\ renders L X formats all_types d0 (XComplex ds)).
  { unfold d0. destruct s as [|s0 [|s1 r]]; [split; assumption| |split; assumption]. inversion_clear Rs. inversion_clear Hs as [|? ? Hs0 _]. split; [apply (shaped_inst_of L formats _ _ _ Hs0)|assumption]. }
  destruct A0 as [I0 R0]. clearbody d0.
  assert (Size : renders L X formats all_types (row_col formats ic (VInt (chip_rows c)) (VInt (chip_cols c))) (XComplex ic)).
  { apply (once_renders L X ic _ _ Oi). repeat constructor; cbn [fst snd]; do 2 eexists; (split; [reflexivity|]); apply (int_renders L X LO AG); assumption. }
  assert (Point : forall p r, stand_for num p r -> renders L X formats all_types (row_col formats dc (snd p) (fst p)) (XComplex dc)).
  { intros p r [Hc Hr]. apply (once_renders L X dc _ _ Od). repeat constructor; cbn [fst snd]; do 2 eexists; (split; [reflexivity|]).
    - apply (number_renders L X AG num _ _ WT Hr).
    - apply (number_renders L X AG num _ _ WT Hc). }
  apply (set_renders L X formats C96_tables all_types class_types C98_classes_fit ds ds d0 _ f2 _ _ _ _ d1 Fd I0 R0 E2 K2 El2) in S1; [|cbn; lia|cbn; lia|].
  2: { constructor; [|constructor]. apply (once_renders L X ch _ _ Oc).
       constructor; [do 2 eexists; (split; [reflexivity|]); exact Size|]. constructor; [do 2 eexists; (split; [reflexivity|]); apply (Point ul _ Hul)|].
       constructor; [do 2 eexists; (split; [reflexivity|]); apply (Point ur _ Hur)|]. constructor; [do 2 eexists; (split; [reflexivity|]); apply (Point ll _ Hll)|].
       constructor; [do 2 eexists; (split; [reflexivity|]); apply (Point lr _ Hlr)|constructor]. }
  destruct S1 as [I1 R1]. apply (set_renders L X formats C96_tables all_types class_types C98_classes_fit _ _ o _ f1 _ _ _ _ o' Fv Io Ro E1 K1 El1) in S2; [exact S2|cbn; lia|cbn; lia|].
  constructor; [exact R1|constructor].
Qed.
Print Assumptions C98_sidd_chip.

(** *** What is not checked *)

(** An attribute that its type requires is missing somewhere. *)
Fixpoint missing_b (x : Xml) : XTy -> bool :=
  let '(Node _ attributes _ children) := x in
  let parts := map (fun y => (tag y, missing_b y)) children in
  fun t =>
  match t with
  | XSimple _ => false
  | XComplex n =>
    match find_xclass all_types n with
    | None => false
    | Some k =>
      if existsb (fun a => match find_text (xa_name a) attributes with Some _ => false | None => xa_required a end) (x_attributes k) then true
      else existsb (fun p => forallb (fun l => if qname_eqb (fst l) (fst p) then snd p (snd l) else true) (leaves (x_particle k))) parts
    end
  end.
Lemma missing_b_sound {F D T} (X : XsdTexts F D T) e x : forall t, missing_b x t = true -> ~ valid X e all_types x t.
Proof.
  induction x as [q a text kids IH] using Xml_deep. intros [s|n] H V; [discriminate|]. cbn [missing_b] in H. destruct V as (k & Ek & M & _ & A). rewrite Ek in H.
  destruct (existsb _ (x_attributes k)) eqn:Ea.
  - apply existsb_exists in Ea as (b & Ib & E). rewrite Forall_forall in A. specialize (A b Ib). unfold valid_attribute in A. destruct (find_text (xa_name b) a); congruence.
  - apply existsb_exists in H as (p & Ip & E). apply in_map_iff in Ip as (y & <- & Iy). apply matches_leaves in M. rewrite Forall_forall in M.
    destruct (M (tag y, valid X e all_types y)) as (t & It & Vt); [apply in_map_iff; exists y; split; [reflexivity|exact Iy]|]. cbn [fst snd] in *.
    rewrite forallb_forall in E. specialize (E _ It). cbn [fst snd] in E. rewrite qname_eqb_refl in E. rewrite Forall_forall in IH. apply (IH y Iy t E Vt).
Qed.
(** A document with the text of all attributes named [q] replaced. *)
Fixpoint with_attribute (q : QName) (s : string) (x : Xml) : Xml :=
  let '(Node n a text kids) := x in Node n (map (fun p => if qname_eqb (fst p) q then (fst p, s) else p) a) text (map (with_attribute q s) kids).

(** XML Schema allows a list without items.  With ownerProducer="" a SIDD document is valid, the object
    it is parsed to has no owner, and the document rendered from it lacks the attribute, which is
    required. *)
Theorem C98_empty_list_refuted : ~ (forall x o y, valid_document exact_texts true x -> parse_document exact formats x = Ok o -> render_document exact formats o = Some y ->
  valid_document exact_texts true y).
Proof.
  set (x := with_attribute (in_ism, "ownerProducer") "" example_sidd). intros C.
  assert (V : valid_document exact_texts true x) by (apply document_valid_b_sound; vm_compute; reflexivity).
  assert (B : match bind (parse_document exact formats x) (fun o => match render_document exact formats o with Some y => Ok y | None => Err ValueError end) with
              | Ok y => if missing_b y (XComplex "sidd200.SIDD/") then qname_eqb (tag y) (in_sidd, "SIDD") else false | Err _ => false end = true) by (vm_compute; reflexivity).
  specialize (C x). destruct (parse_document exact formats x) as [o|]; cbn [bind] in B; [|discriminate]. destruct (render_document exact formats o) as [y|] eqn:E; [|discriminate].
  specialize (C o y V eq_refl E). destruct C as (n & I & Vy). destruct (missing_b y (XComplex "sidd200.SIDD/")) eqn:Ms; [|discriminate]. apply qname_eqb_spec in B. rewrite B in I.
  assert (n = "sidd200.SIDD/") by (cbn [xsd_roots In] in I; decompose [or] I; try contradiction; match goal with H : (_, _) = (_, n) |- _ => injection H; intros; subst; reflexivity || discriminate end).
  subst n. apply (missing_b_sound _ _ _ _ Ms Vy).
Qed.
Print Assumptions C98_empty_list_refuted.

(** The dataclasses hold objects that are not those of valid documents: every field has a value of its
    type, and what is required is there, but the document is not valid. *)
Theorem C98_unchecked_refuted : ~ (forall c q o y, In (c, q) roots -> typed exact formats (TClass c) o -> complete formats o -> render_document exact formats o = Some y ->
  valid_document exact_texts false y).
Proof.
  intros C. assert (V : valid_document exact_texts false example_pfa) by (apply document_valid_b_sound; vm_compute; reflexivity).
  destruct (C98_sicd_range _ _ _ exact exact_texts decimal_value exact_ok exact_agrees example_pfa V eq_refl) as (o & d & Po & M & U).
  set (b := mkBounds 0 0 1 2147483648). destruct (U b) as (o' & y & Eo & Ry & Iff).
  assert (B : match bind (parse_document exact formats example_pfa) (fun o => sicd_update_object formats 0 0 o (b, None)) with
              | Ok o' => if typed_b exact formats (TClass "sicd121.SICD") o' then complete_b formats o' else false | Err _ => false end = true) by (vm_compute; reflexivity).
  assert (Z0 : match bind (parse_document exact formats example_pfa) (sicd_meta decimal_value formats) with Ok d => (first_row (image_data d) =? 0)%Z && (first_col (image_data d) =? 0)%Z | Err _ => false end = true)
        by (vm_compute; reflexivity).
  rewrite Po in B, Z0. cbn [bind] in B, Z0. rewrite M in Z0. apply andb_true_iff in Z0 as [Z1 Z2]. apply Z.eqb_eq in Z1, Z2. rewrite Z1, Z2 in *. rewrite Eo in B.
  destruct (typed_b exact formats (TClass "sicd121.SICD") o') eqn:Tb; [|discriminate].
  specialize (C "sicd121.SICD" ("urn:SICD:1.2.1", "SICD") o' y (or_introl eq_refl) (typed_b_sound _ _ _ _ Tb) (complete_b_sound _ _ B) Ry).
  apply Iff in C as (_ & _ & C & _). unfold in_int, b in C. cbn in C. lia.
Qed.
Print Assumptions C98_unchecked_refuted.

(** *** The example documents are valid *)
Example C98_non_vacuous : lexical_ok exact /\ agrees exact_texts exact /\ whole_numbers exact decimal_value /\ whole_texts exact exact_texts /\
  (forall x, In x [example_pfa; example_rma; example_capella; example_sidd; example_sidd_chip] -> valid_document exact_texts false x) /\
  (exists x, ~ valid_document exact_texts false x) /\
  (forall x, In x [example_sidd; example_sidd_chip] -> exists o d o' y, parse_document exact formats x = Ok o /\ sidd_meta decimal_value formats o = Ok d /\
    sidd_put_chip formats o (10, 20)%Z (VInt 1, VInt 2) (VInt 11, VInt 2) (VInt 11, VInt 22) (VFloat (1, 0)%Z, VInt 22) = Ok o' /\
    render_document exact formats o' = Some y /\ valid_document exact_texts false y).
Proof.
  split; [exact exact_ok|]. split; [exact exact_agrees|]. split; [exact exact_whole|].
  assert (WT : whole_texts exact exact_texts) by (intros z Hz; destruct (exact_whole z Hz) as (f & E & _); exists f; exact E). split; [exact WT|].
  assert (V : forall x, In x [example_pfa; example_rma; example_capella; example_sidd; example_sidd_chip] -> valid_document exact_texts false x).
  { intros x I. apply document_valid_b_sound. cbn [In] in I. decompose [or] I; try contradiction; subst x; vm_compute; reflexivity. }
  split; [exact V|]. split; [exists (Node (in_none, "SIDD") [] "" []); intros (n & I & _); cbn [xsd_roots In tag] in I; decompose [or] I; try contradiction; discriminate|].
  intros x I. assert (Vx : valid_document exact_texts false x) by (apply V; cbn [In] in *; tauto).
  assert (Root : snd (tag x) = "SIDD") by (cbn [In] in I; decompose [or] I; try contradiction; subst x; reflexivity).
  destruct (C98_builders _ _ _ exact exact_texts decimal_value exact_ok exact_agrees x Vx) as (o & Po & _ & S).
  assert (G : exists p, get_path formats o ["measurement"; "plane_projection"] = Ok p).
  { assert (B : match bind (parse_document exact formats x) (fun o => get_path formats o ["measurement"; "plane_projection"]) with Ok _ => true | Err _ => false end = true)
      by (cbn [In] in I; decompose [or] I; try contradiction; subst x; vm_compute; reflexivity).
    rewrite Po in B. cbn [bind] in B. destruct (get_path formats o _) as [p|]; [exists p; reflexivity|discriminate]. }
  destruct G as [p Gp]. destruct (S Root p Gp) as [d Md].
  destruct (C98_sidd_chip _ _ _ exact exact_texts decimal_value exact_ok exact_agrees exact_whole WT x o d Vx Root Po Md (mkGeoChip 10 20 (1, 2) (11, 2) (11, 22) (1, 22))%R
             (VInt 1, VInt 2) (VInt 11, VInt 2) (VInt 11, VInt 22) (VFloat (1, 0)%Z, VInt 22)) as (o' & y & A & B & _ & C & _).
  1-4: repeat split; cbn; try lia; unfold decimal_value; cbn; try rewrite Rmult_1_r; reflexivity.
  1-2: unfold in_int; cbn; lia.
  exists o, d, o', y. repeat (split; [assumption|]). exact C.
Qed.
