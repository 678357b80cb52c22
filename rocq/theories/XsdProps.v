(** Properties of SICD and SIDD documents that are valid against the schemas: C98. *)
Require Import ZArith Reals String List Bool Lia.
Require Import Verif.Base Verif.Vec Verif.SicdModel Verif.SarMetaModel Verif.SarMetaProps Verif.SchemaModel Verif.SchemaSpec Verif.SchemaProofs Verif.SchemaProps
  Verif.SarDocModel Verif.SarDocProofs Verif.SchemaCheck Verif.ExampleDocs Verif.SarDocProps
  Verif.XsdModel Verif.XsdSidd Verif.XsdPairs Verif.XsdSpec Verif.XsdProofs Verif.XsdChangeProofs Verif.XsdCheck.
Import ListNotations.
Local Open Scope string_scope.

(** ** C98: documents that are valid against the schemas *)

(** *** Dataclasses and schema types *)

(** Each of the dataclasses fits the type of the schemas it was generated from. *)
Theorem C98_classes_fit : all_fit formats class_types all_types = true.
Proof. vm_compute. reflexivity. Qed.
Print Assumptions C98_classes_fit.
(** That is so of all 546 dataclasses, and every complex type of the schemas has its dataclass. *)
Theorem C98_classes_covered : incl (map c_name (classes formats)) (map fst class_types) /\ incl (map x_name all_types) (map snd class_types).
Proof.
  assert (B : forall a b, forallb (fun s => existsb (String.eqb s) b) a = true -> incl a b).
  { intros a b H s I. rewrite forallb_forall in H. specialize (H s I). apply existsb_In, H. }
  split; apply B; vm_compute; reflexivity.
Qed.
Print Assumptions C98_classes_covered.
(** Every root element has a class that fits its type. *)
Lemma root_fits q n : In (q, n) xsd_roots -> exists c, In (c, q) roots /\ n = c ++ "/" /\ fits_type formats class_types (XComplex n) (TClass c) = true.
Proof.
  intros I. cbn [xsd_roots In] in I. decompose [or] I; clear I; try contradiction; (match goal with H : _ = (q, n) |- _ => injection H as <- <- end).
  - exists "sicd121.SICD". split; [cbn; tauto|]. split; vm_compute; reflexivity.
  - exists "sicd130.SICD". split; [cbn; tauto|]. split; vm_compute; reflexivity.
  - exists "sidd100.SIDD". split; [cbn; tauto|]. split; vm_compute; reflexivity.
  - exists "sidd200.SIDD". split; [cbn; tauto|]. split; vm_compute; reflexivity.
  - exists "sidd300.SIDD". split; [cbn; tauto|]. split; vm_compute; reflexivity.
Qed.
Lemma root_type c q : In (c, q) roots -> In (q, c ++ "/") xsd_roots.
Proof.
  intros I. cbn [roots In] in I. decompose [or] I; clear I; try contradiction; (match goal with H : _ = (c, q) |- _ => injection H as <- <- end); cbn; tauto.
Qed.
Lemma root_class_unique c c' q : In (c, q) roots -> In (c', q) roots -> c = c'.
Proof.
  intros I J. cbn [roots In] in I, J. decompose [or] I; clear I; try contradiction; (match goal with H : _ = (c, q) |- _ => injection H as <- <- end);
    decompose [or] J; clear J; try contradiction; (match goal with H : _ = (c', _) |- _ => injection H; intros; subst; reflexivity || discriminate end).
Qed.

Section Documents.
Context {F D T : Type} (L : Lexical F D T) (X : XsdTexts F D T) (LO : lexical_ok L) (AG : agrees X L).
Notation renders := (renders L X formats all_types).

Lemma valid_document_parsed x : valid_document X false x ->
  exists c o, In (c, tag x) roots /\ parse_document L formats x = Ok o /\ typed L formats (TClass c) o /\ complete formats o /\ renders o (XComplex (c ++ "/")).
Proof.
  intros (n & I & V). destruct (root_fits _ _ I) as (c & Ic & -> & Fc). destruct (root_classes c _ Ic) as (k & Ec & Er & Eq & En).
  destruct (valid_parsed L X formats LO C96_tables AG all_types class_types C98_classes_fit x _ _ Fc V) as (o & Po & To & Co & Ro).
  exists c, o. split; [exact Ic|]. split; [unfold parse_document; rewrite Er, En; exact Po|]. repeat split; assumption.
Qed.
Lemma renders_document c q o : In (c, q) roots -> inst_of formats c o -> renders o (XComplex (c ++ "/")) ->
  exists y, render_document L formats o = Some y /\ tag y = q /\ valid_document X false y.
Proof.
  intros I (slots & k & -> & Ek & _) R. destruct (root_classes c q I) as (k' & Ec & _ & Eq & _). rewrite Ek in Ec. injection Ec as <-.
  cbn [render_document]. rewrite Ek. cbn [option_map]. eexists. split; [reflexivity|]. rewrite Eq. split; [apply tag_render|].
  exists (c ++ "/"). rewrite tag_render. split; [apply root_type, I|apply R].
Qed.

Definition in_int (z : Z) : Prop := (-2147483648 <= z <= 2147483647)%Z.
Lemma int_renders z : renders (Leaf (VInt z)) (XSimple SInt32) <-> in_int z.
Proof.
  destruct AG as (A & B & _). split.
  - intros R. specialize (R ("", "")). destruct R as [_ (z' & H & L1 & L2)]. cbn [show] in H. apply A in H. destruct LO as [E _]. rewrite E in H. injection H as <-. split; assumption.
  - intros [L1 L2] q. split; [reflexivity|]. exists z. split; [apply B|]. split; assumption.
Qed.
Lemma set_int_renders c n o a f z l o' : fits_type formats class_types (XComplex n) (TClass c) = true -> inst_of formats c o -> renders o (XComplex n) ->
  field_of formats c a = Some f -> kind f = Element -> element_of all_types n (qname f) = Some (XSimple SInt32, l, Some 1%nat) -> (l <= 1)%nat -> in_int z ->
  set_slot formats o a [Leaf (VInt z)] = Ok o' -> inst_of formats c o' /\ renders o' (XComplex n).
Proof.
  intros Fc Io Ro Ef K El Ll Z E. refine (set_renders L X formats C96_tables all_types class_types C98_classes_fit c n o a f _ _ _ [Leaf (VInt z)] o' Fc Io Ro Ef K El Ll _ _ E); [cbn; lia|].
  constructor; [apply int_renders, Z|constructor].
Qed.

(** *** SICD *)
Definition chip_in_int (r0 c0 : Z) (b : Bounds) : Prop := in_int (r0 + by_ b) /\ in_int (c0 + bx b) /\ in_int (bh b) /\ in_int (bw b).
Lemma sicd_fits v : In v ["sicd121"; "sicd130"] ->
  fits_type formats class_types (XComplex (v ++ ".SICD/")) (TClass (v ++ ".SICD")) = true /\
  fits_type formats class_types (XComplex (v ++ ".ImageDataType")) (TClass (v ++ ".ImageDataType")) = true /\
  (exists f, field_of formats (v ++ ".SICD") "image_data" = Some f /\ kind f = Element /\ ty f = TClass (v ++ ".ImageDataType") /\
     element_of all_types (v ++ ".SICD/") (qname f) = Some (XComplex (v ++ ".ImageDataType"), 1%nat, Some 1%nat)) /\
  (forall a, In a ["first_row"; "first_col"; "num_rows"; "num_cols"] -> exists f, field_of formats (v ++ ".ImageDataType") a = Some f /\ kind f = Element /\
     element_of all_types (v ++ ".ImageDataType") (qname f) = Some (XSimple SInt32, 1%nat, Some 1%nat)).
Proof.
  intros I. cbn [In] in I. decompose [or] I; clear I; try contradiction; subst v; (split; [vm_compute; reflexivity|]); (split; [vm_compute; reflexivity|]);
    (split; [eexists; split; [vm_compute; reflexivity|]; split; [reflexivity|]; split; [reflexivity|]; vm_compute; reflexivity|]);
    intros a Ia; cbn [In] in Ia; decompose [or] Ia; clear Ia; try contradiction; subst a; eexists; (split; [vm_compute; reflexivity|]); (split; [reflexivity|]); vm_compute; reflexivity.
Qed.
Lemma sicd_update_renders v o r0 c0 b size o' : In v ["sicd121"; "sicd130"] -> shaped L formats (stable L formats) (TClass (v ++ ".SICD")) o ->
  renders o (XComplex (v ++ ".SICD/")) -> chip_in_int r0 c0 b -> sicd_update_object formats r0 c0 o (b, size) = Ok o' -> renders o' (XComplex (v ++ ".SICD/")).
Proof.
  intros Iv H R (Z1 & Z2 & Z3 & Z4) E. destruct (sicd_fits v Iv) as (Fs & Fi & (f & Ef & K & Tf & El) & Fa). unfold sicd_update_object in E. cbn [fst snd] in E.
  destruct (match size with Some _ => _ | None => _ end); [discriminate|]. destruct (get formats o "image_data") as [im|] eqn:Gi; [|discriminate]. cbn [bind] in E.
  destruct (get_field L formats _ _ o _ f H Ef) as (s & Gs & _ & Hs). rewrite (slot_of_get formats o _ _ Gi) in Gs. injection Gs as <-.
  inversion_clear Hs as [|? ? Hi _]. rewrite Tf in Hi. apply shaped_inst_of in Hi as I0. pose proof (shaped_inst_of L formats _ _ o H) as Io.
  pose proof (get_renders L X formats C96_tables all_types class_types C98_classes_fit _ _ o _ f _ _ _ _ Fs Io R Ef K El (slot_of_get formats o _ _ Gi)) as R0. inversion_clear R0 as [|? ? R0' _]. rename R0' into R0.
  destruct (Fa "first_row" ltac:(cbn; tauto)) as (f1 & E1 & K1 & El1). destruct (Fa "first_col" ltac:(cbn; tauto)) as (f2 & E2 & K2 & El2).
  destruct (Fa "num_rows" ltac:(cbn; tauto)) as (f3 & E3 & K3 & El3). destruct (Fa "num_cols" ltac:(cbn; tauto)) as (f4 & E4 & K4 & El4).
  destruct (set_slot formats im "first_row" _) as [i1|] eqn:S1; [|discriminate]. cbn [bind] in E. destruct (set_int_renders _ _ _ _ _ _ _ _ Fi I0 R0 E1 K1 El1 (le_n 1) Z1 S1) as [I1 R1].
  destruct (set_slot formats i1 "first_col" _) as [i2|] eqn:S2; [|discriminate]. cbn [bind] in E. destruct (set_int_renders _ _ _ _ _ _ _ _ Fi I1 R1 E2 K2 El2 (le_n 1) Z2 S2) as [I2 R2].
  destruct (set_slot formats i2 "num_rows" _) as [i3|] eqn:S3; [|discriminate]. cbn [bind] in E. destruct (set_int_renders _ _ _ _ _ _ _ _ Fi I2 R2 E3 K3 El3 (le_n 1) Z3 S3) as [I3 R3].
  destruct (set_slot formats i3 "num_cols" _) as [i4|] eqn:S4; [|discriminate]. cbn [bind] in E. destruct (set_int_renders _ _ _ _ _ _ _ _ Fi I3 R3 E4 K4 El4 (le_n 1) Z4 S4) as [I4 R4].
  apply (set_renders L X formats C96_tables all_types class_types C98_classes_fit _ _ o _ f _ _ _ _ o' Fs Io R Ef K El) in E; [apply E|cbn; lia|cbn; lia|].
  constructor; [exact R4|constructor].
Qed.
Lemma sicd_update_size r0 c0 (o : Obj F D T) b size o' : sicd_update_object formats r0 c0 o (b, size) = Ok o' -> size = None \/ size = Some (bw b, bh b).
Proof.
  unfold sicd_update_object. cbn [fst snd]. destruct size as [[w h]|]; [|left; reflexivity]. destruct (Z.eqb_spec w (bw b)) as [->|]; [|discriminate]. destruct (Z.eqb_spec h (bh b)) as [->|]; [|discriminate].
  right. reflexivity.
Qed.
Lemma sicd_run_renders num v r0 c0 : In v ["sicd121"; "sicd130"] -> forall qs o d, shaped L formats (stable L formats) (TClass (v ++ ".SICD")) o -> sicd_meta num formats o = Ok d ->
  renders o (XComplex (v ++ ".SICD/")) -> Forall (fun q => chip_in_int r0 c0 (fst q)) qs -> renders (sicd_run_object formats r0 c0 o qs) (XComplex (v ++ ".SICD/")).
Proof.
  intros Iv. induction qs as [|[b size] qs IH]; intros o d H M R Q; [exact R|]. inversion_clear Q as [|? ? Qb Qs]. cbn [fst] in Qb.
  cbn [sicd_run_object fold_left]. unfold sicd_step_object at 2. destruct (sicd_update_object formats r0 c0 o (b, size)) as [o1|e] eqn:E; cbn [fst].
  - destruct (sicd_update_held F D T L num v o d b r0 c0 size LO Iv H M (sicd_update_size _ _ _ _ _ _ E)) as (o1' & E' & H1 & M1). rewrite E in E'. injection E' as <-.
    apply (IH o1 _ H1 M1 (sicd_update_renders v o r0 c0 b size o1 Iv H R Qb E) Qs).
  - apply (IH o d H M R Qs).
Qed.
(** What the image data of a valid SICD object holds is in the range of xs:int. *)
Lemma sicd_image_in_int num v o d : In v ["sicd121"; "sicd130"] -> shaped L formats (stable L formats) (TClass (v ++ ".SICD")) o -> renders o (XComplex (v ++ ".SICD/")) ->
  sicd_meta num formats o = Ok d -> let m := image_data d in in_int (first_row m) /\ in_int (first_col m) /\ in_int (num_rows m) /\ in_int (num_cols m).
Proof.
  intros Iv H R M. destruct (sicd_fits v Iv) as (Fs & Fi & (f & Ef & K & Tf & El) & Fa).
  assert (G : exists im, get formats o "image_data" = Ok im /\ get_integer formats im "first_row" = Ok (first_row (image_data d)) /\ get_integer formats im "first_col" = Ok (first_col (image_data d)) /\
    num_rows (image_data d) = or_zero (get_integer formats im "num_rows") /\ num_cols (image_data d) = or_zero (get_integer formats im "num_cols")).
  { unfold sicd_meta in M. destruct (get formats o "image_data") as [im|]; cbn [bind] in M.
    2: { repeat match type of M with bind ?r _ = _ => destruct r; cbn [bind] in M; [|discriminate] end. discriminate. }
    exists im. split; [reflexivity|]. repeat match type of M with bind ?r _ = _ => destruct r eqn:?; cbn [bind] in M; [|discriminate] end.
    destruct (grid_type_of _); [|discriminate]. repeat match type of M with bind ?r _ = _ => destruct r; cbn [bind] in M; [|discriminate] end. injection M as <-. repeat split; cbn; assumption || reflexivity. }
  destruct G as (im & Gi & G1 & G2 & G3 & G4).
  destruct (get_field L formats _ _ o _ f H Ef) as (s & Gs & _ & Hs). rewrite (slot_of_get formats o _ _ Gi) in Gs. injection Gs as <-.
  inversion_clear Hs as [|? ? Hi _]. rewrite Tf in Hi. apply shaped_inst_of in Hi as I0. pose proof (shaped_inst_of L formats _ _ o H) as Io.
  pose proof (get_renders L X formats C96_tables all_types class_types C98_classes_fit _ _ o _ f _ _ _ _ Fs Io R Ef K El (slot_of_get formats o _ _ Gi)) as R0. inversion_clear R0 as [|? ? R0' _].
  assert (Y : forall a z, In a ["first_row"; "first_col"; "num_rows"; "num_cols"] -> get_integer formats im a = Ok z -> in_int z).
  { intros a z Ia G. destruct (Fa a Ia) as (g & Eg & Kg & Elg). unfold get_integer in G. destruct (get formats im a) as [w|] eqn:Ga; [|discriminate].
    pose proof (get_renders L X formats C96_tables all_types class_types C98_classes_fit _ _ im _ g _ _ _ _ Fi I0 R0' Eg Kg Elg (slot_of_get formats im _ _ Ga)) as Rw.
    inversion_clear Rw as [|? ? Rw' _]. destruct w as [[]|]; try discriminate. cbn in G. injection G as <-. apply int_renders, Rw'. }
  assert (Y' : forall a, In a ["first_row"; "first_col"; "num_rows"; "num_cols"] -> in_int (or_zero (get_integer formats im a))).
  { intros a Ia. destruct (get_integer formats im a) as [z|] eqn:E; cbn [or_zero]; [apply (Y a z Ia E)|unfold in_int; lia]. }
  cbn zeta. rewrite G3, G4. split; [apply (Y "first_row" _ ltac:(cbn; tauto) G1)|]. split; [apply (Y "first_col" _ ltac:(cbn; tauto) G2)|]. split; apply Y'; cbn; tauto.
Qed.
End Documents.

(** *** Valid documents are parsed and rendered *)

(** A document that is valid against its schema is parsed to an object of the class of its root
    element, typed and complete, and rendered from that to a valid document with the same root element,
    which parses to the same object.  (XML Schema allows empty lists too; see below.) *)
Theorem C98_valid_documents : forall F D T (L : Lexical F D T) (X : XsdTexts F D T), lexical_ok L -> agrees X L ->
  forall x, valid_document X false x ->
  exists c o y, In (c, tag x) roots /\ parse_document L formats x = Ok o /\ typed L formats (TClass c) o /\ complete formats o /\
    render_document L formats o = Some y /\ tag y = tag x /\ valid_document X false y /\ parse_document L formats y = Ok o.
Proof.
  intros F D T L X LO AG x V. destruct (valid_document_parsed L X LO AG x V) as (c & o & Ic & Po & To & Co & Ro).
  destruct (renders_document L X c _ o Ic (shaped_inst_of L formats _ _ _ To) Ro) as (y & Ry & Ty & Vy).
  destruct (C96_documents F D T L LO c _ Ic o To) as (y' & Ry' & _ & Py). rewrite Ry in Ry'. injection Ry' as <-.
  exists c, o, y. repeat (split; [assumption|]). exact Py.
Qed.
Print Assumptions C98_valid_documents.

(** The sensor model builders find everything they read in a valid document: of SICD always, with the
    parts of its grid and algorithm when their elements are there; of SIDD when it has a plane
    projection. *)
Theorem C98_builders : forall F D T (L : Lexical F D T) (X : XsdTexts F D T) (num : F -> R), lexical_ok L -> agrees X L ->
  forall x, valid_document X false x ->
  exists o, parse_document L formats x = Ok o /\
    (snd (tag x) = "SICD" -> exists d, sicd_meta num formats o = Ok d /\ (forall p, get formats o "pfa" = Ok p -> pfa_meta d <> None) /\
       (forall p, get formats o "rg_az_comp" = Ok p -> az_sf d <> None) /\ (forall p, get_path formats o ["rma"; "inca"] = Ok p -> inca_meta d <> None)) /\
    (snd (tag x) = "SIDD" -> forall p, get_path formats o ["measurement"; "plane_projection"] = Ok p -> exists d, sidd_meta num formats o = Ok d).
Proof.
  intros F D T L X num LO AG x V. destruct (valid_document_parsed L X LO AG x V) as (c & o & Ic & Po & To & Co & _). exists o. split; [exact Po|]. split; intros R.
  - assert (Iv : exists v, In v ["sicd121"; "sicd130"] /\ c = v ++ ".SICD").
    { cbn [roots In] in Ic. decompose [or] Ic; try contradiction; (match goal with H : _ = (c, tag x) |- _ => injection H as <- E; rewrite <- E in R end); try discriminate;
        [exists "sicd121"|exists "sicd130"]; split; cbn; tauto. }
    destruct Iv as (v & Iv & ->). apply (C97_sicd_complete F D T L num v Iv o To Co).
  - assert (Iv : exists v, In v ["sidd100"; "sidd200"; "sidd300"] /\ c = v ++ ".SIDD").
    { cbn [roots In] in Ic. decompose [or] Ic; try contradiction; (match goal with H : _ = (c, tag x) |- _ => injection H as <- E; rewrite <- E in R end); try discriminate;
        [exists "sidd100"|exists "sidd200"|exists "sidd300"]; split; cbn; tauto. }
    destruct Iv as (v & Iv & ->). apply (C97_sidd_complete F D T L num v Iv o To Co).
Qed.
Print Assumptions C98_builders.

(** *** Valid documents are updated *)

Lemma sicd_class c q : In (c, q) roots -> snd q = "SICD" -> exists v, In v ["sicd121"; "sicd130"] /\ c = v ++ ".SICD".
Proof.
  intros I R. cbn [roots In] in I. decompose [or] I; try contradiction; (match goal with H : _ = (c, q) |- _ => injection H as <- E; subst q end); try discriminate;
    [exists "sicd121"|exists "sicd130"]; split; cbn; tauto.
Qed.
(** A valid SICD document updated for any chips whose positions and sizes are in the range of xs:int is
    rendered to a valid document, of which the builder reads what the record model of the updater has. *)
Theorem C98_sicd_updates : forall F D T (L : Lexical F D T) (X : XsdTexts F D T) (num : F -> R), lexical_ok L -> agrees X L ->
  forall x, valid_document X false x -> snd (tag x) = "SICD" ->
  exists o d, parse_document L formats x = Ok o /\ sicd_meta num formats o = Ok d /\
  let r0 := first_row (image_data d) in let c0 := first_col (image_data d) in
  forall qs, Forall (fun q => chip_in_int r0 c0 (fst q)) qs ->
  exists y, render_document L formats (sicd_run_object formats r0 c0 o qs) = Some y /\ tag y = tag x /\ valid_document X false y /\
    bind (parse_document L formats y) (sicd_meta num formats) = Ok (sicd_doc (sicd_run (sicd_updater d) qs)).
Proof.
  intros F D T L X num LO AG x V R. destruct (valid_document_parsed L X LO AG x V) as (c & o & Ic & Po & To & Co & Ro).
  destruct (sicd_class c _ Ic R) as (v & Iv & ->). destruct (C97_sicd_complete F D T L num v Iv o To Co) as (d & M & _). exists o, d. split; [exact Po|]. split; [exact M|].
  intros r0 c0 qs Q. destruct (C97_sicd_updates F D T L num LO x o d Po R M qs) as (y & Ry & Ty & Py & My). fold r0 c0 in Ry, Py, My. assert (R1 : snd (tag y) = "SICD") by (rewrite Ty; exact R). exists y. split; [exact Ry|]. split; [exact Ty|]. split.
  - assert (H : shaped L formats (stable L formats) (TClass (v ++ ".SICD")) o) by (apply (typed_held L formats LO C96_tables), To).
    replace ((v ++ ".SICD") ++ "/") with (v ++ ".SICD/") in Ro by (cbn [In] in Iv; decompose [or] Iv; try contradiction; subst v; reflexivity).
    pose proof (sicd_run_renders L X LO AG num v r0 c0 Iv qs o d H M Ro Q) as R'.
    replace (v ++ ".SICD/") with ((v ++ ".SICD") ++ "/") in R' by (cbn [In] in Iv; decompose [or] Iv; try contradiction; subst v; reflexivity).
    assert (Io : inst_of formats (v ++ ".SICD") (sicd_run_object formats r0 c0 o qs)).
    { destruct (sicd_root F D T L y _ LO Py R1) as (v' & Iv' & H'). apply shaped_inst_of in H' as Io.
      assert (E : (v' ++ ".SICD") = (v ++ ".SICD")). { apply (root_class_unique _ _ (tag y)); [|rewrite Ty; exact Ic].
        destruct (C96_versions F D T L y _ Py (or_introl R1)) as (c' & slots & Ec' & I'). rewrite Ec' in H'. destruct H' as [E' _]. injection E' as <-. exact I'. }
      rewrite <- E. exact Io. }
    destruct (renders_document L X _ _ _ Ic Io R') as (y' & Ry' & _ & Vy). rewrite Ry in Ry'. injection Ry' as <-. exact Vy.
  - rewrite Py. exact My.
Qed.
Print Assumptions C98_sicd_updates.

(** A chip outside that range is written too, to a document that is not valid. *)
Theorem C98_sicd_range : forall F D T (L : Lexical F D T) (X : XsdTexts F D T) (num : F -> R), lexical_ok L -> agrees X L ->
  forall x, valid_document X false x -> snd (tag x) = "SICD" ->
  exists o d, parse_document L formats x = Ok o /\ sicd_meta num formats o = Ok d /\
  let r0 := first_row (image_data d) in let c0 := first_col (image_data d) in
  forall b, exists o' y, sicd_update_object formats r0 c0 o (b, None) = Ok o' /\ render_document L formats o' = Some y /\
    (valid_document X false y <-> chip_in_int r0 c0 b).
Proof.
  intros F D T L X num LO AG x V R. destruct (C98_sicd_updates F D T L X num LO AG x V R) as (o & d & Po & M & U). exists o, d. split; [exact Po|]. split; [exact M|].
  intros r0 c0 b. destruct (sicd_root F D T L x o LO Po R) as (v & Iv & H).
  destruct (sicd_update_held F D T L num v o d b r0 c0 None LO Iv H M (or_introl eq_refl)) as (o' & E & H' & M').
  destruct (C97_sicd_updates F D T L num LO x o d Po R M [(b, None)]) as (y & Ry & Ty & Py & My). fold r0 c0 in Ry, Py, My. assert (R1 : snd (tag y) = "SICD") by (rewrite Ty; exact R).
  assert (Eo : sicd_run_object formats r0 c0 o [(b, None)] = o') by (cbn [sicd_run_object fold_left]; unfold sicd_step_object; rewrite E; reflexivity). rewrite Eo in Ry, Py, My.
  exists o', y. split; [exact E|]. split; [exact Ry|]. split.
  - intros Vy. destruct (valid_document_parsed L X LO AG y Vy) as (c & o1 & Ic & Po1 & _ & _ & Ro1). rewrite Py in Po1. injection Po1 as <-.
    assert (Ec : c ++ "/" = v ++ ".SICD/").
    { destruct (sicd_class c _ Ic R1) as (v' & Iv' & ->).
      destruct (C96_versions F D T L y _ Py (or_introl R1)) as (c' & slots & Ec' & I'). rewrite Ec' in H'. destruct H' as [E' _]. injection E' as <-.
      rewrite (root_class_unique _ _ _ Ic I'). cbn [In] in Iv; decompose [or] Iv; try contradiction; subst v; reflexivity. }
    rewrite Ec in Ro1. pose proof (sicd_image_in_int L X LO AG num v o' _ Iv H' Ro1 M') as Z. cbn in Z. exact Z.
  - intros Q. destruct (U [(b, None)] (Forall_cons (b, None) Q (Forall_nil _))) as (y' & Ry' & _ & Vy & _). fold r0 c0 in Ry'. rewrite Eo, Ry in Ry'. injection Ry' as <-. exact Vy.
Qed.
Print Assumptions C98_sicd_range.
