(** Properties of SICD and SIDD documents as the builders and updaters see them: C97. *)
Require Import ZArith Reals String List Bool Lia.
Require Import Verif.Base Verif.Vec Verif.SicdModel Verif.SarMetaModel Verif.SarMetaProps Verif.SchemaModel Verif.SchemaSpec Verif.SchemaProofs Verif.SchemaProps
  Verif.SarDocModel Verif.SarDocProofs Verif.SchemaCheck Verif.ExampleDocs.
Import ListNotations.
Local Open Scope string_scope.

(** ** C97: documents, updaters and builders *)

(** *** SICD documents that are updated *)

Lemma sicd_root F D T (L : Lexical F D T) x o : lexical_ok L -> parse_document L formats x = Ok o -> snd (tag x) = "SICD" ->
  exists v, In v ["sicd121"; "sicd130"] /\ shaped L formats (stable L formats) (TClass (v ++ ".SICD")) o.
Proof.
  intros LO E R. destruct (C96_versions F D T L x o E (or_introl R)) as (c & slots & -> & I).
  assert (H : shaped L formats (stable L formats) (TClass c) (Inst c slots)).
  { unfold parse_document in E. destruct (find_root formats (tag x)) as [k|]; [|discriminate].
    pose proof (parse_held L formats LO C96_tables x _ _ E) as H. destruct H as [Ec H]. split; [reflexivity|exact H]. }
  cbn [roots In] in I. decompose [or] I; clear I; try contradiction; (match goal with Q : _ = (c, tag x) |- _ => injection Q as <- Q; rewrite <- Q in R end); try discriminate.
  - exists "sicd121". split; [left; reflexivity|exact H].
  - exists "sicd130". split; [right; left; reflexivity|exact H].
Qed.
Lemma held_document F D T (L : Lexical F D T) c q o : lexical_ok L -> In (c, q) roots -> shaped L formats (stable L formats) (TClass c) o ->
  exists y, render_document L formats o = Some y /\ tag y = q /\ parse_document L formats y = Ok o.
Proof.
  intros LO I H. destruct (root_classes c q I) as (k & Ec & Er & Eq & En).
  destruct o as [v|c' slots]; [destruct H as [[] _]|]. pose proof H as [E _]. injection E as <-.
  cbn [render_document]. rewrite Ec. cbn [option_map]. eexists. split; [reflexivity|].
  rewrite Eq. split; [apply tag_render|]. unfold parse_document. rewrite tag_render, Er, En. apply (round_trip L formats LO C96_tables), H.
Qed.
Lemma held_int F D T (L : Lexical F D T) z : lexical_ok L -> shaped L formats (stable L formats) (TPrim PInt) (Leaf (VInt z)).
Proof. intros LO. split; [exact I|]. unfold stable. cbn. destruct LO as [E _]. rewrite E. reflexivity. Qed.
(** An integer element that can be given another value. *)
Lemma set_int F D T (L : Lexical F D T) c a f o z : lexical_ok L -> shaped L formats (stable L formats) (TClass c) o ->
  field_of formats c a = Some f -> ty f = TPrim PInt -> mult f = One -> default f = NoDefault -> kind f = Element ->
  exists o', set_slot formats o a [Leaf (VInt z)] = Ok o' /\ shaped L formats (stable L formats) (TClass c) o' /\
             get_integer formats o' a = Ok z /\ (forall b, b <> a -> get_slot formats o' b = get_slot formats o b).
Proof.
  intros LO H E Et Em Ed Ek. destruct (set_field L formats _ c o a f [Leaf (VInt z)] H E) as (o' & S' & H' & G & O).
  - unfold slot_ok. rewrite Ed, Em. split; [cbn; lia|]. rewrite Ek. discriminate.
  - rewrite Et. constructor; [apply held_int, LO|constructor].
  - exists o'. split; [exact S'|]. split; [exact H'|]. split; [|exact O]. unfold get_integer. rewrite (get_of_slot formats o' a _ G). reflexivity.
Qed.

Lemma sicd_update_held F D T (L : Lexical F D T) num v o d b r0 c0 size : lexical_ok L -> In v ["sicd121"; "sicd130"] ->
  shaped L formats (stable L formats) (TClass (v ++ ".SICD")) o -> sicd_meta num formats o = Ok d -> size = None \/ size = Some (bw b, bh b) ->
  exists o', sicd_update_object formats r0 c0 o (b, size) = Ok o' /\ shaped L formats (stable L formats) (TClass (v ++ ".SICD")) o' /\
             sicd_meta num formats o' = Ok (with_image_data d (mkImageData (bh b) (bw b) (r0 + by_ b) (c0 + bx b))).
Proof.
  intros LO Iv H M Z. unfold sicd_update_object.
  assert (Ez : match snd (b, size) with Some (w, h) => (negb (w =? bw (fst (b, size))) || negb (h =? bh (fst (b, size))))%Z | None => false end = false).
  { destruct Z as [-> | ->]; [reflexivity|]. cbn. rewrite !Z.eqb_refl. reflexivity. }
  rewrite Ez. clear Ez. cbn [fst].
  assert (Gi : exists im, get formats o "image_data" = Ok im).
  { unfold sicd_meta in M. destruct (get_path formats o _) as [e|]; [|discriminate]. cbn [bind] in M. destruct (vector num formats e); [|discriminate]. cbn [bind] in M.
    destruct (get formats o "image_data") as [im|]; [|discriminate]. exists im. reflexivity. }
  destruct Gi as [im Gi]. rewrite Gi. cbn [bind].
  assert (Fi : exists f, field_of formats (v ++ ".SICD") "image_data" = Some f /\ ty f = TClass (v ++ ".ImageDataType") /\ mult f = One /\ default f = NoDefault /\ kind f = Element).
  { cbn [In] in Iv. decompose [or] Iv; subst; try contradiction; eexists; (split; [vm_compute; reflexivity|]); repeat split. }
  destruct Fi as (fi & Efi & Tfi & Mfi & Dfi & Kfi).
  assert (Fn : forall a, In a ["first_row"; "first_col"; "num_rows"; "num_cols"] ->
    exists f, field_of formats (v ++ ".ImageDataType") a = Some f /\ ty f = TPrim PInt /\ mult f = One /\ default f = NoDefault /\ kind f = Element).
  { intros a Ia. cbn [In] in Iv, Ia. decompose [or] Iv; decompose [or] Ia; subst; try contradiction; eexists; (split; [vm_compute; reflexivity|]); repeat split. }
  destruct (get_field L formats _ _ o _ fi H Efi) as (s & Gs & _ & Hs). rewrite (slot_of_get formats o _ _ Gi) in Gs. injection Gs as <-.
  inversion_clear Hs as [|? ? Hi _]. rewrite Tfi in Hi.
  destruct (Fn "first_row" ltac:(cbn; tauto)) as (f1 & E1 & T1 & M1 & D1 & K1). destruct (Fn "first_col" ltac:(cbn; tauto)) as (f2 & E2 & T2 & M2 & D2 & K2).
  destruct (Fn "num_rows" ltac:(cbn; tauto)) as (f3 & E3 & T3 & M3 & D3 & K3). destruct (Fn "num_cols" ltac:(cbn; tauto)) as (f4 & E4 & T4 & M4 & D4 & K4).
  destruct (set_int _ _ _ L _ _ f1 im (r0 + by_ b) LO Hi E1 T1 M1 D1 K1) as (i1 & S1 & H1 & G1 & O1). rewrite S1. cbn [bind].
  destruct (set_int _ _ _ L _ _ f2 i1 (c0 + bx b) LO H1 E2 T2 M2 D2 K2) as (i2 & S2 & H2 & G2 & O2). rewrite S2. cbn [bind].
  destruct (set_int _ _ _ L _ _ f3 i2 (bh b) LO H2 E3 T3 M3 D3 K3) as (i3 & S3 & H3 & G3 & O3). rewrite S3. cbn [bind].
  destruct (set_int _ _ _ L _ _ f4 i3 (bw b) LO H3 E4 T4 M4 D4 K4) as (i4 & S4 & H4 & G4 & O4). rewrite S4. cbn [bind].
  destruct (set_field L formats _ _ o "image_data" fi [i4] H Efi) as (o' & So & Ho & Go & Oo).
  { unfold slot_ok. rewrite Dfi, Mfi. split; [cbn; lia|]. rewrite Kfi. discriminate. }
  { rewrite Tfi. constructor; [exact H4|constructor]. }
  exists o'. split; [exact So|]. split; [exact Ho|].
  apply (sicd_changed formats num o o' im i4 d); try assumption.
  - apply get_of_slot, Go.
  - unfold get. rewrite (O4 "scppixel"), (O3 "scppixel"), (O2 "scppixel"), (O1 "scppixel") by discriminate. reflexivity.
  - unfold get_integer, get. rewrite (O4 "first_row"), (O3 "first_row"), (O2 "first_row") by discriminate. exact G1.
  - unfold get_integer, get. rewrite (O4 "first_col"), (O3 "first_col") by discriminate. exact G2.
  - unfold get_integer, get. rewrite (O4 "num_rows") by discriminate. exact G3.
Qed.

(** The updater made of a SICD document, after any chips: the document it holds can be rendered, with
    the same root element; parsing that gives the document again; and what the sensor model builder
    reads of it is what the record model of the updater (C38 to C40, C75, C86) has. *)
Theorem C97_sicd_updates : forall F D T (L : Lexical F D T) (num : F -> R), lexical_ok L ->
  forall x o d, parse_document L formats x = Ok o -> snd (tag x) = "SICD" -> sicd_meta num formats o = Ok d ->
  forall qs, let o' := sicd_run_object formats (first_row (image_data d)) (first_col (image_data d)) o qs in
  exists y, render_document L formats o' = Some y /\ tag y = tag x /\ parse_document L formats y = Ok o' /\
            sicd_meta num formats o' = Ok (sicd_doc (sicd_run (sicd_updater d) qs)).
Proof.
  intros F D T L num LO x o d E R M qs o'. destruct (sicd_root F D T L x o LO E R) as (v & Iv & H).
  assert (Q : In (v ++ ".SICD", tag x) roots).
  { destruct (C96_versions F D T L x o E (or_introl R)) as (c & slots & -> & I). destruct H as [Ec _]. injection Ec as ->. exact I. }
  assert (X : forall qs o d u, shaped L formats (stable L formats) (TClass (v ++ ".SICD")) o -> sicd_meta num formats o = Ok d -> sicd_doc u = d ->
    shaped L formats (stable L formats) (TClass (v ++ ".SICD")) (sicd_run_object formats (original_first_row u) (original_first_col u) o qs) /\
    sicd_meta num formats (sicd_run_object formats (original_first_row u) (original_first_col u) o qs) = Ok (sicd_doc (sicd_run u qs))).
  { clear - LO Iv. induction qs as [|[b size] qs IH]; intros o d u H M U; [split; [exact H|cbn; rewrite U; exact M]|].
    cbn [sicd_run_object sicd_run fold_left]. unfold sicd_step_object at 2 4.
    assert (C : (size = None \/ size = Some (bw b, bh b)) \/ exists w h, size = Some (w, h) /\ (w, h) <> (bw b, bh b)).
    { destruct size as [[w h]|]; [|left; left; reflexivity]. destruct (Z.eq_dec w (bw b)) as [->|N]; [destruct (Z.eq_dec h (bh b)) as [->|N]|]; [left; right; reflexivity| |];
        right; do 2 eexists; (split; [reflexivity|]); congruence. }
    destruct C as [C|(w & h & -> & N)].
    - destruct (sicd_update_held F D T L num v o d b (original_first_row u) (original_first_col u) size LO Iv H M C) as (o1 & E1 & H1 & M1). rewrite E1. cbn [fst].
      assert (U1 : fst (sicd_update u (b, size)) = mkSicdUpdater (with_image_data d (mkImageData (bh b) (bw b) (original_first_row u + by_ b) (original_first_col u + bx b))) (original_first_row u) (original_first_col u)).
      { unfold sicd_update. cbn [fst snd]. rewrite U. destruct C as [-> | ->]; [reflexivity|]. rewrite !Z.eqb_refl. reflexivity. }
      rewrite U1. apply (IH o1 _ (mkSicdUpdater _ (original_first_row u) (original_first_col u)) H1 M1 eq_refl).
    - assert (Eo : sicd_update_object formats (original_first_row u) (original_first_col u) o (b, Some (w, h)) = Err ValueError).
      { unfold sicd_update_object. cbn [fst snd]. destruct (Z.eqb_spec w (bw b)) as [->|]; [|reflexivity]. destruct (Z.eqb_spec h (bh b)) as [->|]; [congruence|reflexivity]. }
      rewrite Eo, (C39_scaling_refused u b w h N). cbn [fst]. apply (IH o d u H M U). }
  destruct (X qs o d (sicd_updater d) H M eq_refl) as [H' M']. change (original_first_row (sicd_updater d)) with (first_row (image_data d)) in *.
  change (original_first_col (sicd_updater d)) with (first_col (image_data d)) in *. fold o' in H', M'.
  destruct (held_document F D T L _ _ o' LO Q H') as (y & Ry & Ty & Py). exists y. repeat split; assumption.
Qed.
Print Assumptions C97_sicd_updates.

(** A request for a chip is refused, with ValueError, only when it asks for another size than its own. *)
Theorem C97_sicd_refused : forall F D T (L : Lexical F D T) (num : F -> R), lexical_ok L ->
  forall x o d, parse_document L formats x = Ok o -> snd (tag x) = "SICD" -> sicd_meta num formats o = Ok d ->
  forall r0 c0 q, snd (sicd_step_object formats r0 c0 o q)
    = match snd q with Some s => if (fst s =? bw (fst q))%Z && (snd s =? bh (fst q))%Z then Ok tt else Err ValueError | None => Ok tt end.
Proof.
  intros F D T L num LO x o d E R M r0 c0 [b size]. destruct (sicd_root F D T L x o LO E R) as (v & Iv & H).
  unfold sicd_step_object. cbn [fst snd]. destruct size as [[w h]|].
  - cbn [fst snd]. destruct ((w =? bw b)%Z && (h =? bh b)%Z)%bool eqn:Z.
    + apply andb_true_iff in Z as [Zw Zh]. apply Z.eqb_eq in Zw, Zh. subst.
      destruct (sicd_update_held F D T L num v o d b r0 c0 (Some (bw b, bh b)) LO Iv H M (or_intror eq_refl)) as (o1 & E1 & _). rewrite E1. reflexivity.
    + unfold sicd_update_object. cbn [fst snd]. rewrite <- negb_andb, Z. reflexivity.
  - destruct (sicd_update_held F D T L num v o d b r0 c0 None LO Iv H M (or_introl eq_refl)) as (o1 & E1 & _). rewrite E1. reflexivity.
Qed.
Print Assumptions C97_sicd_refused.

(** *** What complete documents have *)

Ltac lookup := vm_compute; reflexivity.
Ltac table := repeat (apply Forall_cons; [lookup|]); apply Forall_nil.
(** The required part [a] of [o]. *)
Ltac take o a x :=
  match goal with
  | H : typed ?L formats (TClass ?c) o, C : complete formats o |- _ =>
    let t := eval vm_compute in (child formats c a) in
    match t with Some ?t => let G := fresh "G" in let Tx := fresh "T" in let Cx := fresh "C" in
      destruct (got L formats c a t o ltac:(lookup) H C) as (x & G & Tx & Cx) end
  end.
Ltac take_int o a :=
  match goal with H : typed ?L formats (TClass ?c) o, C : complete formats o |- _ =>
    let z := fresh "z" in let E := fresh "E" in destruct (get_integer_ok L formats c a o ltac:(lookup) H C) as [z E] end.
Ltac take_number num o a :=
  match goal with H : typed ?L formats (TClass ?c) o, C : complete formats o |- _ =>
    let z := fresh "r" in let E := fresh "E" in destruct (get_number_ok L formats num c a o ltac:(lookup) H C) as [z E] end.
Ltac as_vector num o :=
  match goal with H : typed ?L formats (TClass ?c) o, C : complete formats o |- _ =>
    let v := fresh "v" in let E := fresh "E" in destruct (vector_ok L formats num c o ltac:(table) H C) as [v E] end.
Ltac as_corner num o :=
  match goal with H : typed ?L formats (TClass ?c) o, C : complete formats o |- _ =>
    let v := fresh "v" in let E := fresh "E" in destruct (corner_ok L formats num c o ltac:(table) H C) as [v E] end.
Ltac coef_class c := let t := eval vm_compute in (children formats c "coef") in match t with Some (TClass ?k) => k end.
Ltac as_poly1 num o :=
  match goal with H : typed ?L formats (TClass ?c) o, C : complete formats o |- _ =>
    let k := coef_class c in
    let v := fresh "v" in let E := fresh "E" in destruct (poly1_ok L formats num c k o ltac:(split; [table|split; [lookup|table]]) H C) as [v E] end.
Ltac as_poly2 num o :=
  match goal with H : typed ?L formats (TClass ?c) o, C : complete formats o |- _ =>
    let k := coef_class c in
    let v := fresh "v" in let E := fresh "E" in destruct (poly2_ok L formats num c k o ltac:(split; [table|split; [lookup|table]]) H C) as [v E] end.
Ltac as_xyzpoly num o :=
  match goal with H : typed ?L formats (TClass ?c) o, C : complete formats o |- _ =>
    let t := eval vm_compute in (child formats c "x") in
    match t with Some (TClass ?p) =>
      let k := coef_class p in
      let v := fresh "v" in let E := fresh "E" in
      destruct (xyzpoly_ok L formats num c p k o ltac:(split; [table|split; [table|split; [lookup|table]]]) H C) as [v E] end end.
(** The optional part [a] of [o], known to be [x]. *)
Ltac typed_part o a x :=
  match goal with
  | H : typed ?L formats (TClass ?c) o, C : complete formats o, G : get formats o a = Ok x |- _ =>
    let t := eval vm_compute in (maybe formats c a) in
    match t with Some ?t => let Tx := fresh "T" in let Cx := fresh "C" in destruct (got_optional L formats c a t o x ltac:(lookup) H C G) as [Tx Cx] end
  end.
Ltac rewrite_known := repeat (match goal with G : _ = Ok _ |- _ => rewrite G end; cbn [bind]).

(** A complete SICD document of either version has everything the sensor model builder reads: the
    parts it always reads are required by the schema, and those it reads for a grid or an algorithm
    are there when their element is. *)
Theorem C97_sicd_complete : forall F D T (L : Lexical F D T) (num : F -> R) v, In v ["sicd121"; "sicd130"] ->
  forall o, typed L formats (TClass (v ++ ".SICD")) o -> complete formats o ->
  exists d, sicd_meta num formats o = Ok d /\
    (forall p, get formats o "pfa" = Ok p -> pfa_meta d <> None) /\
    (forall p, get formats o "rg_az_comp" = Ok p -> az_sf d <> None) /\
    (forall p, get_path formats o ["rma"; "inca"] = Ok p -> inca_meta d <> None).
Proof.
  intros F D T L num v Iv o H C.
  assert (X : exists g sc e im px gd coa psn arp gr gc ur uc tv fm al co ap av sd,
    get formats o "geo_data" = Ok g /\ get formats g "scp" = Ok sc /\ get formats sc "ecf" = Ok e /\ is_ok (vector num formats e) /\
    get formats o "image_data" = Ok im /\ get formats im "scppixel" = Ok px /\ is_ok (get_integer formats px "col") /\ is_ok (get_integer formats px "row") /\
    is_ok (get_integer formats im "first_row") /\ is_ok (get_integer formats im "first_col") /\
    get formats o "grid" = Ok gd /\ get formats gd "time_coapoly" = Ok coa /\ is_ok (poly2 num formats coa) /\
    get formats o "position" = Ok psn /\ get formats psn "arppoly" = Ok arp /\ is_ok (xyzpoly num formats arp) /\
    get formats gd "row" = Ok gr /\ get formats gd "col" = Ok gc /\ get formats gr "uvect_ecf" = Ok ur /\ is_ok (vector num formats ur) /\
    get formats gc "uvect_ecf" = Ok uc /\ is_ok (vector num formats uc) /\ is_ok (get_number num formats gr "ss") /\ is_ok (get_number num formats gc "ss") /\
    get formats gd "type_value" = Ok tv /\ (exists m t, enum_value tv = Ok m /\ grid_type_of m = Some t) /\
    get formats o "image_formation" = Ok fm /\ get formats fm "image_form_algo" = Ok al /\ is_ok (enum_value al) /\
    get formats o "scpcoa" = Ok co /\ get formats co "arppos" = Ok ap /\ is_ok (vector num formats ap) /\ get formats co "arpvel" = Ok av /\ is_ok (vector num formats av) /\
    get formats co "side_of_track" = Ok sd /\ is_ok (enum_value sd)).
  { cbn [In] in Iv. decompose [or] Iv; try contradiction; subst v; cbn [append] in H.
    all: take o "geo_data" g; take g "scp" sc; take sc "ecf" e; as_vector num e.
    all: take o "image_data" im; take im "scppixel" px; take_int px "col"; take_int px "row"; take_int im "first_row"; take_int im "first_col".
    all: take o "grid" gd; take gd "time_coapoly" coa; as_poly2 num coa; take o "position" psn; take psn "arppoly" arp; as_xyzpoly num arp.
    all: take gd "row" gr; take gd "col" gc; take gr "uvect_ecf" ur; as_vector num ur; take gc "uvect_ecf" uc; as_vector num uc; take_number num gr "ss"; take_number num gc "ss".
    all: take gd "type_value" tv; take o "image_formation" fm; take fm "image_form_algo" al.
    all: take o "scpcoa" co; take co "arppos" ap; as_vector num ap; take co "arpvel" av; as_vector num av; take co "side_of_track" sd.
    all: repeat match goal with Tv : typed ?L formats (TEnum ?e) ?x |- _ =>
           let m := fresh "m" in let Em := fresh "Em" in let Im := fresh "Im" in destruct (enum_ok_value L formats e x Tv) as (m & Em & Im); clear Tv end.
    all: repeat match goal with J : In ?m (values formats _) |- _ =>
           first [ assert (exists t, grid_type_of m = Some t) by (vm_compute in J; decompose [or] J; try contradiction; subst m; eexists; reflexivity); clear J | clear J ] end.
    all: match goal with Y : exists t, _ = Some t |- _ => destruct Y end.
    all: repeat eexists; eassumption. }
  assert (P : forall p, get formats o "pfa" = Ok p -> exists q, pfa_of num formats o = Ok q).
  { intros p Gp. cbn [In] in Iv. decompose [or] Iv; try contradiction; subst v; cbn [append] in H.
    all: typed_part o "pfa" p; take p "fpn" n; as_vector num n; take p "polar_ang_poly" pa; as_poly1 num pa; take p "spatial_freq_sfpoly" sf; as_poly1 num sf.
    all: unfold pfa_of; rewrite_known; eexists; reflexivity. }
  assert (Q : forall p, get formats o "rg_az_comp" = Ok p -> exists q, az_sf_of num formats o = Ok q).
  { intros p Gp. cbn [In] in Iv. decompose [or] Iv; try contradiction; subst v; cbn [append] in H.
    all: typed_part o "rg_az_comp" p; take_number num p "az_sf"; unfold az_sf_of; rewrite_known; eexists; reflexivity. }
  assert (R : forall p, get_path formats o ["rma"; "inca"] = Ok p -> exists q, inca_of num formats o = Ok q).
  { cbn [get_path]. intros p Gp. destruct (get formats o "rma") as [r|] eqn:Gr; [|discriminate]. cbn [bind] in Gp.
    destruct (get formats r "inca") as [i|] eqn:Gi; [|discriminate]. cbn [In] in Iv. decompose [or] Iv; try contradiction; subst v; cbn [append] in H.
    all: typed_part o "rma" r; typed_part r "inca" i; take_number num i "r_ca_scp"; take i "time_capoly" tc; as_poly1 num tc; take i "drate_sfpoly" dr; as_poly2 num dr.
    all: unfold inca_of; rewrite_known; eexists; reflexivity. }
  clear H C Iv. decompose [ex and] X. unfold is_ok in *.
  repeat match goal with H : exists a, _ = Ok a |- _ => destruct H end.
  unfold sicd_meta, get_enum. cbn [get_path]. rewrite_known.
  match goal with H : grid_type_of _ = Some ?t |- _ => rewrite H; destruct t end; cbn [bind];
    (eexists; split; [reflexivity|]; cbn [pfa_meta az_sf inca_meta]; repeat split; intros p Gp;
      [destruct (P p Gp) as [q ->]|destruct (Q p Gp) as [q ->]|destruct (R p Gp) as [q ->]]; discriminate).
Qed.
Print Assumptions C97_sicd_complete.

(** A complete SIDD document of the three versions has everything the builder reads, the chip
    included, if it has a plane projection.  Documents of the other projections have no model. *)
Theorem C97_sidd_complete : forall F D T (L : Lexical F D T) (num : F -> R) v, In v ["sidd100"; "sidd200"; "sidd300"] ->
  forall o, typed L formats (TClass (v ++ ".SIDD")) o -> complete formats o ->
  (forall p, get_path formats o ["measurement"; "plane_projection"] = Ok p -> exists d, sidd_meta num formats o = Ok d) /\
  (forall e, get_path formats o ["measurement"; "plane_projection"] = Err e -> sidd_meta num formats o = Err e).
Proof.
  intros F D T L num v Iv o H C. split.
  - intros p Gp. cbn [get_path] in Gp. destruct (get formats o "measurement") as [m|] eqn:Gm; [|discriminate]. cbn [bind] in Gp.
    destruct (get formats m "plane_projection") as [p'|] eqn:Gp'; [|discriminate]. cbn [bind] in Gp. injection Gp as ->.
    assert (X : exists rp e pt coa arp pp ur uc sp,
      get formats p "reference_point" = Ok rp /\ get formats rp "ecef" = Ok e /\ is_ok (vector num formats e) /\ get formats rp "point" = Ok pt /\ is_ok (corner num formats pt) /\
      get formats p "time_coapoly" = Ok coa /\ is_ok (poly2 num formats coa) /\ get formats m "arppoly" = Ok arp /\ is_ok (xyzpoly num formats arp) /\
      get formats p "product_plane" = Ok pp /\ get formats pp "row_unit_vector" = Ok ur /\ is_ok (vector num formats ur) /\
      get formats pp "col_unit_vector" = Ok uc /\ is_ok (vector num formats uc) /\ get formats p "sample_spacing" = Ok sp /\ is_ok (corner num formats sp)).
    { cbn [In] in Iv. decompose [or] Iv; try contradiction; subst v; cbn [append] in H.
      all: typed_part o "measurement" m; typed_part m "plane_projection" p.
      all: take p "reference_point" rp; take rp "ecef" e; as_vector num e; take rp "point" pt; as_corner num pt; take p "time_coapoly" coa; as_poly2 num coa.
      all: take m "arppoly" arp; as_xyzpoly num arp; take p "product_plane" pp; take pp "row_unit_vector" ur; as_vector num ur; take pp "col_unit_vector" uc; as_vector num uc.
      all: take p "sample_spacing" sp; as_corner num sp.
      all: repeat eexists; eassumption. }
    assert (Y : exists c, chip_of num formats o = Ok c).
    { assert (A : exists s, get_slot formats o "downstream_reprocessing" = Ok s).
      { destruct (maybe formats (v ++ ".SIDD") "downstream_reprocessing") as [t|] eqn:Ed.
        - unfold maybe in Ed. destruct (field_of formats (v ++ ".SIDD") "downstream_reprocessing") as [f|] eqn:Ef; [|discriminate].
          destruct (get_field L formats _ _ o _ f H Ef) as (s & Es & _). exists s. exact Es.
        - exfalso. cbn [In] in Iv. decompose [or] Iv; try contradiction; subst v; vm_compute in Ed; discriminate. }
      destruct A as [s Es]. unfold chip_of. rewrite Es. cbn [bind]. destruct s as [|ds [|ds' r]]; [eexists; reflexivity| |eexists; reflexivity].
      apply get_of_slot in Es.
      assert (B : typed L formats (TClass (v ++ ".DownstreamReprocessingType")) ds /\ complete formats ds).
      { cbn [In] in Iv. decompose [or] Iv; try contradiction; subst v; cbn [append] in H |- *; typed_part o "downstream_reprocessing" ds; split; assumption. }
      destruct B as [Hd Cd].
      assert (A : exists s, get_slot formats ds "geometric_chip" = Ok s).
      { destruct (field_of formats (v ++ ".DownstreamReprocessingType") "geometric_chip") as [f|] eqn:Ef.
        - destruct (get_field L formats _ _ ds _ f Hd Ef) as (s & Eg & _). exists s. exact Eg.
        - exfalso. cbn [In] in Iv. decompose [or] Iv; try contradiction; subst v; vm_compute in Ef; discriminate. }
      destruct A as [s Eg]. rewrite Eg. cbn [bind]. destruct s as [|gc [|gc' r]]; [eexists; reflexivity| |eexists; reflexivity].
      apply get_of_slot in Eg. cbn [In] in Iv. decompose [or] Iv; try contradiction; subst v; cbn [append] in Hd.
      all: typed_part ds "geometric_chip" gc; take gc "chip_size" sz; take_int sz "row"; take_int sz "col".
      all: take gc "original_upper_left_coordinate" ul; as_corner num ul; take gc "original_upper_right_coordinate" uur; as_corner num uur.
      all: take gc "original_lower_right_coordinate" lr; as_corner num lr; take gc "original_lower_left_coordinate" ll; as_corner num ll.
      all: rewrite_known; eexists; reflexivity. }
    clear H C Iv. destruct Y as [c Y]. decompose [ex and] X. unfold is_ok in *.
    repeat match goal with H : exists a, _ = Ok a |- _ => destruct H end.
    unfold sidd_meta. rewrite_known. eexists. reflexivity.
  - intros e Ge. unfold sidd_meta. cbn [get_path] in Ge. destruct (get formats o "measurement") as [m|]; cbn [bind] in *; [|injection Ge as ->; reflexivity].
    destruct (get formats m "plane_projection") as [p|]; cbn [bind] in *; [discriminate|injection Ge as ->; reflexivity].
Qed.
Print Assumptions C97_sidd_complete.

(** *** SIDD documents that are updated *)

Lemma sidd_root F D T (L : Lexical F D T) x o : lexical_ok L -> parse_document L formats x = Ok o -> snd (tag x) = "SIDD" ->
  exists v, In v ["sidd100"; "sidd200"; "sidd300"] /\ In (v ++ ".SIDD", tag x) roots /\ shaped L formats (stable L formats) (TClass (v ++ ".SIDD")) o.
Proof.
  intros LO E R. destruct (C96_versions F D T L x o E (or_intror R)) as (c & slots & -> & I).
  assert (H : shaped L formats (stable L formats) (TClass c) (Inst c slots)).
  { unfold parse_document in E. destruct (find_root formats (tag x)) as [k|]; [|discriminate].
    pose proof (parse_held L formats LO C96_tables x _ _ E) as H. destruct H as [Ec H]. split; [reflexivity|exact H]. }
  pose proof I as J. cbn [roots In] in I. decompose [or] I; clear I; try contradiction; (match goal with Q : _ = (c, tag x) |- _ => injection Q as <- Q; rewrite <- Q in R end); try discriminate.
  - exists "sidd100". split; [left; reflexivity|]. split; assumption.
  - exists "sidd200". split; [right; left; reflexivity|]. split; assumption.
  - exists "sidd300". split; [right; right; left; reflexivity|]. split; assumption.
Qed.
Lemma any_document F D T (L : Lexical F D T) c q o : lexical_ok L -> In (c, q) roots -> shaped L formats (fun _ _ => True) (TClass c) o ->
  exists y, render_document L formats o = Some y /\ tag y = q /\ parse_document L formats y = Ok (reread L formats (TClass c) o).
Proof.
  intros LO I H. destruct (root_classes c q I) as (k & Ec & Er & Eq & En).
  destruct o as [v|c' slots]; [destruct H as [[] _]|]. pose proof H as [E _]. injection E as <-.
  cbn [render_document]. rewrite Ec. cbn [option_map]. eexists. split; [reflexivity|].
  rewrite Eq. split; [apply tag_render|]. unfold parse_document. rewrite tag_render, Er, En. apply C96_rewritten; assumption.
Qed.

(** Integers up to 2^53 are written as texts that are read as the floats equal to them. *)
Definition whole_numbers {F D T} (L : Lexical F D T) (num : F -> R) : Prop :=
  forall z, (Z.abs z <= 2 ^ 53)%Z -> exists f, read_float L (show_int L z) = Some f /\ num f = IZR z.
(** A value that can stand for the number [r] in a chip corner. *)
Definition stands_for {F D T} (num : F -> R) (v : Value F D T) (r : R) : Prop :=
  match v with VInt z => (Z.abs z <= 2 ^ 53)%Z /\ r = IZR z | VFloat f => r = num f | _ => False end.
Definition stand_for {F D T} (num : F -> R) (v : Value F D T * Value F D T) (r : R * R) : Prop :=
  stands_for num (fst v) (fst r) /\ stands_for num (snd v) (snd r).
Lemma stands_read F D T (L : Lexical F D T) num v r : lexical_ok L -> whole_numbers L num -> stands_for num v r ->
  number num (reread L formats (TPrim PFloat) (Leaf v)) = Ok r.
Proof.
  intros LO W H. cbn [reread]. destruct v; try contradiction; cbn [show stands_for] in *.
  - destruct H as [B ->]. destruct (W z B) as (f & E & N). cbn. rewrite E. cbn. rewrite N. reflexivity.
  - subst r. destruct LO as (_ & _ & E & _). cbn. rewrite E. reflexivity.
Qed.

Lemma chip_fields v : In v ["sidd100"; "sidd200"; "sidd300"] ->
  let '(ds, ch, ic, dc) := chip_classes (v ++ ".SIDD") in
  (exists f, field_of formats (v ++ ".SIDD") "downstream_reprocessing" = Some f /\ plain f /\ ty f = TClass ds) /\
  (exists f, field_of formats ds "geometric_chip" = Some f /\ plain f /\ ty f = TClass ch) /\
  (exists f, field_of formats ch "chip_size" = Some f /\ ty f = TClass ic) /\
  (forall a, In a ["original_upper_left_coordinate"; "original_upper_right_coordinate"; "original_lower_right_coordinate"; "original_lower_left_coordinate"] ->
     exists f, field_of formats ch a = Some f /\ ty f = TClass dc) /\
  (forall a, In a ["row"; "col"] -> (exists f, field_of formats ic a = Some f /\ ty f = TPrim PInt) /\ (exists f, field_of formats dc a = Some f /\ ty f = TPrim PFloat)) /\
  plain_class formats ds /\ plain_class formats ch /\ plain_class formats ic /\ plain_class formats dc.
Proof.
  intros Iv. cbn [In] in Iv. decompose [or] Iv; try contradiction; subst v; cbn [append chip_classes String.eqb Ascii.eqb Bool.eqb];
    (split; [eexists; split; [lookup|]; repeat split; discriminate|]); (split; [eexists; split; [lookup|]; repeat split; discriminate|]); (split; [eexists; split; [lookup|reflexivity]|]);
    (split; [intros a Ia; cbn [In] in Ia; decompose [or] Ia; try contradiction; subst a; eexists; (split; [lookup|reflexivity])|]);
    (split; [intros a Ia; cbn [In] in Ia; decompose [or] Ia; try contradiction; subst a; (split; eexists; (split; [lookup|reflexivity]))|]);
    (split; [|split; [|split]]); (eexists; split; [lookup|]; repeat constructor; discriminate).
Qed.
Lemma class_names c : plain_class formats c -> exists k, find_class formats c = Some k /\ NoDup (map attr (c_fields k)).
Proof. intros (k & E & _). exists k. split; [exact E|]. apply (find_class_ok formats C96_tables c k E). Qed.

Section Row_col.
Context {F D T : Type} (L : Lexical F D T) (num : F -> R) (LO : lexical_ok L).
Variable c : string.
Variable t : Ty.
Hypothesis TT : text_type t.
Hypothesis P : plain_class formats c.
Hypothesis FS : forall a, In a ["row"; "col"] -> exists f, field_of formats c a = Some f /\ ty f = t.
Lemma row_col_any (row col : Value F D T) : shaped L formats (fun _ _ => True) (TClass c) (row_col formats c row col).
Proof.
  apply construct_ok; [exact P| |apply class_names, P]. intros a s f [E|[E|[]]] Ef; injection E as <- <-; (split; [cbn; lia|]);
    (destruct (FS _ ltac:(cbn; tauto)) as (g & Eg & Tg) || idtac).
  - destruct (FS "row" ltac:(cbn; tauto)) as (g' & Eg' & Tg'). rewrite Ef in Eg'. injection Eg' as <-. rewrite Tg'. constructor; [split; [exact TT|exact I]|constructor].
  - destruct (FS "col" ltac:(cbn; tauto)) as (g' & Eg' & Tg'). rewrite Ef in Eg'. injection Eg' as <-. rewrite Tg'. constructor; [split; [exact TT|exact I]|constructor].
Qed.
Lemma row_col_get (row col : Value F D T) :
  get formats (reread L formats (TClass c) (row_col formats c row col)) "row" = Ok (reread L formats t (Leaf row)) /\
  get formats (reread L formats (TClass c) (row_col formats c row col)) "col" = Ok (reread L formats t (Leaf col)).
Proof.
  destruct (FS "row" ltac:(cbn; tauto)) as (f & Ef & Tf). destruct (FS "col" ltac:(cbn; tauto)) as (g & Eg & Tg). split.
  - rewrite <- Tf. apply (reread_get_one L formats _ c _ _ f _ (row_col_any row col) Ef). apply get_of_slot. unfold row_col. rewrite (construct_get formats c _ _ f Ef). reflexivity.
  - rewrite <- Tg. apply (reread_get_one L formats _ c _ _ g _ (row_col_any row col) Eg). apply get_of_slot. unfold row_col. rewrite (construct_get formats c _ _ g Eg). reflexivity.
Qed.
End Row_col.

(** The updater made of a SIDD document with a chip added: the document is rendered with the same root
    element, and the builder that parses it reads what the record model of the updater (C41 to C43)
    has.  The corners are integers when the document had no chip, and floats when it had one; here
    they are any values that are the numbers of the record. *)
Theorem C97_sidd_chip : forall F D T (L : Lexical F D T) (num : F -> R), lexical_ok L -> whole_numbers L num ->
  forall x o d, parse_document L formats x = Ok o -> snd (tag x) = "SIDD" -> sidd_meta num formats o = Ok d ->
  forall c ul ur lr ll, stand_for num ul (upper_left c) -> stand_for num ur (upper_right c) -> stand_for num lr (lower_right c) -> stand_for num ll (lower_left c) ->
  exists o' y o'', sidd_put_chip formats o (chip_cols c, chip_rows c) ul ur lr ll = Ok o' /\ render_document L formats o' = Some y /\ tag y = tag x /\
    parse_document L formats y = Ok o'' /\ sidd_meta num formats o'' = Ok (with_chip d c).
Proof.
  intros F D T L num LO W x o d E R M c ul ur lr ll Hul Hur Hlr Hll. destruct (sidd_root F D T L x o LO E R) as (v & Iv & Q & H).
  pose proof (chip_fields v Iv) as CF. pose proof (held_any L formats o _ H) as A.
  destruct o as [w|root slots]; [destruct H as [[] _]|]. pose proof H as [Er _]. injection Er as Er. subst root. set (o := Inst (v ++ ".SIDD") slots) in *.
  unfold sidd_put_chip. change (match o with Leaf _ => _ | Inst c0 _ => ?g c0 end) with (g (v ++ ".SIDD")) || cbn [o].
  destruct (chip_classes (v ++ ".SIDD")) as [[[ds ch] ic] dc].
  destruct CF as ((f1 & E1 & P1 & T1) & (f2 & E2 & P2 & T2) & (f3 & E3 & T3) & Fc & Frc & Pd & Pc & Pi & Pdc). fold o.
  destruct (get_field L formats _ _ o _ f1 A E1) as (s & Gs & Ss & As). rewrite Gs. cbn [bind].
  set (d0 := match s with [d0] => d0 | _ => construct formats ds [] end).
  assert (Ad : shaped L formats (fun _ _ => True) (TClass ds) d0).
  { assert (N : shaped L formats (fun _ _ => True) (TClass ds) (construct formats ds [] : Obj F D T)).
    { apply construct_ok; [exact Pd|intros ? ? ? []|apply class_names, Pd]. }
    unfold d0. destruct s as [|s0 [|s1 r]]; [exact N| |exact N]. inversion_clear As as [|? ? A0 _]. rewrite T1 in A0. exact A0. }
  set (size := row_col formats ic (VInt (snd (chip_cols c, chip_rows c))) (VInt (fst (chip_cols c, chip_rows c)))).
  set (point := fun p : Value F D T * Value F D T => [row_col formats dc (snd p) (fst p)]).
  set (args := [("chip_size", [size]); ("original_upper_left_coordinate", point ul); ("original_upper_right_coordinate", point ur);
                ("original_lower_left_coordinate", point ll); ("original_lower_right_coordinate", point lr)]).
  assert (Fi : forall a, In a ["row"; "col"] -> exists f, field_of formats ic a = Some f /\ ty f = TPrim PInt) by (intros a Ia; apply Frc, Ia).
  assert (Fd : forall a, In a ["row"; "col"] -> exists f, field_of formats dc a = Some f /\ ty f = TPrim PFloat) by (intros a Ia; apply Frc, Ia).
  pose proof (row_col_any L ic (TPrim PInt) I Pi Fi) as Ai. pose proof (row_col_any L dc (TPrim PFloat) I Pdc Fd) as Adc.
  assert (Ac : shaped L formats (fun _ _ => True) (TClass ch) (construct formats ch args)).
  { apply construct_ok; [exact Pc| |apply class_names, Pc]. intros a s0 f Ia Ef. unfold args in Ia. cbn [In] in Ia.
    decompose [or] Ia; clear Ia; try contradiction; (match goal with Z : (_, _) = (a, s0) |- _ => injection Z as <- <- end); (split; [cbn; lia|]).
    1: { rewrite E3 in Ef. injection Ef as <-. rewrite T3. constructor; [apply Ai|constructor]. }
    all: match type of Ef with field_of _ _ ?b = _ => destruct (Fc b ltac:(cbn; tauto)) as (g & Eg & Tg) end; rewrite Ef in Eg; injection Eg as <-; rewrite Tg;
      (constructor; [apply Adc|constructor]). }
  destruct (set_field L formats _ ds d0 "geometric_chip" f2 [construct formats ch args] Ad E2) as (d1 & S1 & A1 & G1 & O1).
  { apply plain_slot; [exact P2|cbn; lia]. }
  { rewrite T2. constructor; [exact Ac|constructor]. }
  change (set_slot formats d0 "geometric_chip" _) with (set_slot formats d0 "geometric_chip" [construct formats ch args]). rewrite S1. cbn [bind].
  destruct (set_field L formats _ _ o "downstream_reprocessing" f1 [d1] A E1) as (o1 & So & A2 & G2 & O2).
  { apply plain_slot; [exact P1|cbn; lia]. }
  { rewrite T1. constructor; [exact A1|constructor]. }
  destruct (any_document F D T L _ _ o1 LO Q A2) as (y & Ry & Ty & Py).
  exists o1, y, (reread L formats (TClass (v ++ ".SIDD")) o1). split; [exact So|]. split; [exact Ry|]. split; [exact Ty|]. split; [exact Py|].
  apply (sidd_changed formats num o).
  - intros b Nb. destruct (field_of formats (v ++ ".SIDD") b) as [f|] eqn:Ef.
    + destruct (get_field L formats _ _ o b f H Ef) as (sb & Gb & _ & Hb). rewrite (reread_get L formats _ _ o1 b f sb A2 Ef); [|rewrite (O2 b Nb); exact Gb].
      rewrite Gb. f_equal. clear - Hb LO. induction Hb as [|z r Hz _ IH]; [reflexivity|]. cbn [map]. rewrite IH. f_equal. apply (held_reread L formats z _ Hz).
    + rewrite (reread_no_field L formats _ _ o1 b A2 Ef). symmetry. apply (get_no_field L formats _ _ o b A Ef).
  - unfold chip_of. rewrite (reread_get L formats _ _ o1 _ f1 [d1] A2 E1 G2). cbn [bind map]. rewrite T1.
    rewrite (reread_get L formats _ _ d1 _ f2 _ A1 E2 G1). cbn [bind map]. rewrite T2.
    assert (Gsize : get formats (reread L formats (TClass ch) (construct formats ch args)) "chip_size" = Ok (reread L formats (TClass ic) size)).
    { rewrite <- T3. apply (reread_get_one L formats _ ch _ _ f3 _ Ac E3). apply get_of_slot. rewrite (construct_get formats ch _ _ f3 E3). reflexivity. }
    rewrite Gsize. cbn [bind]. destruct (row_col_get L ic (TPrim PInt) I Pi Fi (VInt (snd (chip_cols c, chip_rows c))) (VInt (fst (chip_cols c, chip_rows c)))) as [Gr Gc].
    fold size in Gr, Gc. unfold get_integer. rewrite Gr, Gc. cbn [bind reread fst snd].
    assert (RI : forall z, @integer F D T (Leaf (read L formats (TPrim PInt) (show L (VInt z)))) = Ok z).
    { intros z. cbn. destruct LO as [RI _]. rewrite RI. reflexivity. }
    rewrite !RI. cbn [bind].
    assert (Corner : forall a p r, In a ["original_upper_left_coordinate"; "original_upper_right_coordinate"; "original_lower_right_coordinate"; "original_lower_left_coordinate"] ->
      find (fun q => String.eqb (fst q) a) args = Some (a, point p) -> stand_for num p r ->
      bind (get formats (reread L formats (TClass ch) (construct formats ch args)) a) (corner num formats) = Ok r).
    { intros a p [rc rr] Ia Fa [Hc Hr]. destruct (Fc a Ia) as (f & Ef & Tf).
      assert (G : get formats (reread L formats (TClass ch) (construct formats ch args)) a = Ok (reread L formats (TClass dc) (row_col formats dc (snd p) (fst p)))).
      { rewrite <- Tf. apply (reread_get_one L formats _ ch _ _ f _ Ac Ef). apply get_of_slot. rewrite (construct_get formats ch _ _ f Ef), Fa. reflexivity. }
      rewrite G. cbn [bind]. destruct (row_col_get L dc (TPrim PFloat) I Pdc Fd (snd p) (fst p)) as [Gr' Gc']. unfold corner, get_number. rewrite Gr', Gc'. cbn [bind fst snd] in *.
      rewrite (stands_read F D T L num _ _ LO W Hc). cbn [bind]. rewrite (stands_read F D T L num _ _ LO W Hr). reflexivity. }
    rewrite (Corner _ ul (upper_left c)); [|cbn; tauto|reflexivity|exact Hul]. cbn [bind].
    rewrite (Corner _ ur (upper_right c)); [|cbn; tauto|reflexivity|exact Hur]. cbn [bind].
    rewrite (Corner _ lr (lower_right c)); [|cbn; tauto|reflexivity|exact Hlr]. cbn [bind].
    rewrite (Corner _ ll (lower_left c)); [|cbn; tauto|reflexivity|exact Hll]. cbn [bind]. destruct c. reflexivity.
  - exact M.
Qed.
Print Assumptions C97_sidd_chip.

(** The first chip of an image that is not a chip: the bounds of the chip are written as they are. *)
Theorem C97_sidd_first_chip : forall F D T (L : Lexical F D T) (num : F -> R), lexical_ok L -> whole_numbers L num ->
  forall x o d, parse_document L formats x = Ok o -> snd (tag x) = "SIDD" -> sidd_meta num formats o = Ok d -> chip d = None ->
  forall b size, (0 <= bx b)%Z -> (0 <= by_ b)%Z -> (0 < bw b)%Z -> (0 < bh b)%Z -> (bx b + bw b <= 2 ^ 53)%Z -> (by_ b + bh b <= 2 ^ 53)%Z ->
  let x0 := VInt (bx b) in let y0 := VInt (by_ b) in let x1 := VInt (bx b + bw b - 1) in let y1 := VInt (by_ b + bh b - 1) in
  exists o' y o'' d', sidd_put_chip formats o (match size with Some s => s | None => (bw b, bh b) end) (x0, y0) (x1, y0) (x1, y1) (x0, y1) = Ok o' /\
    render_document L formats o' = Some y /\ tag y = tag x /\ parse_document L formats y = Ok o'' /\
    sidd_update_doc d (b, size) = Ok d' /\ sidd_meta num formats o'' = Ok d'.
Proof.
  intros F D T L num LO W x o d E R M N b size B1 B2 B3 B4 B5 B6 x0 y0 x1 y1.
  set (c := mkGeoChip (fst match size with Some s => s | None => (bw b, bh b) end) (snd match size with Some s => s | None => (bw b, bh b) end)
              (IZR (bx b), IZR (by_ b)) (IZR (bx b + bw b - 1), IZR (by_ b)) (IZR (bx b + bw b - 1), IZR (by_ b + bh b - 1)) (IZR (bx b), IZR (by_ b + bh b - 1))).
  destruct (C97_sidd_chip F D T L num LO W x o d E R M c (x0, y0) (x1, y0) (x1, y1) (x0, y1)) as (o' & y & o'' & P & Ry & Ty & Py & My);
    try (split; cbn; (split; [lia|reflexivity])).
  exists o', y, o'', (with_chip d c). split.
  { cbn [c chip_cols chip_rows] in P. destruct size as [[w h]|]; exact P. }
  repeat (split; [assumption|]). split; [|exact My]. unfold sidd_update_doc. rewrite N. cbn [bind fst snd]. unfold c. destruct size as [[w h]|]; reflexivity.
Qed.
Print Assumptions C97_sidd_first_chip.

(** *** The example documents *)

(** Parsed with exact decimals: the documents of test/data are of the class their root element says,
    typed and complete. *)
Definition example_object (x : Xml) : option (Obj Decimal Word Word) := match parse_document exact formats x with Ok o => Some o | Err _ => None end.
Definition document_b (c : string) (x : Xml) : bool :=
  match example_object x with Some o => typed_b exact formats (TClass c) o && complete_b formats o | None => false end.
Lemma document_b_sound c x : document_b c x = true ->
  exists o, parse_document exact formats x = Ok o /\ typed exact formats (TClass c) o /\ complete formats o.
Proof.
  unfold document_b, example_object. destruct (parse_document exact formats x) as [o|]; [|discriminate]. intros H. apply andb_true_iff in H as [A B].
  exists o. split; [reflexivity|]. split; [apply typed_b_sound, A|apply complete_b_sound, B].
Qed.
Definition decimal_value (d : Decimal) : R := (IZR (fst d) * powerRZ 10 (snd d))%R.
Lemma exact_whole : whole_numbers exact decimal_value.
Proof.
  intros z _. exists (z, 0%Z). cbn [exact read_float show_int]. split; [|unfold decimal_value; cbn; apply Rmult_1_r].
  unfold read_decimal. rewrite split_at_none by apply show_Z_marks. rewrite read_show_mantissa. reflexivity.
Qed.

Lemma example_documents : forall p, In p [("sicd121.SICD", example_pfa); ("sicd121.SICD", example_rma); ("sicd121.SICD", example_capella);
                                          ("sidd200.SIDD", example_sidd); ("sidd200.SIDD", example_sidd_chip)] ->
  exists o, parse_document exact formats (snd p) = Ok o /\ typed exact formats (TClass (fst p)) o /\ complete formats o.
Proof.
  intros p I. apply document_b_sound. cbn [In] in I. decompose [or] I; try contradiction; subst p; vm_compute; reflexivity.
Qed.
(** The theorems apply to the example documents: three chips, of which the second is refused, of a
    SICD document, and a chip of each SIDD document. *)
Example C97_non_vacuous :
  lexical_ok exact /\ whole_numbers exact decimal_value /\
  (exists o d y, parse_document exact formats example_pfa = Ok o /\ sicd_meta decimal_value formats o = Ok d /\
    let o' := sicd_run_object formats 0 0 o [(mkBounds 10 20 300 400, None); (mkBounds 1 2 30 40, Some (15, 20)); (mkBounds 5 6 70 80, Some (70, 80))]%Z in
    render_document exact formats o' = Some y /\ parse_document exact formats y = Ok o' /\
    sicd_meta decimal_value formats o' = Ok (with_image_data d (mkImageData 80 70 6 5))) /\
  (forall x, In x [example_sidd; example_sidd_chip] ->
    exists o d o' y o'', parse_document exact formats x = Ok o /\ sidd_meta decimal_value formats o = Ok d /\
    sidd_put_chip formats o (10, 20)%Z (VInt 1, VInt 2) (VInt 11, VInt 2) (VInt 11, VInt 22) (VFloat (1, 0)%Z, VInt 22) = Ok o' /\
    render_document exact formats o' = Some y /\ parse_document exact formats y = Ok o'' /\
    sidd_meta decimal_value formats o'' = Ok (with_chip d (mkGeoChip 10 20 (1, 2) (11, 2) (11, 22) (1, 22))))%R.
Proof.
  split; [exact exact_ok|]. split; [exact exact_whole|]. split.
  - destruct (example_documents ("sicd121.SICD", example_pfa) ltac:(cbn; tauto)) as (o & Po & To & Co). cbn [fst snd] in *.
    destruct (C97_sicd_complete _ _ _ exact decimal_value "sicd121" ltac:(cbn; tauto) o To Co) as (d & Md & _).
    assert (Z0 : first_row (image_data d) = 0%Z /\ first_col (image_data d) = 0%Z).
    { assert (X : match bind (parse_document exact formats example_pfa) (sicd_meta decimal_value formats) with Ok d => (first_row (image_data d) =? 0)%Z && (first_col (image_data d) =? 0)%Z | Err _ => false end = true)
        by (vm_compute; reflexivity). rewrite Po in X. cbn [bind] in X. rewrite Md in X. apply andb_true_iff in X as [A B]. apply Z.eqb_eq in A, B. auto. }
    destruct (C97_sicd_updates _ _ _ exact decimal_value exact_ok example_pfa o d Po eq_refl Md [(mkBounds 10 20 300 400, None); (mkBounds 1 2 30 40, Some (15, 20)); (mkBounds 5 6 70 80, Some (70, 80))]%Z) as (y & R & _ & P & M).
    destruct Z0 as [Zr Zc]. rewrite Zr, Zc in *. exists o, d, y. do 4 (split; [assumption|]). rewrite M. f_equal.
    unfold sicd_run, sicd_updater, sicd_update. cbn. rewrite Zr, Zc. reflexivity.
  - intros x I. assert (I' : In ("sidd200.SIDD", x) [("sicd121.SICD", example_pfa); ("sicd121.SICD", example_rma); ("sicd121.SICD", example_capella);
                                          ("sidd200.SIDD", example_sidd); ("sidd200.SIDD", example_sidd_chip)]) by (cbn [In] in *; decompose [or] I; subst; tauto).
    destruct (example_documents _ I') as (o & Po & To & Co). cbn [fst snd] in *.
    assert (G : exists p, get_path formats o ["measurement"; "plane_projection"] = Ok p).
    { assert (X : match bind (parse_document exact formats x) (fun o => get_path formats o ["measurement"; "plane_projection"]) with Ok _ => true | Err _ => false end = true)
        by (cbn [In] in I; decompose [or] I; try contradiction; subst x; vm_compute; reflexivity).
      rewrite Po in X. cbn [bind] in X. destruct (get_path formats o _) as [p|]; [exists p; reflexivity|discriminate]. }
    destruct G as [p Gp]. destruct (C97_sidd_complete _ _ _ exact decimal_value "sidd200" ltac:(cbn; tauto) o To Co) as [X _]. destruct (X p Gp) as [d Md].
    assert (Root : snd (tag x) = "SIDD") by (cbn [In] in I; decompose [or] I; try contradiction; subst x; reflexivity).
    destruct (C97_sidd_chip _ _ _ exact decimal_value exact_ok exact_whole x o d Po Root Md (mkGeoChip 10 20 (1, 2) (11, 2) (11, 22) (1, 22))%R
               (VInt 1, VInt 2) (VInt 11, VInt 2) (VInt 11, VInt 22) (VFloat (1, 0)%Z, VInt 22)) as (o' & y & o'' & A & B & _ & C & E).
    1-4: repeat split; cbn; try lia; unfold decimal_value; cbn; try rewrite Rmult_1_r; reflexivity.
    exists o, d, o', y, o''. repeat split; assumption.
Qed.
