(** Properties of tiles that carry a SICD or SIDD document, from the opened image to the opened tile: C99. *)
Require Import ZArith Reals String Ascii List Bool Lia Lra.
Require Import Verif.Base Verif.Vec Verif.SensorBase Verif.TransformModel Verif.TransformSpec Verif.TreModel Verif.TreSpec Verif.BuilderModel Verif.BuilderSpec Verif.TreProofs Verif.BuilderProofs
  Verif.EncodeModel Verif.EncodeSpec Verif.EncodeProofs Verif.EncodeProps Verif.EncodeSensorProps
  Verif.SicdModel Verif.SarMetaModel Verif.SarMetaSpec Verif.SarMetaProps Verif.OpenModel Verif.OpenSpec Verif.OpenProps
  Verif.SchemaModel Verif.SchemaSpec Verif.SchemaProofs Verif.SchemaProps
  Verif.SarDocModel Verif.SarDocProofs Verif.SchemaCheck Verif.ExampleDocs Verif.SarDocProps Verif.XsdModel Verif.XsdSpec Verif.XsdChangeProofs Verif.XsdCheck Verif.XsdProps Verif.XsdChipProps Verif.TileDocModel Verif.TileDocProofs.
Import ListNotations.
Local Open Scope string_scope.

(** ** C99: tiles locate their pixels where the image does *)
Section Tiles.
Context {F D T : Type}.
Variable L : Lexical F D T.
Variable X : XsdTexts F D T.
Variable num : F -> R.
Variable float_of : R -> F.
Variable scan : string -> res Xml.
Variable print : Xml -> string.
Hypothesis LO : lexical_ok L.
Hypothesis AG : agrees X L.
(** What is external to opening an image, as in C90. *)
Variable cv : Conv.
Variable caught : bool.
Variable to_geocentric : Geodetic -> Vec.
Variable to_geodetic : Vec -> Geodetic.
Variable lstsq : list (list R) -> list R -> res (list R).
Variable rpc_minimize : (R * R -> res R) -> R * R -> list (R * R) -> res (R * R).
Variable rsm_minimize : (R * R -> res R) -> R * R -> option TileModel.Bounds -> list (R * R) -> res (R * R).
Variable crs_of : string -> res Crs.
Variable decode : string -> res string.
Variable tostring : TreModel.Element -> string.
Variable parse : string -> res TreModel.Element.
Variable trim : string -> string.
Variable open_dataset : string -> res (option Dataset).
Variable show_R : R -> string.

Let parse_xml := document_of L formats num scan.
Let open := load_gdal_dataset Opened (open_builders cv caught to_geocentric to_geodetic lstsq rpc_minimize rsm_minimize crs_of parse_xml) cv decode tostring parse trim open_dataset.
Let locate := opened_image_to_world to_geodetic to_geocentric.
Let find := opened_world_to_image to_geodetic to_geocentric.
Let sar_text := first_sar_text decode tostring parse trim.
Let update := update_document (F := F) (D := D) (T := T) formats num float_of.
Let encode := encode_document L formats print.
Let factory := tile_factory cv decode tostring (make_sidd L formats scan) (make_sicd L formats scan).

(** The documents of the xml:DES metadata, as the factory parses them (nitf_des_accessor.py:32-43). *)
Definition parsed_segments (ds : Dataset) (dess : list TreModel.Element) : Prop :=
  Forall2 (fun s e => parse (trim (strip_prologs s)) = Ok e) (match ds_dess ds with Some l => l | None => [] end) dess.
(** The text is one of the document [y]: it is parsed to the same object. *)
Definition carries (x : string) (y : Xml) : Prop := parse_text L formats scan x = parse_document L formats y.

Lemma factory_document ds x dess bands sensor f c desired adjust ext fac st : sar_text ds x -> parsed_segments ds dess ->
  factory "NITF" dess bands sensor f c desired adjust ext = Ok (fac, st) ->
  exists u, updater st = Some u /\ (occurs "SIDD" x -> make_sidd L formats scan x = Ok u) /\ (~ occurs "SIDD" x -> make_sicd L formats scan x = Ok u).
Proof.
  intros (before & after & texts & Xs & Tx & Nt & (x' & [= <-] & Sar)) Ps E.
  assert (Eb : exists b1 s, before = (b1 ++ [s])%list /\ Forall2 (fun s t => extract_desdata_xml decode tostring s = Ok t) b1 texts /\ extract_desdata_xml decode tostring s = Ok (Some x)).
  { unfold segment_texts in Tx. apply Forall2_app_inv_r in Tx as (b1 & b2 & T1 & T2 & ->). inversion T2 as [|s t r r' Hs Hr]; subst. inversion Hr; subst. exists b1, s. repeat split; assumption. }
  destruct Eb as (b1 & s & -> & T1 & Ts).
  assert (Seg : get_segments_by_name dess "XML_DATA_CONTENT" = (b1 ++ s :: after)%list).
  { assert (Q : ((b1 ++ [s]) ++ after)%list = flat_map (fun e => List.filter (fun c => TreModel.named "des" "XML_DATA_CONTENT" c) (children_of e)) dess).
    { unfold xml_segments in Xs. unfold parsed_segments in Ps. destruct (ds_dess ds) as [l|].
      - destruct Xs as (es & P' & ->). replace dess with es; [reflexivity|]. clear - Ps P'. revert dess Ps. induction P' as [|? ? ? ? H _ IH]; intros dess Ps; inversion Ps as [|? ? ? ? H' Ps']; subst; [reflexivity|].
        rewrite H in H'. injection H' as ->. f_equal. apply IH, Ps'.
      - inversion Ps. subst. exact Xs. }
    rewrite <- app_assoc in Q. cbn [app] in Q. rewrite Q. reflexivity. }
  assert (Po : passed_over decode tostring b1).
  { intros e Ie.
    assert (It : exists t, In t texts /\ extract_desdata_xml decode tostring e = Ok t).
    { clear - T1 Ie. induction T1 as [|a b l r Hab _ IH]; [destruct Ie|]. destruct Ie as [->|Ie]; [exists b; split; [left; reflexivity|exact Hab]|]. destruct (IH Ie) as (t & It & Et). exists t. split; [right; exact It|exact Et]. }
    destruct It as (t & It & Et). exists t. split; [exact Et|]. intros z -> Hz. apply (Nt (Some z) It). exists z. split; [reflexivity|exact Hz]. }
  unfold factory, tile_factory in E. rewrite String.eqb_refl in E. apply bind_ok in E as [sar [E0 E]]. apply bind_ok in E as [[h dd] [_ E]]. injection E as _ <-. cbn [updater].
  rewrite Seg in E0. destruct (C74_first_sar_segment _ cv decode tostring (make_sidd L formats scan) (make_sicd L formats scan) (b1 ++ s :: after)%list) as [C _].
  assert (Hh : exists hd, extract_des_header cv s = Ok hd).
  { destruct (extract_des_header cv s) as [hd|e] eqn:Eh; [eauto|]. exfalso. clear C. revert E0.
    clear - Po Ts Sar Eh. induction b1 as [|e1 r IH]; cbn [app find_sar].
    - rewrite Ts. cbn [bind]. destruct x as [|ch x]; [destruct (empty_not_sar Sar)|]. rewrite Eh. cbn [bind].
      destruct (contains "SIDD" (String ch x)) eqn:A; [discriminate|]. destruct (contains "SICD" (String ch x)) eqn:B; [discriminate|]. intros _.
      destruct Sar as [Sar|Sar]; apply contains_occurs in Sar; congruence.
    - destruct (Po e1 (or_introl eq_refl)) as (t & Et & Nt). rewrite Et. cbn [bind].
      assert (IH' : find_sar cv decode tostring (make_sidd L formats scan) (make_sicd L formats scan) (r ++ s :: after) <> Ok sar).
      { intros Q. apply IH; [intros e2 I2; apply Po; right; exact I2|exact Q]. }
      destruct t as [[|ch z]|]; [exact IH'| |exact IH']. specialize (Nt _ eq_refl).
      destruct (contains "SIDD" (String ch z)) eqn:A; [exfalso; apply Nt; left; apply contains_occurs; exact A|].
      destruct (contains "SICD" (String ch z)) eqn:B; [exfalso; apply Nt; right; apply contains_occurs; exact B|]. exact IH'. }
  destruct Hh as [hd Eh]. destruct (C b1 s after x hd eq_refl Po Ts Sar Eh) as [C1 C2]. destruct (contains "SIDD" x) eqn:Co.
  - assert (O : occurs "SIDD" x) by (apply contains_occurs; exact Co). rewrite (C1 O) in E0. apply bind_ok in E0 as [u [Eu E0]]. injection E0 as <-. exists u. split; [reflexivity|]. split; [intros _; exact Eu|]. intros N. contradiction.
  - assert (O : ~ occurs "SIDD" x) by (intros O; apply contains_occurs in O; congruence). rewrite (C2 O) in E0. apply bind_ok in E0 as [u [Eu E0]]. injection E0 as <-. exists u. split; [reflexivity|].
    split; [intros N; contradiction|]. intros _. exact Eu.
Qed.

Lemma sicd_read x o v d : parse_text L formats scan x = Ok o -> In v ["sicd121"; "sicd130"] -> shaped L formats (stable L formats) (TClass (v ++ ".SICD")) o -> sicd_meta num formats o = Ok d ->
  parse_xml x = Ok (SicdDocument d).
Proof.
  intros P Iv H M. unfold parse_xml, document_of. rewrite P. cbn [bind]. destruct o as [w|c slots]; [destruct H as [[] _]|]. destruct H as [E _]. injection E as <-.
  rewrite M. cbn [In] in Iv. decompose [or] Iv; try contradiction; subst v; reflexivity.
Qed.

(** An image is opened whose first SAR text is a valid SICD document, a tile factory is made for it, and
    it is asked for tiles.  Whatever was asked before, each tile that GDAL is told to write carries a
    document with the same root element in its options, valid exactly when the window is in the range of
    xs:int.  Any file that carries this document, opened, has a sensor model when the document of the
    image gives one, and that model sends pixel (i, j) of the tile where the model of the image sends
    (i + left, j + top) and finds ground points accordingly, whatever elevation model and options are
    passed and whatever approximate models the two files have besides. *)
Theorem C99_sicd_tiles : forall path ds r x t0,
  open path = Ok (ds, r) -> sar_text ds x -> ~ occurs "SIDD" x -> scan x = Ok t0 -> valid_document X false t0 -> snd (tag t0) = "SICD" ->
  exists d, parse_xml x = Ok (SicdDocument d) /\
  forall dess bands sensor c desired adjust ext fac st0, parsed_segments ds dess ->
  factory "NITF" dess bands sensor Nitf c desired adjust ext = Ok (fac, st0) ->
  forall history g others fs q token st' fs' calls result a,
  create_encoded_tile update encode show_R g others fac (serve update encode show_R fac st0 history) fs q token = (st', fs', calls, result) -> In (Translate a) calls ->
  exists y, In ("DES=XML_DATA_CONTENT=" ++ f_header fac ++ print y) (a_options a) /\ tag y = tag t0 /\
    (valid_document X false y <-> chip_in_int (first_row (image_data d)) (first_col (image_data d)) (fst q)) /\
    forall path1 ds1 r1 x1, open path1 = Ok (ds1, r1) -> sar_text ds1 x1 -> ~ occurs "SIDD" x1 -> carries x1 y ->
    forall b, sicd_build d = Some b ->
    exists s s1, r = Some s /\ r1 = Some s1 /\
      (forall i j em o o1, locate s1 (mkImage i j) em o1 = locate s (mkImage (i + IZR (bx (fst q))) (j + IZR (by_ (fst q)))) em o) /\
      (forall w, find s1 w = bind (find s w) (fun p => Ok (mkImage (ix p - IZR (bx (fst q))) (iy p - IZR (by_ (fst q)))))).
Proof.
  intros path ds r x t0 Op St Ns Sc V R.
  destruct (C98_sicd_range F D T L X num LO AG t0 V R) as (o & d & Po & M & Range). cbv zeta in Range. set (r0 := first_row (image_data d)) in *. set (c0 := first_col (image_data d)) in *.
  destruct (sicd_root F D T L t0 o LO Po R) as (v & Iv & H).
  assert (Px : parse_text L formats scan x = Ok o) by (unfold parse_text; rewrite Sc; exact Po).
  pose proof (sicd_read x o v d Px Iv H M) as Dx. exists d. split; [exact Dx|].
  intros dess bands sensor c desired adjust ext fac st0 Ps Fa history g others fs q token st' fs' calls result a E I.
  destruct (factory_document ds x dess bands sensor Nitf c desired adjust ext fac st0 St Ps Fa) as (u & Eu & _ & Mk). specialize (Mk Ns).
  assert (U0 : u = SicdUpdating r0 c0 o).
  { unfold make_sicd in Mk. rewrite Px in Mk. cbn [bind] in Mk.
    assert (G : exists im, get formats o "image_data" = Ok im /\ get_integer formats im "first_row" = Ok r0 /\ get_integer formats im "first_col" = Ok c0).
    { clear - M. unfold sicd_meta in M. destruct (get formats o "image_data") as [im|]; cbn [bind] in M.
      2: { repeat match type of M with bind ?r _ = _ => destruct r; cbn [bind] in M; [|discriminate] end. discriminate. }
      exists im. split; [reflexivity|]. repeat match type of M with bind ?r _ = _ => destruct r eqn:?; cbn [bind] in M; [|discriminate] end.
      destruct (grid_type_of _); [|discriminate]. repeat match type of M with bind ?r _ = _ => destruct r; cbn [bind] in M; [|discriminate] end. injection M as <-. split; reflexivity. }
    destruct G as (im & Gi & G1 & G2). rewrite Gi in Mk. cbn [bind] in Mk. rewrite G1 in Mk. cbn [bind] in Mk. rewrite G2 in Mk. cbn [bind] in Mk. injection Mk as <-. reflexivity. }
  subst u. pose proof Fa as Fa0. unfold factory in Fa0. destruct (C53_new_factory _ _ _ _ _ _ _ _ _ _ _ _ _ _ _ _ _ Fa0) as (Fn & _ & _ & t & scales & _ & De).
  destruct (tile_text _ update encode show_R fac st0 _ _ _ _ De Eu Fn history g others fs q token st' fs' calls result a E I) as (qs & u' & Uq & In1).
  assert (Fold : forall qs o, fold_left (fun u q => fst (update u q)) qs (SicdUpdating r0 c0 o) = SicdUpdating r0 c0 (sicd_run_object formats r0 c0 o qs)).
  { clear. induction qs as [|q qs IH]; intros o; [reflexivity|]. cbn [fold_left]. unfold update at 2. cbn [update_document fst]. rewrite IH. reflexivity. }
  rewrite Fold in Uq. unfold update in Uq. cbn [update_document] in Uq. unfold sicd_step_object in Uq.
  rewrite (sicd_run_shaped L LO num v r0 c0 Iv qs o d H M q) in Uq.
  destruct (sicd_update_object formats r0 c0 o q) as [o'|e] eqn:Eo; [|discriminate]. cbn [fst snd] in Uq. injection Uq as <-.
  destruct q as [b size]. cbn [fst].
  assert (Eo' : sicd_update_object formats r0 c0 o (b, None) = Ok o').
  { destruct (sicd_update_size r0 c0 o b size o' Eo) as [-> | ->]; [exact Eo|]. rewrite <- Eo. unfold sicd_update_object. cbn [fst snd]. rewrite !Z.eqb_refl. reflexivity. }
  destruct (Range b) as (o'' & y & Eo'' & Ry & Vy). rewrite Eo' in Eo''. injection Eo'' as <-.
  destruct (C97_sicd_updates F D T L num LO t0 o d Po R M [(b, None)]) as (y' & Ry' & Ty & Py & My). fold r0 c0 in Ry', Py, My.
  assert (Eq : sicd_run_object formats r0 c0 o [(b, None)] = o') by (cbn [sicd_run_object fold_left]; unfold sicd_step_object; rewrite Eo'; reflexivity).
  rewrite Eq in Ry', Py, My. rewrite Ry in Ry'. injection Ry' as <-.
  exists y. split; [unfold encode, encode_document in In1; cbn [held] in In1; rewrite Ry in In1; exact In1|]. split; [exact Ty|]. split; [exact Vy|].
  intros path1 ds1 r1 x1 Op1 St1 Ns1 Ca full Bd.
  destruct (C90_sicd cv caught to_geocentric to_geodetic lstsq rpc_minimize rsm_minimize crs_of parse_xml decode tostring parse trim open_dataset path ds r x d full Op St Ns Dx Bd) as (s & -> & Lo & Fi).
  destruct (sicd_update_held F D T L num v o d b r0 c0 None LO Iv H M (or_introl eq_refl)) as (o2 & E2 & H2 & _). rewrite Eo' in E2. injection E2 as <-.
  assert (P1 : parse_text L formats scan x1 = Ok o') by (rewrite Ca; exact Py).
  pose proof (sicd_read x1 o' v _ P1 Iv H2 My) as D1.
  assert (Up : sicd_update (sicd_updater d) (b, None) = (fst (sicd_update (sicd_updater d) (b, None)), Ok tt)) by reflexivity.
  destruct (C38_from_metadata to_geodetic to_geocentric d b None _ full Up Bd) as (part & Bp & Lp & Fp).
  destruct (C90_sicd cv caught to_geocentric to_geodetic lstsq rpc_minimize rsm_minimize crs_of parse_xml decode tostring parse trim open_dataset path1 ds1 r1 x1 _ part Op1 St1 Ns1 D1 Bp) as (s1 & -> & Lo1 & Fi1).
  exists s, s1. split; [reflexivity|]. split; [reflexivity|]. split.
  - intros i j em o3 o4. unfold locate. rewrite Lo1, Lo. apply Lp.
  - intros w. unfold find. rewrite Fi1, Fi. apply Fp.
Qed.
Lemma sidd_read x o v d : parse_text L formats scan x = Ok o -> In v ["sidd100"; "sidd200"; "sidd300"] -> inst_of formats (v ++ ".SIDD") o -> sidd_meta num formats o = Ok d ->
  parse_xml x = Ok (SiddDocument d).
Proof.
  intros P Iv H M. unfold parse_xml, document_of. rewrite P. cbn [bind]. destruct H as (slots & k & -> & _).
  rewrite M. cbn [In] in Iv. decompose [or] Iv; try contradiction; subst v; reflexivity.
Qed.
(** The same for the first tile that is made of an image with a SIDD document that is not itself a chip;
    the output may have another size.  Integers up to 2^53 must be read as the floats equal to them.  The
    tile's model is off by the factor (width - 1) / width per axis (C43): pixel (i, j) of a tile of
    ow by oh pixels is sent where the image sends (left + i (w - 1) / ow, top + j (h - 1) / oh).  Later
    tiles are cut out of earlier ones (C42). *)
Theorem C99_sidd_first_tile : whole_numbers L num -> whole_texts L X -> least_squares lstsq ->
  forall path ds r x t0 d full,
  open path = Ok (ds, r) -> sar_text ds x -> occurs "SIDD" x -> scan x = Ok t0 -> valid_document X false t0 -> snd (tag t0) = "SIDD" ->
  parse_xml x = Ok (SiddDocument d) -> chip d = None -> sidd_from_dataclass lstsq d = Ok full ->
  forall dess bands sensor c desired adjust ext fac st0, parsed_segments ds dess ->
  factory "NITF" dess bands sensor Nitf c desired adjust ext = Ok (fac, st0) ->
  forall g others fs q token st' fs' calls result a,
  create_encoded_tile update encode show_R g others fac st0 fs q token = (st', fs', calls, result) -> In (Translate a) calls ->
  let w := fst q in let '(ow, oh) := match snd q with None => (bw w, bh w) | Some s => s end in
  (0 <= bx w)%Z -> (0 <= by_ w)%Z -> (1 < bw w)%Z -> (1 < bh w)%Z -> (bx w + bw w <= 2 ^ 53)%Z -> (by_ w + bh w <= 2 ^ 53)%Z ->
  in_int ow -> in_int oh -> (ow <> 0)%Z -> (oh <> 0)%Z ->
  exists y, In ("DES=XML_DATA_CONTENT=" ++ f_header fac ++ print y) (a_options a) /\ tag y = tag t0 /\ valid_document X false y /\
    forall path1 ds1 r1 x1, open path1 = Ok (ds1, r1) -> sar_text ds1 x1 -> occurs "SIDD" x1 -> carries x1 y ->
    exists d1, parse_xml x1 = Ok (SiddDocument d1) /\
    forall part, sidd_from_dataclass lstsq d1 = Ok part ->
    exists s s1, r = Some s /\ r1 = Some s1 /\
      (forall i j em o o1, locate s1 (mkImage i j) em o1 =
         locate s (mkImage (IZR (bx w) + i * (IZR (bw w) - 1) / IZR ow) (IZR (by_ w) + j * (IZR (bh w) - 1) / IZR oh)) em o) /\
      (forall p, find s1 p = bind (find s p) (fun i =>
         Ok (mkImage ((ix i - IZR (bx w)) * IZR ow / (IZR (bw w) - 1)) ((iy i - IZR (by_ w)) * IZR oh / (IZR (bh w) - 1))))).
Proof.
  intros W WT LS path ds r x t0 d full Op St Ns Sc V R Dx Ch Bd dess bands sensor c desired adjust ext fac st0 Ps Fa g others fs [b size] token st' fs' calls result a E I. cbn [fst snd].
  destruct (match size with None => (bw b, bh b) | Some s => s end) as [ow oh] eqn:Es. intros B1 B2 B3 B4 B5 B6 I1 I2 N1 N2.
  destruct (valid_document_parsed L X LO AG t0 V) as (k & o & Ik & Po & To & _ & _). destruct (sidd_class k _ Ik R) as (v & Iv & ->).
  assert (Px : parse_text L formats scan x = Ok o) by (unfold parse_text; rewrite Sc; exact Po).
  assert (Io : inst_of formats (v ++ ".SIDD") o) by (apply (shaped_inst_of L formats _ _ o To)).
  assert (M : sidd_meta num formats o = Ok d).
  { unfold parse_xml, document_of in Dx. rewrite Px in Dx. cbn [bind] in Dx. destruct Io as (slots & k & -> & _).
    destruct (sidd_meta num formats (Inst (v ++ ".SIDD") slots)) as [d'|]; cbn [In] in Iv; decompose [or] Iv; try contradiction; subst v; cbn in Dx; congruence. }
  destruct (factory_document ds x dess bands sensor Nitf c desired adjust ext fac st0 St Ps Fa) as (u & Eu & Mk & _). specialize (Mk Ns).
  unfold make_sidd in Mk. rewrite Px in Mk. cbn [bind] in Mk. injection Mk as <-.
  pose proof Fa as Fa0. unfold factory in Fa0. destruct (C53_new_factory _ _ _ _ _ _ _ _ _ _ _ _ _ _ _ _ _ Fa0) as (Fn & _ & _ & t & scales & _ & De).
  pose proof (C53_requests _ update encode show_R fac st0 _ _ _ De [] g others fs (b, size) token st' fs' calls result a E I) as (o1 & o2 & Lo & So & ->).
  cbn [serve] in So. unfold sar_options in So. rewrite Eu, Fn in So. destruct So as (u' & Uq & _ & ->). cbn [a_options].
  set (ch := mkGeoChip ow oh (IZR (bx b), IZR (by_ b)) (IZR (bx b + bw b - 1), IZR (by_ b)) (IZR (bx b + bw b - 1), IZR (by_ b + bh b - 1)) (IZR (bx b), IZR (by_ b + bh b - 1))).
  assert (Cf : chip_of num formats o = Ok None).
  { unfold sidd_meta in M. repeat match type of M with bind ?e _ = _ => destruct e; cbn [bind] in M; [|discriminate] end. injection M as <-. cbn in Ch. rewrite Ch. reflexivity. }
  destruct (C98_sidd_chip F D T L X num LO AG W WT t0 o d V R Po M ch
      (VInt (bx b), VInt (by_ b)) (VInt (bx b + bw b - 1), VInt (by_ b)) (VInt (bx b + bw b - 1), VInt (by_ b + bh b - 1)) (VInt (bx b), VInt (by_ b + bh b - 1)))
    as (o' & y & Pc & Ry & Ty & Vy & My); try exact I1; try exact I2; try (split; cbn; (split; [lia|reflexivity])).
  assert (Uo : sidd_update_object formats num float_of o (b, size) = Ok o').
  { unfold sidd_update_object. rewrite Cf. cbn [bind fst snd]. rewrite Es. exact Pc. }
  unfold update in Uq. cbn [update_document] in Uq. unfold sidd_step_object in Uq. rewrite Uo in Uq. cbn [fst snd] in Uq. injection Uq as <-.
  exists y. split; [apply in_or_app; right; apply in_or_app; right; unfold encode, encode_document; cbn [held]; rewrite Ry; cbn; tauto|]. split; [exact Ty|]. split; [exact Vy|].
  intros path1 ds1 r1 x1 Op1 St1 Ns1 Ca. exists (with_chip d ch).
  assert (D1 : parse_xml x1 = Ok (SiddDocument (with_chip d ch))).
  { destruct (valid_document_parsed L X LO AG y Vy) as (k1 & oy & Ik1 & Py & Ty1 & _). rewrite Py in My. cbn [bind] in My.
    assert (Ry1 : snd (tag y) = "SIDD") by (rewrite Ty; exact R). destruct (sidd_class k1 _ Ik1 Ry1) as (v1 & Iv1 & ->).
    apply (sidd_read x1 oy v1); [rewrite Ca; exact Py|exact Iv1|apply (shaped_inst_of L formats _ _ oy Ty1)|exact My]. }
  split; [exact D1|]. intros part Bp.
  destruct (C90_sidd cv caught to_geocentric to_geodetic lstsq rpc_minimize rsm_minimize crs_of parse_xml decode tostring parse trim open_dataset path ds r x d full Op St Ns Dx Bd) as (s & -> & Lo0 & Fi0).
  destruct (C90_sidd cv caught to_geocentric to_geodetic lstsq rpc_minimize rsm_minimize crs_of parse_xml decode tostring parse trim open_dataset path1 ds1 r1 x1 _ part Op1 St1 Ns1 D1 Bp) as (s1 & -> & Lo1 & Fi1).
  exists s, s1. split; [reflexivity|]. split; [reflexivity|].
  assert (Up : sidd_update d (b, size) = (with_chip d ch, Ok tt)).
  { unfold sidd_update, sidd_update_doc. rewrite Ch. cbn [bind fst snd]. rewrite Es. reflexivity. }
  pose proof (C43_exact lstsq to_geodetic to_geocentric d b size (with_chip d ch) full part LS Ch Up Bd Bp) as X43. rewrite Es in X43.
  assert (P : (bw b <> 1)%Z /\ (bh b <> 1)%Z) by lia. destruct P as [P1 P2]. destruct (X43 P1 P2 N1 N2) as [XL XF]. split.
  - intros i j em o3 o4. unfold locate. rewrite Lo1, Lo0. apply XL.
  - intros p. unfold find. rewrite Fi1, Fi0. apply XF.
Qed.
End Tiles.
Print Assumptions C99_sicd_tiles.
Print Assumptions C99_sidd_first_tile.

(** *** An example *)
(** Files whose only segment is a SICD document: the example document of test/data, and the tile with
    window (3, 5, 7, 9) of it. *)
Definition example_window : request := (mkBounds 3 5 7 9, None).
Definition example_tile : Xml :=
  match bind (parse_document exact formats example_pfa) (fun o => bind (get formats o "image_data") (fun im =>
        bind (get_integer formats im "first_row") (fun r => bind (get_integer formats im "first_col") (fun c => sicd_update_object formats r c o example_window)))) with
  | Ok o => match render_document exact formats o with Some y => y | None => example_pfa end
  | Err _ => example_pfa
  end.
Definition example_scan (s : string) : res Xml := Ok (if String.eqb s "<SICD/>" then example_pfa else example_tile).
Definition example_print (y : Xml) : string := "<SICD tile/>".
Definition example_parse (s : string) : res TreModel.Element := Ok (El "des_list" [] [seg (if String.eqb s "image" then "<SICD/>" else "<SICD tile/>")]).
Definition example_file (path : string) : Dataset := mkDataset 10 20 None (Some [path]) None None None.
Definition example_gdal : Gdal :=
  mkGdal (fun fs a => (fs, Ok tt)) (fun _ _ => Ok false) (fun _ _ => Err AttributeError) (fun _ _ _ => Err OtherError) (fun _ _ => Ok tt) (fun fs _ => (fs, Ok tt)).
Example C99_non_vacuous : forall tc tg lstsq rpc_minimize rsm_minimize crs_of,
  let parse_xml := document_of exact formats decimal_value example_scan in
  let open := load_gdal_dataset Opened (open_builders demo_conv true tc tg lstsq rpc_minimize rsm_minimize crs_of parse_xml) demo_conv (fun s => Ok s) (fun _ => "")
    example_parse (fun s => s) (fun path => Ok (Some (example_file path))) in
  let update := update_document (F := Decimal) (D := Word) (T := Word) formats decimal_value (fun _ => (0, 0)%Z) in
  let encode := encode_document exact formats example_print in
  (exists r, open "image" = Ok (example_file "image", r)) /\ (exists r, open "tile" = Ok (example_file "tile", r)) /\
  first_sar_text (fun s => Ok s) (fun _ => "") example_parse (fun s => s) (example_file "image") "<SICD/>" /\
  first_sar_text (fun s => Ok s) (fun _ => "") example_parse (fun s => s) (example_file "tile") "<SICD tile/>" /\
  valid_document exact_texts false example_pfa /\ valid_document exact_texts false example_tile /\ carries exact example_scan "<SICD tile/>" example_tile /\
  (exists d b, parse_xml "<SICD/>" = Ok (SicdDocument d) /\ sicd_build d = Some (Complete b)) /\
  exists dess fac st0, parsed_segments example_parse (fun s => s) (example_file "image") dess /\
    tile_factory demo_conv (fun s => Ok s) (fun _ => "") (make_sidd exact formats example_scan) (make_sicd exact formats example_scan)
      "NITF" dess [] None Nitf None (Some DisplayModel.Byte) DisplayModel.NoAdjustment "NITF" = Ok (fac, st0) /\
    exists a, In (Translate a) (snd (fst (create_encoded_tile update encode (fun _ => "") example_gdal nobody fac st0 (fun _ => None) example_window "t"))).
Proof.
  intros tc tg lstsq rpc_minimize rsm_minimize crs_of parse_xml open update encode.
  assert (O : forall path, exists r, open path = Ok (example_file path, r)).
  { intros path. unfold open, load_gdal_dataset. cbn [ds_tres example_file ds_dess RsmModel.map_res bind]. unfold factory_build, approximate_from_gdal, selection.
    cbn [md_selected md_geo_transform md_proj_wkt md_gcps ds_geo_transform ds_proj_wkt ds_gcps example_file ds_width ds_height bind example_parse].
    destruct (String.eqb (strip_prologs path) "image"); eexists; reflexivity. }
  assert (St : forall path x, strip_prologs path = path -> x = (if String.eqb path "image" then "<SICD/>" else "<SICD tile/>") ->
    first_sar_text (fun s => Ok s) (fun _ => "") example_parse (fun s => s) (example_file path) x).
  { intros path x Sp ->. set (x := if String.eqb path "image" then "<SICD/>" else "<SICD tile/>"). exists [seg x], [], []. split.
    - exists [El "des_list" [] [seg x]]. split; [|reflexivity]. constructor; [|constructor]. cbn beta. rewrite Sp. reflexivity.
    - split; [constructor; [unfold x; destruct (String.eqb path "image"); reflexivity|constructor]|]. split; [intros t []|]. exists x. split; [reflexivity|]. right. apply contains_occurs. unfold x. destruct (String.eqb path "image"); reflexivity. }
  split; [apply O|]. split; [apply O|]. split; [apply St; reflexivity|]. split; [apply St; reflexivity|].
  split; [apply document_valid_b_sound; vm_compute; reflexivity|]. split; [apply document_valid_b_sound; vm_compute; reflexivity|].
  split; [unfold carries, parse_text, example_scan; replace (String.eqb "<SICD tile/>" "<SICD/>") with false by reflexivity; cbn [bind]; exact eq_refl|].
  assert (Bt : match bind (parse_xml "<SICD/>") (fun d => match d with SicdDocument d => match sicd_build d with Some (Complete _) => Ok tt | _ => Err ValueError end | _ => Err ValueError end) with
               | Ok _ => true | Err _ => false end = true) by (vm_compute; reflexivity).
  split.
  { destruct (parse_xml "<SICD/>") as [[d|d|]|]; cbn [bind] in Bt; try discriminate. destruct (sicd_build d) as [[b|b]|] eqn:Bd; try discriminate. exists d, b. split; [reflexivity|exact Bd]. }
  clear Bt. assert (Ft : match tile_factory demo_conv (fun s => Ok s) (fun _ => "") (make_sidd exact formats example_scan) (make_sicd exact formats example_scan)
      "NITF" [El "des_list" [] [seg "<SICD/>"]] [] None Nitf None (Some DisplayModel.Byte) DisplayModel.NoAdjustment "NITF" with
      | Ok (fac, st0) => match snd (fst (create_encoded_tile update encode (fun _ => "") example_gdal nobody fac st0 (fun _ => None) example_window "t")) with Translate _ :: _ => true | _ => false end
      | Err _ => false end = true) by (vm_compute; reflexivity).
  exists [El "des_list" [] [seg "<SICD/>"]].
  destruct (tile_factory demo_conv (fun s => Ok s) (fun _ => "") (make_sidd exact formats example_scan) (make_sicd exact formats example_scan)
      "NITF" [El "des_list" [] [seg "<SICD/>"]] [] None Nitf None (Some DisplayModel.Byte) DisplayModel.NoAdjustment "NITF") as [[fac st0]|]; [|discriminate Ft].
  exists fac, st0. split; [constructor; [reflexivity|constructor]|]. split; [reflexivity|].
  destruct (snd (fst (create_encoded_tile update encode (fun _ => "") example_gdal nobody fac st0 (fun _ => None) example_window "t"))) as [|[a| | | | |] l]; try discriminate Ft. exists a. left. reflexivity.
Qed.
(** The SIDD document of test/data that is not a chip gives a model. *)
Example C99_sidd_non_vacuous : forall lstsq, let parse_xml := document_of exact formats decimal_value (fun _ => Ok example_sidd) in
  exists d full, parse_xml "<SIDD/>" = Ok (SiddDocument d) /\ chip d = None /\ sidd_from_dataclass lstsq d = Ok full.
Proof.
  intros lstsq parse_xml.
  assert (B : match bind (parse_xml "<SIDD/>") (fun d => match d with SiddDocument d => match chip d with None => match sidd_from_dataclass lstsq d with Ok _ => Ok tt | Err e => Err e end | Some _ => Err ValueError end | _ => Err ValueError end) with
              | Ok _ => true | Err _ => false end = true) by (vm_compute; reflexivity).
  destruct (parse_xml "<SIDD/>") as [[d|d|]|]; cbn [bind] in B; try discriminate B. destruct (chip d) eqn:C; [discriminate B|]. destruct (sidd_from_dataclass lstsq d) as [full|] eqn:S; [|discriminate B].
  exists d, full. split; [reflexivity|]. split; [exact C|exact S].
Qed.
