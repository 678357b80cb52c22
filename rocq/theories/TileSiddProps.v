(** Properties of tiles that carry a SIDD document, whatever was asked for before and whether the image is a
    chip or not: C99 and C100. *)
Require Import ZArith Reals String Ascii List Bool Lia Lra.
Require Import Verif.Base Verif.Vec Verif.SensorBase Verif.TransformModel Verif.TransformSpec Verif.TreModel Verif.TreSpec Verif.BuilderModel Verif.BuilderSpec Verif.TreProofs Verif.BuilderProofs
  Verif.EncodeModel Verif.EncodeSpec Verif.EncodeProofs Verif.EncodeProps Verif.EncodeSensorProps
  Verif.SicdModel Verif.SarMetaModel Verif.SarMetaSpec Verif.SarMetaProps Verif.OpenModel Verif.OpenSpec Verif.OpenProps
  Verif.SchemaModel Verif.SchemaSpec Verif.SchemaProofs Verif.SchemaProps
  Verif.SarDocModel Verif.SarDocProofs Verif.SchemaCheck Verif.ExampleDocs Verif.SarDocProps Verif.XsdModel Verif.XsdSpec Verif.XsdChangeProofs Verif.XsdCheck Verif.XsdProps Verif.XsdChipProps Verif.TileDocModel Verif.TileDocProofs Verif.TileDocProps Verif.TileSiddSpec Verif.TileSiddProofs Verif.SarChipProps.
Import ListNotations.
Local Open Scope string_scope.

(** ** C99 and C100: the tiles of an image with a SIDD document *)
Section Tiles.
Context {F D T : Type}.
Variable L : Lexical F D T.
Variable X : XsdTexts F D T.
Variable num : F -> R.
Variable float_of : R -> F.
Variable scan : string -> res Xml.
Variable print : Xml -> string.
Hypothesis LO : lexical_ok L.
Hypothesis AG : agrees X L.
(** What is external to opening an image, as in C90. *)
Variable cv : Conv.
Variable caught : bool.
Variable to_geocentric : Geodetic -> Vec.
Variable to_geodetic : Vec -> Geodetic.
Variable lstsq : list (list R) -> list R -> res (list R).
Variable rpc_minimize : (R * R -> res R) -> R * R -> list (R * R) -> res (R * R).
Variable rsm_minimize : (R * R -> res R) -> R * R -> option TileModel.Bounds -> list (R * R) -> res (R * R).
Variable crs_of : string -> res Crs.
Variable decode : string -> res string.
Variable tostring : TreModel.Element -> string.
Variable parse : string -> res TreModel.Element.
Variable trim : string -> string.
Variable open_dataset : string -> res (option Dataset).
Variable show_R : R -> string.

Let parse_xml := document_of L formats num scan.
Let open := load_gdal_dataset Opened (open_builders cv caught to_geocentric to_geodetic lstsq rpc_minimize rsm_minimize crs_of parse_xml) cv decode tostring parse trim open_dataset.
Let locate := opened_image_to_world to_geodetic to_geocentric.
Let find := opened_world_to_image to_geodetic to_geocentric.
Let sar_text := first_sar_text decode tostring parse trim.
Let update := update_document (F := F) (D := D) (T := T) formats num float_of.
Let encode := encode_document L formats print.
Let factory := tile_factory cv decode tostring (make_sidd L formats scan) (make_sicd L formats scan).

Let rd (r : R) : R := num (float_of r).

(** The corners of the window of the first tile of an image that is not a chip are written as integers,
    which are read as floats. *)
Definition readable (w : Bounds) : Prop := Forall (fun z => (Z.abs z <= 2 ^ 53)%Z) [bx w; by_ w; bx w + bw w - 1; by_ w + bh w - 1]%Z.

Lemma sidd_of_text x o v d : parse_text L formats scan x = Ok o -> In v ["sidd100"; "sidd200"; "sidd300"] -> inst_of formats (v ++ ".SIDD") o -> parse_xml x = Ok (SiddDocument d) ->
  sidd_meta num formats o = Ok d.
Proof.
  intros Px Iv Io Dx. unfold parse_xml, document_of in Dx. rewrite Px in Dx. cbn [bind] in Dx. destruct Io as (slots & k & -> & _).
  destruct (sidd_meta num formats (Inst (v ++ ".SIDD") slots)) as [d'|]; cbn [In] in Iv; decompose [or] Iv; try contradiction; subst v; cbn in Dx; congruence.
Qed.
(** An image is opened whose first SAR text is a valid SIDD document, chipped already or not, and a tile
    factory is made for it.  After any history of requests, a tile is written only if the window can be
    recorded as a chip of what the history has left (so not after a tile that is one pixel wide or high),
    and then it carries a document with the same root element, valid when the size of the tile is in the
    range of xs:int.  Any file that carries this document is read as the image's document with the chip
    that the exact computation gives, its corners rounded once when they come from an earlier chip. *)
Theorem C99_sidd_tiles : whole_numbers L num -> whole_texts L X ->
  forall path ds r x t0 d,
  open path = Ok (ds, r) -> sar_text ds x -> occurs "SIDD" x -> scan x = Ok t0 -> valid_document X false t0 -> snd (tag t0) = "SIDD" -> parse_xml x = Ok (SiddDocument d) ->
  forall dess bands sensor c desired adjust ext fac st0, parsed_segments parse trim ds dess ->
  factory "NITF" dess bands sensor Nitf c desired adjust ext = Ok (fac, st0) ->
  forall history g others fs q token st' fs' calls result a,
  create_encoded_tile update encode show_R g others fac (serve update encode show_R fac st0 history) fs q token = (st', fs', calls, result) -> In (Translate a) calls ->
  exists qs d1, tried show_R fac history qs /\ sidd_tile rd (sidd_kept rd d qs) q = Ok d1 /\
    let '(ow, oh) := match snd q with None => (bw (fst q), bh (fst q)) | Some s => s end in
    (chip (sidd_kept rd d qs) = None -> readable (fst q)) ->
    exists y, In ("DES=XML_DATA_CONTENT=" ++ f_header fac ++ print y) (a_options a) /\ tag y = tag t0 /\ (in_int ow -> in_int oh -> valid_document X false y) /\
      forall x1, carries L scan x1 y -> parse_xml x1 = Ok (SiddDocument d1).
Proof.
  intros W WT path ds r x t0 d Op St Ns Sc V R Dx dess bands sensor c desired adjust ext fac st0 Ps Fa history g others fs q token st' fs' calls result a E I.
  destruct (valid_document_parsed L X LO AG t0 V) as (k & o & Ik & Po & To & _ & _). destruct (sidd_class k _ Ik R) as (v & Iv & ->).
  assert (Px : parse_text L formats scan x = Ok o) by (unfold parse_text; rewrite Sc; exact Po).
  assert (Io : inst_of formats (v ++ ".SIDD") o) by (apply (shaped_inst_of L formats _ _ o To)).
  pose proof (sidd_of_text x o v d Px Iv Io Dx) as M.
  assert (A : shaped L formats (fun _ _ => True) (TClass (v ++ ".SIDD")) o).
  { destruct (sidd_root F D T L t0 o LO Po R) as (v' & Iv' & _ & H). assert (v' = v).
    { destruct Io as (slots & kk & Eo & _). rewrite Eo in H. destruct H as [Ec _]. injection Ec as Ec. cbn [In] in Iv, Iv'. clear - Ec Iv Iv'. decompose [or] Iv; decompose [or] Iv'; subst; try contradiction; try reflexivity; discriminate. }
    subst v'. apply (held_any L formats o _ H). }
  destruct (factory_document L scan cv decode tostring parse trim ds x dess bands sensor Nitf c desired adjust ext fac st0 St Ps Fa) as (u & Eu & Mk & _). specialize (Mk Ns).
  unfold make_sidd in Mk. rewrite Px in Mk. cbn [bind] in Mk. injection Mk as <-.
  pose proof Fa as Fa0. unfold factory in Fa0. destruct (C53_new_factory _ _ _ _ _ _ _ _ _ _ _ _ _ _ _ _ _ Fa0) as (Fn & _ & _ & t & scales & _ & De).
  destruct (tile_text_tried _ update encode show_R fac st0 _ _ _ _ De Eu Fn history g others fs q token st' fs' calls result a E I) as (qs & u' & Tr & Uq & In1).
  assert (Fold : forall qs o, fold_left (fun u q => fst (update u q)) qs (SiddUpdating o) = SiddUpdating (fold_left (fun o q => fst (sidd_step_object formats num float_of o q)) qs o)).
  { clear. induction qs as [|q qs IH]; intros o; [reflexivity|]. cbn [fold_left]. unfold update at 2. cbn [update_document fst]. rewrite IH. reflexivity. }
  rewrite Fold in Uq. unfold update in Uq. cbn [update_document] in Uq.
  pose proof (keeps_run L num float_of v Iv o d qs o d (keeps_first L num v o d A M)) as K. fold rd in K.
  set (on := fold_left _ qs o) in *. set (dn := sidd_kept rd d qs) in *.
  pose proof (keeps_step L num float_of v Iv o d on dn q K) as S. fold rd in S. unfold sidd_step_object in Uq.
  destruct (sidd_update_object formats num float_of on q) as [o1|e]; [|discriminate]. destruct (sidd_tile rd dn q) as [d1|e] eqn:Et; [|contradiction].
  cbn [fst snd] in Uq. injection Uq as <-. exists qs, d1. split; [exact Tr|]. split; [exact Et|].
  destruct S as (_ & ch & ul & ur & lr & ll & D1 & Pc & Sz & Sf). destruct (match snd q with None => (bw (fst q), bh (fst q)) | Some s => s end) as [ow oh]. injection Sz as <- <-.
  intros Rd. destruct (Sf Rd) as (S1 & S2 & S3 & S4).
  destruct (C97_sidd_chip F D T L num LO W t0 o d Po R M ch ul ur lr ll S1 S2 S3 S4) as (o' & y & o'' & Pc' & Ry & Ty & Py & My). rewrite Pc in Pc'. injection Pc' as <-.
  exists y. split; [unfold encode, encode_document in In1; cbn [held] in In1; rewrite Ry in In1; exact In1|]. split; [exact Ty|]. split.
  - intros I1 I2. destruct (C98_sidd_chip F D T L X num LO AG W WT t0 o d V R Po M ch ul ur lr ll S1 S2 S3 S4 I1 I2) as (o2 & y2 & P2 & Ry2 & _ & Vy & _). rewrite Pc in P2. injection P2 as <-.
    rewrite Ry in Ry2. injection Ry2 as <-. exact Vy.
  - intros x1 Ca. rewrite D1. assert (Ry1 : snd (tag y) = "SIDD") by (rewrite Ty; exact R).
    destruct (sidd_root F D T L y o'' LO Py Ry1) as (v1 & Iv1 & _ & H1).
    apply (sidd_read L num scan x1 o'' v1); [rewrite Ca; exact Py|exact Iv1|apply (shaped_inst_of L formats _ _ o'' H1)|exact My].
Qed.

(** The floats can hold the integers up to 2^53. *)
Definition whole_rounding : Prop := forall z, (Z.abs z <= 2 ^ 53)%Z -> rd (IZR z) = IZR z.
Lemma rounded_window c b : whole_rounding -> is_window c b -> readable b -> rounded_chip rd c = c.
Proof.
  intros Wr (_ & _ & A1 & A2 & A3 & A4) Rb. inversion_clear Rb as [|? ? B1 B']. inversion_clear B' as [|? ? B2 B'']. inversion_clear B'' as [|? ? B3 B']. inversion_clear B' as [|? ? B4 _].
  destruct c as [cw ch ul ur lr ll]. cbn [upper_left upper_right lower_right lower_left] in *. subst. unfold rounded_chip, rounded_corner. cbn [fst snd chip_cols chip_rows upper_left upper_right lower_right lower_left].
  rewrite !Wr by assumption. reflexivity.
Qed.
Lemma tile_window d c a b : whole_rounding -> chip d = Some c -> is_window c a -> (bw a <> 1)%Z -> (bh a <> 1)%Z -> readable (within a b) ->
  exists c', sidd_update d (b, None) = (with_chip d c', Ok tt) /\ sidd_tile rd d (b, None) = Ok (with_chip d c') /\ is_window c' (within a b).
Proof.
  intros Wr Ch Wi N1 N2 Rb. destruct (C42_window_of_window d c a b Ch Wi N1 N2) as (c' & U & W'). exists c'. split; [exact U|]. split; [|exact W'].
  unfold sidd_update in U. unfold sidd_tile. destruct (sidd_update_doc d (b, None)) as [d'|]; [|discriminate]. injection U as ->. cbn [bind]. rewrite Ch. cbn [chip with_chip].
  rewrite (rounded_window c' (within a b) Wr W' Rb). reflexivity.
Qed.

(** After one tile of an image that is not a chip, the next tile carries a document that says it was cut
    out of the first tile, not out of the image. *)
Theorem C99_sidd_second_tile : whole_numbers L num -> whole_texts L X -> whole_rounding ->
  forall path ds r x t0 d,
  open path = Ok (ds, r) -> sar_text ds x -> occurs "SIDD" x -> scan x = Ok t0 -> valid_document X false t0 -> snd (tag t0) = "SIDD" -> parse_xml x = Ok (SiddDocument d) -> chip d = None ->
  forall dess bands sensor c desired adjust ext fac st0, parsed_segments parse trim ds dess ->
  factory "NITF" dess bands sensor Nitf c desired adjust ext = Ok (fac, st0) ->
  forall g0 others0 fs0 token0 first located, location_options show_R fac first located -> (bw first <> 1)%Z -> (bh first <> 1)%Z ->
  forall g others fs b token st' fs' calls result a,
  create_encoded_tile update encode show_R g others fac (serve update encode show_R fac st0 [(g0, others0, fs0, (first, None), token0)]) fs (b, None) token = (st', fs', calls, result) ->
  In (Translate a) calls -> readable (within first b) ->
  exists y, In ("DES=XML_DATA_CONTENT=" ++ f_header fac ++ print y) (a_options a) /\ (in_int (bw b) -> in_int (bh b) -> valid_document X false y) /\
    forall x1, carries L scan x1 y -> exists c1, parse_xml x1 = Ok (SiddDocument (with_chip d c1)) /\ is_window c1 (within first b).
Proof.
  intros W WT Wr path ds r x t0 d Op St Ns Sc V R Dx Ch dess bands sensor c desired adjust ext fac st0 Ps Fa g0 others0 fs0 token0 first located Lo N1 N2 g others fs b token st' fs' calls result a E I Rb.
  destruct (C99_sidd_tiles W WT path ds r x t0 d Op St Ns Sc V R Dx dess bands sensor c desired adjust ext fac st0 Ps Fa _ g others fs (b, None) token st' fs' calls result a E I) as (qs & d1 & Tr & Et & Y).
  cbn [fst snd] in Y.
  assert (Eq : qs = [(first, None)]).
  { inversion Tr as [|? ? ? ? ? ? ? N Tr'|? ? ? ? ? ? ? o Ho Tr']; subst; [exfalso; apply (N located), Lo|]. inversion Tr'. reflexivity. }
  subst qs. destruct (C42_first_chip d first Ch) as (c1 & U1 & W1).
  assert (K : sidd_kept rd d [(first, None)] = with_chip d c1).
  { cbn [sidd_kept fold_left]. unfold sidd_update in U1. unfold sidd_tile. destruct (sidd_update_doc d (first, None)) as [d'|]; [|discriminate]. injection U1 as ->. cbn [bind]. rewrite Ch. reflexivity. }
  rewrite K in Et, Y. destruct (tile_window (with_chip d c1) c1 first b Wr eq_refl W1 N1 N2 Rb) as (c2 & _ & Et' & W2). rewrite Et in Et'. injection Et' as ->.
  destruct Y as (y & In1 & _ & Vy & Ry); [discriminate|]. exists y. split; [exact In1|]. split; [exact Vy|]. intros x1 Ca. exists c2. split; [apply (Ry x1 Ca)|exact W2].
Qed.

(** The first tile of an image that is itself the window [w0] of another image.  Pixel (i, j) of the tile
    is located where the image locates ((left + i (w - 1) / w) W / (W - 1), (top + j (h - 1) / h) H / (H - 1)). *)
Theorem C100_tiles_of_chips : whole_numbers L num -> whole_texts L X -> whole_rounding -> least_squares lstsq ->
  forall path ds r x t0 d c0 w0 full,
  open path = Ok (ds, r) -> sar_text ds x -> occurs "SIDD" x -> scan x = Ok t0 -> valid_document X false t0 -> snd (tag t0) = "SIDD" -> parse_xml x = Ok (SiddDocument d) ->
  chip d = Some c0 -> is_window c0 w0 -> (1 < bw w0)%Z -> (1 < bh w0)%Z -> sidd_from_dataclass lstsq d = Ok full ->
  forall dess bands sensor c desired adjust ext fac st0, parsed_segments parse trim ds dess ->
  factory "NITF" dess bands sensor Nitf c desired adjust ext = Ok (fac, st0) ->
  forall g others fs b token st' fs' calls result a,
  create_encoded_tile update encode show_R g others fac st0 fs (b, None) token = (st', fs', calls, result) -> In (Translate a) calls -> readable (within w0 b) ->
  (1 < bw b)%Z -> (1 < bh b)%Z -> in_int (bw b) -> in_int (bh b) ->
  exists y, In ("DES=XML_DATA_CONTENT=" ++ f_header fac ++ print y) (a_options a) /\ tag y = tag t0 /\ valid_document X false y /\
    forall path1 ds1 r1 x1, open path1 = Ok (ds1, r1) -> sar_text ds1 x1 -> occurs "SIDD" x1 -> carries L scan x1 y ->
    exists d1, parse_xml x1 = Ok (SiddDocument d1) /\
    forall part, sidd_from_dataclass lstsq d1 = Ok part ->
    exists s s1, r = Some s /\ r1 = Some s1 /\
      let kx := (IZR (bw w0) / (IZR (bw w0) - 1))%R in let ky := (IZR (bh w0) / (IZR (bh w0) - 1))%R in
      (forall i j em o o1, locate s1 (mkImage i j) em o1 =
         locate s (mkImage ((IZR (bx b) + i * (IZR (bw b) - 1) / IZR (bw b)) * kx) ((IZR (by_ b) + j * (IZR (bh b) - 1) / IZR (bh b)) * ky)) em o) /\
      (forall p, find s1 p = bind (find s p) (fun i =>
         Ok (mkImage ((ix i / kx - IZR (bx b)) * IZR (bw b) / (IZR (bw b) - 1)) ((iy i / ky - IZR (by_ b)) * IZR (bh b) / (IZR (bh b) - 1))))).
Proof.
  intros W WT Wr LS path ds r x t0 d c0 w0 full Op St Ns Sc V R Dx Ch Wi B1 B2 Bd dess bands sensor c desired adjust ext fac st0 Ps Fa g others fs b token st' fs' calls result a E I Rb B3 B4 I1 I2.
  destruct (C99_sidd_tiles W WT path ds r x t0 d Op St Ns Sc V R Dx dess bands sensor c desired adjust ext fac st0 Ps Fa [] g others fs (b, None) token st' fs' calls result a E I) as (qs & d1 & Tr & Et & Y).
  cbn [fst snd] in Y. inversion Tr; subst qs. change (sidd_kept rd d []) with d in *.
  assert (P : (bw w0 <> 1 /\ bh w0 <> 1 /\ bw b <> 1 /\ bh b <> 1 /\ bw b <> 0 /\ bh b <> 0 /\ bw w0 <> 0 /\ bh w0 <> 0)%Z) by lia. destruct P as (P1 & P2 & P3 & P4 & P5 & P6 & P7 & P8).
  destruct (tile_window d c0 w0 b Wr Ch Wi P1 P2 Rb) as (c1 & U1 & Et' & W1). rewrite Et in Et'. injection Et' as ->.
  destruct Y as (y & In1 & Ty & Vy & Ry); [rewrite Ch; discriminate|]. exists y. split; [exact In1|]. split; [exact Ty|]. split; [exact (Vy I1 I2)|].
  intros path1 ds1 r1 x1 Op1 St1 Ns1 Ca. exists (with_chip d c1). split; [exact (Ry x1 Ca)|]. intros part Bp.
  destruct (C90_sidd cv caught to_geocentric to_geodetic lstsq rpc_minimize rsm_minimize crs_of parse_xml decode tostring parse trim open_dataset path ds r x d full Op St Ns Dx Bd) as (s & -> & Lo0 & Fi0).
  destruct (C90_sidd cv caught to_geocentric to_geodetic lstsq rpc_minimize rsm_minimize crs_of parse_xml decode tostring parse trim open_dataset path1 ds1 r1 x1 _ part Op1 St1 Ns1 (Ry x1 Ca) Bp) as (s1 & -> & Lo1 & Fi1).
  exists s, s1. split; [reflexivity|]. split; [reflexivity|].
  destruct Wi as (Z1 & Z2 & Z3 & Z4 & Z5 & Z6). set (f := mkAffineMap (IZR (bx w0), IZR (by_ w0)) (1, 0)%R (0, 1)%R).
  assert (Cf : chip_is c0 f).
  { unfold chip_is, apply_affine, f. cbn [origin per_x per_y fst snd]. rewrite Z1, Z2, Z3, Z4, Z5, Z6, ?minus_IZR, ?plus_IZR. repeat split; f_equal; ring. }
  assert (Df : affine_det f <> 0%R) by (unfold affine_det, f; cbn [per_x per_y fst snd]; lra).
  assert (K1 : ~ In (chip_cols c0) [0; 1]%Z) by (rewrite Z1; cbn; intuition lia). assert (K2 : ~ In (chip_rows c0) [0; 1]%Z) by (rewrite Z2; cbn; intuition lia).
  destruct (C100_tile_of_chip lstsq to_geodetic to_geocentric d c0 f b None (with_chip d c1) full part LS Ch Cf Df K1 K2 U1 Bd Bp P3 P4 P5 P6) as [XL XF]. rewrite Z1, Z2 in XL, XF.
  intros kx ky. split.
  - intros i j em o3 o4. unfold locate. rewrite Lo1, Lo0. apply XL.
  - intros p. unfold find. rewrite Fi1, Fi0. rewrite XF. destruct (sidd_world_to_image to_geodetic to_geocentric full p) as [i|]; [|reflexivity]. cbn [bind]. unfold kx, ky.
    assert (Q : (IZR (bw w0) - 1 <> 0 /\ IZR (bh w0) - 1 <> 0 /\ IZR (bw w0) <> 0 /\ IZR (bh w0) <> 0 /\ IZR (bw b) - 1 <> 0 /\ IZR (bh b) - 1 <> 0)%R).
    { pose proof (IZR_not _ _ P1). pose proof (IZR_not _ _ P2). pose proof (IZR_not _ _ P3). pose proof (IZR_not _ _ P4). pose proof (IZR_not _ _ P7). pose proof (IZR_not _ _ P8). lra. }
    f_equal. f_equal; field; tauto.
Qed.
End Tiles.
Print Assumptions C99_sidd_tiles.
Print Assumptions C99_sidd_second_tile.
Print Assumptions C100_tiles_of_chips.

(** *** An example *)
(** The SIDD document of test/data that is not a chip, with the window (10, 20, 30, 40) put into it. *)
Definition window_doc : Xml :=
  match bind (parse_document exact formats example_sidd) (fun o =>
          sidd_put_chip formats o (30, 40)%Z (VInt 10, VInt 20)%Z (VInt 39, VInt 20)%Z (VInt 39, VInt 59)%Z (VInt 10, VInt 59)%Z) with
  | Ok o => match render_document exact formats o with Some y => y | None => example_sidd end
  | Err _ => example_sidd
  end.
Definition window_scan (s : string) : res Xml := Ok window_doc.
Definition whole_part (r : R) : Decimal := (Int_part r, 0%Z).
Definition window_parse (s : string) : res TreModel.Element := Ok (El "des_list" [] [seg "<SIDD/>"]).
(** A tile of it is written, and a second one after it. *)
Example C100_tiles_non_vacuous : forall tc tg rpc_minimize rsm_minimize crs_of, exists lstsq,
  let parse_xml := document_of exact formats decimal_value window_scan in
  let open := load_gdal_dataset Opened (open_builders demo_conv true tc tg lstsq rpc_minimize rsm_minimize crs_of parse_xml) demo_conv (fun s => Ok s) (fun _ => "")
    window_parse (fun s => s) (fun path => Ok (Some (example_file path))) in
  let update := update_document (F := Decimal) (D := Word) (T := Word) formats decimal_value whole_part in
  let encode := encode_document exact formats (fun _ => "<SIDD tile/>") in
  lexical_ok exact /\ agrees exact_texts exact /\ whole_numbers exact decimal_value /\ whole_texts exact exact_texts /\ whole_rounding decimal_value whole_part /\ least_squares lstsq /\
  (exists r, open "image" = Ok (example_file "image", r)) /\
  first_sar_text (fun s => Ok s) (fun _ => "") window_parse (fun s => s) (example_file "image") "<SIDD/>" /\ occurs "SIDD" "<SIDD/>" /\
  valid_document exact_texts false window_doc /\ snd (tag window_doc) = "SIDD" /\
  (exists d c full, parse_xml "<SIDD/>" = Ok (SiddDocument d) /\ chip d = Some c /\ is_window c (mkBounds 10 20 30 40) /\ sidd_from_dataclass lstsq d = Ok full) /\
  exists dess fac st0, parsed_segments window_parse (fun s => s) (example_file "image") dess /\
    tile_factory demo_conv (fun s => Ok s) (fun _ => "") (make_sidd exact formats window_scan) (make_sicd exact formats window_scan)
      "NITF" dess [] None Nitf None (Some DisplayModel.Byte) DisplayModel.NoAdjustment "NITF" = Ok (fac, st0) /\
    (exists a, In (Translate a) (snd (fst (create_encoded_tile update encode (fun _ => "") example_gdal nobody fac st0 (fun _ => None) example_window "t")))) /\
    (exists a, In (Translate a) (snd (fst (create_encoded_tile update encode (fun _ => "") example_gdal nobody fac
       (serve update encode (fun _ => "") fac st0 [(example_gdal, nobody, fun _ => None, example_window, "t")]) (fun _ => None) (mkBounds 1 1 2 2, Some (7, 8)%Z) "t")))).
Proof.
  intros tc tg rpc_minimize rsm_minimize crs_of. set (g := mkAffineMap (10, 20)%R (29 / 30, 0)%R (0, 39 / 40)%R). exists (trying [unmap g]). intros parse_xml open update encode.
  split; [exact exact_ok|]. split; [exact exact_agrees|]. split; [exact exact_whole|].
  split; [intros z Hz; destruct (exact_whole z Hz) as (f & E & _); exists f; exact E|].
  split. { intros z _. unfold whole_part, decimal_value. cbn [fst snd powerRZ]. rewrite Rmult_1_r. f_equal. destruct (base_Int_part (IZR z)) as [P Q]. apply le_IZR in P.
    assert (z < Int_part (IZR z) + 1)%Z by (apply lt_IZR; rewrite plus_IZR; lra). lia. }
  split; [apply trying_least_squares|].
  split. { unfold open, load_gdal_dataset. cbn [ds_tres example_file ds_dess RsmModel.map_res bind]. unfold factory_build, approximate_from_gdal, selection.
    cbn [md_selected md_geo_transform md_proj_wkt md_gcps ds_geo_transform ds_proj_wkt ds_gcps example_file ds_width ds_height bind window_parse].
    eexists; reflexivity. }
  split. { exists [seg "<SIDD/>"], [], []. split.
    - exists [El "des_list" [] [seg "<SIDD/>"]]. split; [|reflexivity]. constructor; [reflexivity|constructor].
    - split; [constructor; [reflexivity|constructor]|]. split; [intros t []|]. exists "<SIDD/>". split; [reflexivity|]. left. apply contains_occurs. reflexivity. }
  split; [apply contains_occurs; reflexivity|]. split; [apply document_valid_b_sound; vm_compute; reflexivity|]. split; [vm_compute; reflexivity|].
  assert (Bt : forall num, match bind (document_of exact formats num window_scan "<SIDD/>") (fun d => match d with SiddDocument d => match chip d, sidd_full_model d with
        | Some c, Ok _ => Ok (chip_cols c, chip_rows c, [upper_left c; upper_right c; lower_right c; lower_left c])
        | _, _ => Err ValueError end | _ => Err ValueError end) with
               | Ok t => t | Err _ => (0, 0, [])%Z end
             = (30, 40, [(num (10, 0), num (20, 0)); (num (39, 0), num (20, 0)); (num (39, 0), num (59, 0)); (num (10, 0), num (59, 0))])%Z) by (intros num; vm_compute; reflexivity).
  specialize (Bt decimal_value). fold parse_xml in Bt. split.
  { destruct (parse_xml "<SIDD/>") as [[d|d|]|]; cbn [bind] in Bt; try discriminate. destruct (chip d) as [c|] eqn:Ch; [|discriminate]. destruct (sidd_full_model d) as [m|] eqn:Sm; [|discriminate].
    injection Bt as B1 B2 B3 B4 B5 B6. assert (Dv : forall z, decimal_value (z, 0%Z) = IZR z) by (intros z; unfold decimal_value; cbn; apply Rmult_1_r). rewrite !Dv in *.
    assert (Wi : is_window c (mkBounds 10 20 30 40)) by (unfold is_window; cbn [bx by_ bw bh]; repeat split; assumption).
    assert (E : exists t, estimate (trying [unmap g]) (full_corners c) (chip_corners c) = Ok t).
    { unfold full_corners, chip_corners. rewrite B1, B2, B3, B4, B5, B6. assert (Ng : affine_det g <> 0%R) by (unfold affine_det, g; cbn [per_x per_y fst snd]; lra).
      apply (trying_estimate _ (unmap g)); [left; reflexivity|discriminate|].
      assert (Q : forall p q, q = apply_affine g p -> takes (unmap g) q p) by (intros p q ->; apply unmap_takes, Ng).
      repeat apply Forall2_cons; [..|constructor]; apply Q; unfold apply_affine, g; cbn [origin per_x per_y fst snd]; f_equal; lra. }
    destruct E as [t E]. exists d, c, (mkSiddModel m (Some t)). split; [reflexivity|]. split; [exact Ch|]. split; [exact Wi|]. unfold sidd_from_dataclass. rewrite Sm. cbn [bind]. rewrite Ch, E. reflexivity. }
  clear Bt. assert (Ft : match tile_factory demo_conv (fun s => Ok s) (fun _ => "") (make_sidd exact formats window_scan) (make_sicd exact formats window_scan)
      "NITF" [El "des_list" [] [seg "<SIDD/>"]] [] None Nitf None (Some DisplayModel.Byte) DisplayModel.NoAdjustment "NITF" with
      | Ok (fac, st0) => match snd (fst (create_encoded_tile update encode (fun _ => "") example_gdal nobody fac st0 (fun _ => None) example_window "t")),
          snd (fst (create_encoded_tile update encode (fun _ => "") example_gdal nobody fac
       (serve update encode (fun _ => "") fac st0 [(example_gdal, nobody, fun _ => None, example_window, "t")]) (fun _ => None) (mkBounds 1 1 2 2, Some (7, 8)%Z) "t"))
          with Translate _ :: _, Translate _ :: _ => true | _, _ => false end
      | Err _ => false end = true) by (vm_compute; reflexivity).
  exists [El "des_list" [] [seg "<SIDD/>"]].
  destruct (tile_factory demo_conv (fun s => Ok s) (fun _ => "") (make_sidd exact formats window_scan) (make_sicd exact formats window_scan)
      "NITF" [El "des_list" [] [seg "<SIDD/>"]] [] None Nitf None (Some DisplayModel.Byte) DisplayModel.NoAdjustment "NITF") as [[fac st0]|]; [|discriminate Ft].
  exists fac, st0. split; [constructor; [reflexivity|constructor]|]. split; [reflexivity|].
  destruct (snd (fst (create_encoded_tile update encode (fun _ => "") example_gdal nobody fac st0 (fun _ => None) example_window "t"))) as [|[a| | | | |] l]; try discriminate Ft.
  match type of Ft with match ?e with _ => _ end = _ => destruct e as [|[a'| | | | |] l'] end; try discriminate Ft.
  split; [exists a|exists a']; left; reflexivity.
Qed.
