(** Property theorems for opened images: C90. *)
Require Import ZArith Reals String List Bool Lia Lra.
Require Import Verif.Base Verif.Vec Verif.SensorBase Verif.RpcModel Verif.RsmModel Verif.PolySpec Verif.TransformModel Verif.TransformSpec
  Verif.TransformProofs Verif.TransformProps Verif.SicdModel Verif.SicdSpec Verif.SarMetaModel Verif.SarMetaSpec Verif.SarMetaProps Verif.SicdProps Verif.SicdSurfaceProps Verif.SicdMetaSpec Verif.SicdMetaProps
  Verif.TreModel Verif.TreSpec Verif.TreProofs Verif.TreProps Verif.BuilderModel Verif.BuilderSpec Verif.BuilderProofs Verif.BuilderProps Verif.BuilderSensorProps
  Verif.SicdFindSpec Verif.SicdFindProps Verif.OpenModel Verif.OpenSpec.
Import ListNotations.
Local Open Scope string_scope.

Section Open.
Variable cv : Conv.
Variable caught : bool.
Variable to_geocentric : Geodetic -> Vec.
Variable to_geodetic : Vec -> Geodetic.
Variable lstsq : list (list R) -> list R -> res (list R).
Variable rpc_minimize : (R * R -> res R) -> R * R -> list (R * R) -> res (R * R).
Variable rsm_minimize : (R * R -> res R) -> R * R -> option TileModel.Bounds -> list (R * R) -> res (R * R).
Variable crs_of : string -> res Crs.
Variable parse_xml : string -> res Document.
Variable decode : string -> res string.
Variable tostring : Element -> string.
Variable parse : string -> res Element.
Variable trim : string -> string.
Variable open_dataset : string -> res (option Dataset).

Let bs := open_builders cv caught to_geocentric to_geodetic lstsq rpc_minimize rsm_minimize crs_of parse_xml.
Let open := load_gdal_dataset Opened bs cv decode tostring parse trim open_dataset.
Let locate := opened_image_to_world to_geodetic to_geocentric.
Let find := opened_world_to_image to_geodetic to_geocentric.
Let sar_text := first_sar_text decode tostring parse trim.
Let no_sar := no_sar_text decode tostring parse trim.

(** Approximate models always answer, with a number. *)
Definition answers (m : Opened) : Prop := forall i em o, exists g, locate m i em o = Ok (Some g).
Lemma chip_answers chip full m : (forall x, full = Some x -> answers x) -> on_chip Opened bs chip full m -> forall a, m = Some a -> answers a.
Proof.
  intros F C a ->. unfold on_chip in C. destruct full as [x|]; [|destruct chip; discriminate]. specialize (F x eq_refl).
  destruct chip as [f|]; [|injection C as ->; exact F]. destruct C as (c & E & Q). injection Q as ->. cbn in E. unfold chip_opened in E.
  destruct (chipped_image_coordinates f); [discriminate|]. apply bind_ok in E. destruct E as (t & _ & E). injection E as <-.
  intros j em o. unfold locate. cbn. apply F.
Qed.
Lemma projective_answers t : answers (Optical (projective_sensor t)).
Proof. intros i em o. eexists. reflexivity. Qed.
Lemma approximate_answers md a : approximate_is Opened bs cv md (Some a) -> answers a.
Proof.
  intros [(_ & _ & tres & chip & w & h & p & _ & _ & B & C) | (_ & [(gcps & _ & _ & B) | (_ & [(gt & _ & _ & B) | (_ & B)])])].
  - eapply (chip_answers chip p); [|exact C|reflexivity]. intros x ->. cbn in B. unfold map_option in B.
    apply bind_ok in B. destruct B as ([t|] & _ & B); [|discriminate]. injection B as <-. apply projective_answers.
  - cbn in B. unfold map_option in B. apply bind_ok in B. destruct B as ([t|] & _ & B); [|discriminate]. injection B as <-. apply projective_answers.
  - cbn in B. unfold map_option in B. apply bind_ok in B. destruct B as ([s|] & E & B); [|discriminate]. injection B as <-.
    unfold affine_build in E. apply bind_ok in E. destruct E as (m0 & _ & E). intros i em o.
    assert (K : exists m, s = affine_sensor m).
    { destruct (md_proj_wkt md) as [[|c w]|]; [injection E as <-; eauto| |injection E as <-; eauto].
      apply bind_ok in E. destruct E as (crs & _ & E). apply bind_ok in E. destruct E as (m & _ & E). injection E as <-. eauto. }
    destruct K as (m & ->). eexists. reflexivity.
  - discriminate.
Qed.
(** So an approximate model does not get in the way of a precise one that ignores the options. *)
Lemma combined md a p r : approximate_is Opened bs cv md a ->
  r = match a, Some p with
      | Some a, Some p => Some (b_composite bs a p)
      | None, Some p => Some p
      | Some a, None => Some a
      | None, None => None
      end ->
  exists s, r = Some s /\ (forall g, find s g = find p g) /\
  (forall i em o, exists o', locate s i em o = locate p i em o').
Proof.
  intros A ->. destruct a as [a|].
  - exists (Guided a p). split; [reflexivity|]. split; [reflexivity|]. intros i em o.
    destruct (approximate_answers md a A i em o) as (g & G). unfold locate in *. cbn. rewrite G. cbn [bind]. eauto.
  - exists p. split; [reflexivity|]. split; [reflexivity|]. eauto.
Qed.

(** *** The texts of the segments are determined by the dataset *)
Lemma loaded path ds r : open path = Ok (ds, r) -> exists md,
  factory_build Opened bs cv decode tostring md = Ok r /\ (forall t, wants md t) /\
  (forall segs, xml_segments parse trim ds segs -> segs = segments md) /\
  (forall tres, tres_of parse ds tres -> md_tres md = Some tres) /\
  (ds_tres ds = None -> md_tres md = None) /\
  md_geo_transform md = ds_geo_transform ds /\ md_gcps md = ds_gcps ds /\
  md_proj_wkt md = ds_proj_wkt ds /\ md_width md = ds_width ds /\ md_height md = ds_height ds.
Proof.
  intros H. destruct (C72_loaded _ _ _ _ _ _ _ _ _ _ _ H) as (_ & md & F & E4 & E5 & E1 & E3 & E2 & W & T & D).
  exists md. split; [exact F|]. split; [exact W|]. split; [|split; [|split; [|repeat split; assumption]]].
  - intros segs X. unfold xml_segments in X. unfold segments. destruct (ds_dess ds) as [l|].
    + destruct D as (es & -> & D). destruct X as (es' & X & ->).
      assert (es' = es) as ->; [|reflexivity]. clear - X D. revert es' X. induction D; intros es' X; inversion X; subst; [reflexivity|].
      f_equal; [congruence|auto].
    + rewrite D. exact X.
  - intros tres (t & rest & E & P). rewrite E in T. destruct T as (e & Pe & ->). congruence.
  - intros E. rewrite E in T. exact T.
Qed.
Lemma same_texts segs l l' texts texts' rest rest' : segs = (l ++ rest)%list -> segs = (l' ++ rest')%list ->
  segment_texts decode tostring l texts -> segment_texts decode tostring l' texts' ->
  exists more, texts = (texts' ++ more)%list \/ texts' = (texts ++ more)%list.
Proof.
  intros -> E T T'. revert l' rest' texts' E T'. induction T as [|s t l texts Es T IH]; intros l' rest' texts' E T'.
  - exists texts'. now right.
  - inversion T' as [|s' t' l2 texts2 Es' T2]; subst.
    + exists (t :: texts). now left.
    + cbn in E. injection E as <- E. destruct (IH l2 rest' texts2 E T2) as (more & [-> | ->]); exists more; [left|right]; cbn; f_equal; congruence.
Qed.
Lemma not_mentions md t : (forall t, wants md t) -> (~ is_sidd t /\ ~ is_sicd md t) <-> ~ mentions_sar t.
Proof.
  intros W. unfold mentions_sar, is_sidd, is_sicd. split.
  - intros [A B] (x & E & [X|X]); [apply A|apply B; split; [apply W|]]; eauto.
  - intros N. split; [intros (x & E & X)|intros (_ & x & E & X)]; apply N; eauto.
Qed.
Lemma first_of (P : option string -> Prop) a b x y more : (forall t, In t a -> ~ P t) -> (forall t, In t b -> ~ P t) -> P x -> P y ->
  (a ++ [x] = (b ++ [y]) ++ more)%list \/ (b ++ [y] = (a ++ [x]) ++ more)%list -> x = y.
Proof.
  revert b. induction a as [|c a IH]; intros b A B X Y E.
  - destruct b as [|d b]; [destruct E as [E|E]; injection E; auto|]. exfalso. apply (B d); [now left|]. destruct E as [E|E]; cbn in E; injection E as -> E; exact X.
  - destruct b as [|d b]; [exfalso; apply (A c); [now left|]; destruct E as [E|E]; cbn in E; injection E as -> E; exact Y|].
    apply (IH b); auto; [intros t I; apply A; now right | intros t I; apply B; now right|].
    destruct E as [E|E]; cbn in E; injection E as _ E; auto.
Qed.

(** The precise model comes from the first SAR text if there is one. *)
Lemma precise_sar path ds r x : open path = Ok (ds, r) -> sar_text ds x -> exists md a p,
  approximate_is Opened bs cv md a /\
  ((occurs "SIDD" x /\ p = b_sidd bs x) \/ (~ occurs "SIDD" x /\ p = b_sicd bs x)) /\
  md_geo_transform md = ds_geo_transform ds /\ md_gcps md = ds_gcps ds /\ (ds_tres ds = None -> md_tres md = None) /\
  r = match a, p with
      | Some a, Some p => Some (b_composite bs a p)
      | None, Some p => Some p
      | Some a, None => Some a
      | None, None => None
      end.
Proof.
  intros H (before & after & texts & X & T & N & S). destruct (loaded path ds r H) as (md & F & W & Xs & _ & Tn & Eg & Ec & _).
  apply Xs in X. destruct (C51_selection _ _ _ _ _ md r F) as (a & p & A & P & ->). exists md, a, p. split; [exact A|].
  split; [|repeat split; auto]. destruct P as [(texts' & y & (done & rest & E & T') & N' & C) | (texts' & T' & N' & _)].
  - destruct (same_texts _ before done _ _ after rest (eq_sym X) E T T') as (more & M).
    assert (Some x = Some y) as [= <-].
    { apply (first_of mentions_sar texts texts' (Some x) (Some y) more); auto.
      - intros t I. apply (not_mentions md t W). auto.
      - unfold mentions_sar. exists y. split; [reflexivity|]. destruct C as [[C _]|[_ [(_ & z & [= <-] & C) _]]]; auto. }
    destruct C as [C|(C & _ & E')]; auto.
  - exfalso. assert (Q : segments md = (segments md ++ [])%list) by (symmetry; apply app_nil_r).
    assert (L : exists more, texts' = ((texts ++ [Some x]) ++ more)%list).
    { destruct (same_texts _ before (segments md) _ _ after [] (eq_sym X) Q T T') as (more & [M|M]); [|eauto].
      assert (Len : more = []).
      { apply (f_equal (@List.length _)) in M. apply forall2_len in T. apply forall2_len in T'.
        rewrite <- X in T'. destruct more; [reflexivity|]. exfalso. repeat rewrite app_length in M. repeat rewrite app_length in T. rewrite app_length in T'. cbn in *. lia. }
      subst more. exists []. rewrite app_nil_r in M |- *. congruence. }
    destruct L as (more & ->). destruct (proj1 (not_mentions md (Some x) W)) with (2 := S).
    apply N'. apply in_or_app. left. apply in_or_app. right. now left.
Qed.

(** ** C90: an opened image locates pixels by its metadata *)

(** *** SICD *)

(** An image with a SICD document has a sensor model that locates every pixel as the model of the
    document does, and finds the pixel of every ground point as it does, whatever approximate
    models the file has besides and whatever options are passed. *)
Theorem C90_sicd : forall path ds r x d b,
  open path = Ok (ds, r) -> sar_text ds x -> ~ occurs "SIDD" x ->
  parse_xml x = Ok (SicdDocument d) -> sicd_build d = Some b ->
  exists s, r = Some s /\
  (forall i em o, locate s i em o = built_image_to_world to_geodetic to_geocentric b i em) /\
  (forall g, find s g = built_world_to_image to_geodetic to_geocentric b g).
Proof.
  intros path ds r x d b H T N P B. destruct (precise_sar path ds r x H T) as (md & a & p & A & C & _ & _ & _ & E).
  destruct C as [[C _]|[_ ->]]; [contradiction|].
  assert (Q : b_sicd bs x = Some (SarSicd b)).
  { cbn. destruct x as [|c x]; [exfalso; destruct T as (_ & _ & _ & _ & _ & _ & y & [= <-] & [(u & v & O)|(u & v & O)]); destruct u; discriminate|].
    rewrite P. cbn. unfold sicd_build in B. destruct (sicd_from_dataclass d); [|discriminate]. injection B as ->. reflexivity. }
  rewrite Q in E. destruct (combined md a _ r A E) as (s & -> & F & L). exists s. split; [reflexivity|]. split.
  - intros i em o. destruct (L i em o) as (o' & ->). reflexivity.
  - intros g. rewrite F. reflexivity.
Qed.
Print Assumptions C90_sicd.

(** So every pixel it locates without an elevation model is on the ground plane, at the range and
    with the range rate that the document says were measured for it. *)
Theorem C90_sicd_pixels : forall path ds r x d i o g (v : R -> Vec),
  open path = Ok (ds, r) -> sar_text ds x -> ~ occurs "SIDD" x ->
  parse_xml x = Ok (SicdDocument d) -> proper_meta d -> (exists b, sicd_build d = Some b) -> (forall t, velocity_at (trajectory d) t (v t)) ->
  let xy := grid_metres d (ix i) (iy i) in
  let t := coa_instant d xy in
  let n := surface_normal to_geodetic d in
  side_of n (trajectory d t) (v t) (scp_position d) <> 0%R ->
  exists s, r = Some s /\
  (locate s i None o = Ok (Some g) ->
   exists q rng rate, g = to_geodetic q /\ measured d v xy rng rate /\ on_plane (scp_position d) n q /\
   distance (trajectory d t) q = rng /\ range_rate (trajectory d t) (v t) q = rate /\
   (0 <= side_of n (trajectory d t) (v t) q * side_of n (trajectory d t) (v t) (scp_position d))%R).
Proof.
  intros path ds r x d i o g v H T N P W (b & B) V xy t n S.
  destruct (C90_sicd path ds r x d b H T N P B) as (s & -> & L & _). exists s. split; [reflexivity|]. intros G. rewrite L in G.
  exact (C83_ground to_geodetic to_geocentric d b i g v W B V S G).
Qed.
Print Assumptions C90_sicd_pixels.

(** *** SIDD *)
Theorem C90_sidd : forall path ds r x d m,
  open path = Ok (ds, r) -> sar_text ds x -> occurs "SIDD" x ->
  parse_xml x = Ok (SiddDocument d) -> sidd_from_dataclass lstsq d = Ok m ->
  exists s, r = Some s /\
  (forall i em o, locate s i em o = sidd_image_to_world to_geodetic to_geocentric m i em) /\
  (forall g, find s g = sidd_world_to_image to_geodetic to_geocentric m g).
Proof.
  intros path ds r x d m H T N P B. destruct (precise_sar path ds r x H T) as (md & a & p & A & C & _ & _ & _ & E).
  destruct C as [[_ ->]|[C _]]; [|contradiction].
  assert (Q : b_sidd bs x = Some (SarSidd m)).
  { cbn. destruct x as [|c x]; [exfalso; destruct N as (u & w & O); destruct u; discriminate|].
    rewrite P. cbn. rewrite B. reflexivity. }
  rewrite Q in E. destruct (combined md a _ r A E) as (s & -> & F & L). exists s. split; [reflexivity|]. split.
  - intros i em o. destruct (L i em o) as (o' & ->). reflexivity.
  - intros g. rewrite F. reflexivity.
Qed.
Print Assumptions C90_sidd.

(** So an unchipped pixel is at the reference point plus its offsets along rows and columns. *)
Theorem C90_sidd_pixels : forall path ds r x d i o (v : R -> Vec),
  open path = Ok (ds, r) -> sar_text ds x -> occurs "SIDD" x ->
  parse_xml x = Ok (SiddDocument d) -> chip d = None -> proper2 (sidd_time_coa d) -> proper_xyz (sidd_arppoly d) ->
  not_parallel (plane_urow d) (plane_ucol d) -> (forall t, velocity_at (along (sidd_arppoly d)) t (v t)) ->
  let xy := sidd_metres d (ix i) (iy i) in
  let t := declared2 (sidd_time_coa d) (fst xy) (snd xy) in
  let arp := along (sidd_arppoly d) t in
  let n := outward (ref_position d) (vcross (plane_urow d) (plane_ucol d)) in
  let ipp := plane_point (ref_position d) (plane_urow d) (plane_ucol d) xy in
  (0 < side_of n arp (v t) ipp * side_of n arp (v t) (ref_position d))%R -> (0 <= height_over (ref_position d) n arp)%R ->
  exists s, r = Some s /\ locate s i None o = Ok (Some (to_geodetic ipp)).
Proof.
  intros path ds r x d i o v H T N P Ch P2 Px Np V xy t arp n ipp S Hh.
  assert (B : exists m, sidd_from_dataclass lstsq d = Ok m).
  { destruct (native2 _ P2) as (c2 & E2 & _). destruct (native_xyz _ Px) as (cx & Ex & _).
    unfold sidd_from_dataclass, sidd_full_model. rewrite E2, Ex, Ch. eexists. reflexivity. }
  destruct B as (m & B). destruct (C90_sidd path ds r x d m H T N P B) as (s & -> & L & _). exists s. split; [reflexivity|].
  rewrite L. now apply (C84_ground lstsq to_geodetic to_geocentric d m i v P2 Px Ch Np B V S).
Qed.
Print Assumptions C90_sidd_pixels.

(** *** Documents that cannot be used *)

(** A text that is not such a document, or from which no model can be built, leaves the
    approximate models only, even if the TREs have a precise model. *)
Theorem C90_unusable_document : forall path ds r x,
  open path = Ok (ds, r) -> sar_text ds x ->
  (occurs "SIDD" x -> forall d m, parse_xml x = Ok (SiddDocument d) -> sidd_from_dataclass lstsq d <> Ok m) ->
  (~ occurs "SIDD" x -> forall d, parse_xml x = Ok (SicdDocument d) -> sicd_build d = None) ->
  ds_tres ds = None -> ds_geo_transform ds = None -> ds_gcps ds = None -> r = None.
Proof.
  intros path ds r x H T U1 U2 Nt Ng Nc. destruct (precise_sar path ds r x H T) as (md & a & p & A & C & Eg & Ec & Et & ->).
  assert (a = None) as ->.
  { destruct A as [(_ & (tres & e & F & _) & _) | (_ & [(g & _ & [G _] & _) | (_ & [(gt & _ & G & _) | (_ & ->)])])]; [| | |reflexivity].
    - rewrite (Et Nt) in F. discriminate.
    - congruence.
    - congruence. }
  assert (p = None) as ->; [|reflexivity].
  destruct C as [[O ->]|[O ->]]; cbn; destruct x as [|c x]; auto.
  - destruct (parse_xml (String c x)) as [[d|d|]|] eqn:P; cbn; auto. destruct (sidd_from_dataclass lstsq d) as [m|] eqn:B; cbn; auto.
    destruct (U1 O d m eq_refl B).
  - destruct (parse_xml (String c x)) as [[d|d|]|] eqn:P; cbn; auto. specialize (U2 O d eq_refl). unfold sicd_build in U2.
    destruct (sicd_from_dataclass d); [discriminate|reflexivity].
Qed.
Print Assumptions C90_unusable_document.

(** Not every image with a usable SICD document gets its model: the word SIDD anywhere in the
    document sends it to the other builder, which cannot read it. *)
Theorem C90_sicd_with_sidd_refuted : forall path ds r x d,
  open path = Ok (ds, r) -> sar_text ds x -> parse_xml x = Ok (SicdDocument d) -> occurs "SIDD" x ->
  ds_tres ds = None -> ds_geo_transform ds = None -> ds_gcps ds = None -> r = None.
Proof.
  intros path ds r x d H T P O. apply (C90_unusable_document path ds r x H T).
  - intros _ d' m P'. congruence.
  - intros N. contradiction.
Qed.
Print Assumptions C90_sicd_with_sidd_refuted.

(** *** RSM and RPC *)

(** What RSM and RPC builders say about the TREs: RSM goes first. *)
Definition tre_model (tres : Element) (full : Sensor) : Prop :=
  (exists b, rsm_build cv to_geodetic caught tres = Ok (Some b) /\ full = rsm_built_sensor to_geocentric rsm_minimize b) \/
  (rsm_build cv to_geodetic caught tres = Ok None /\
   exists m, rpc_build cv caught tres = Ok (Some m) /\ full = rpc_sensor rpc_minimize m).

Lemma without_sar path ds r : open path = Ok (ds, r) -> no_sar ds -> exists md a p,
  approximate_is Opened bs cv md a /\ tre_precision_is Opened bs cv md p /\ (forall t, wants md t) /\
  (forall tres, tres_of parse ds tres -> md_tres md = Some tres) /\ (ds_tres ds = None -> md_tres md = None) /\
  md_geo_transform md = ds_geo_transform ds /\ md_gcps md = ds_gcps ds /\
  md_proj_wkt md = ds_proj_wkt ds /\ md_width md = ds_width ds /\ md_height md = ds_height ds /\
  r = match a, p with
      | Some a, Some p => Some (b_composite bs a p)
      | None, Some p => Some p
      | Some a, None => Some a
      | None, None => None
      end.
Proof.
  intros H (segs & texts & X & T & N). destruct (loaded path ds r H) as (md & F & W & Xs & Ts & Tn & Eg & Ec & Ew & E1 & E2).
  apply Xs in X. subst segs. destruct (C51_selection _ _ _ _ _ md r F) as (a & p & A & P & ->). exists md, a, p.
  split; [exact A|]. split; [|repeat split; assumption].
  destruct P as [(texts' & y & (done & rest & E & T') & N' & C) | (texts' & T' & N' & P)]; [|exact P]. exfalso.
  assert (Q : segments md = (segments md ++ [])%list) by (symmetry; apply app_nil_r).
  assert (L : exists more, texts = ((texts' ++ [Some y]) ++ more)%list).
  { destruct (same_texts _ done (segments md) _ _ rest [] E Q T' T) as (more & [M|M]); [|eauto].
    assert (Len : more = []).
    { apply (f_equal (@List.length _)) in M. apply forall2_len in T. apply forall2_len in T'. rewrite E in T.
      destruct more; [reflexivity|]. exfalso. repeat rewrite app_length in M. repeat rewrite app_length in T'. rewrite app_length in T. cbn in *. lia. }
    subst more. exists []. rewrite app_nil_r in M |- *. congruence. }
  destruct L as (more & ->). apply (N (Some y)); [apply in_or_app; left; apply in_or_app; right; now left|].
  exists y. split; [reflexivity|]. destruct C as [[C _]|[_ [(_ & z & [= <-] & C) _]]]; auto.
Qed.
Lemma precise_tres path ds r tres : open path = Ok (ds, r) -> no_sar ds -> tres_of parse ds tres -> exists md a p,
  approximate_is Opened bs cv md a /\ tre_precision_is Opened bs cv md p /\ md_tres md = Some tres /\ (forall t, wants md t) /\
  r = match a, p with
      | Some a, Some p => Some (b_composite bs a p)
      | None, Some p => Some p
      | Some a, None => Some a
      | None, None => None
      end.
Proof.
  intros H N T. destruct (without_sar path ds r H N) as (md & a & p & A & P & W & Ts & _ & _ & _ & _ & _ & _ & E).
  exists md, a, p. repeat split; auto.
Qed.

Lemma facade_points e f11 f12 f21 f22 c11 c12 c21 c22 :
  point_says cv e "11" f11 c11 -> point_says cv e "12" f12 c12 -> point_says cv e "21" f21 c21 -> point_says cv e "22" f22 c22 ->
  full_image_coordinates (make_facade cv e) = [f11; f12; f21; f22] /\ chipped_image_coordinates (make_facade cv e) = [c11; c12; c21; c22].
Proof.
  intros A B C D. apply (grid_point_ok cv decode tostring) in A, B, C, D.
  unfold make_facade, grid_point_names. cbn [grid_points]. rewrite A, B, C, D. cbn [List.map fst snd].
  destruct (int_field cv e "FI_COL"); [destruct (int_field cv e "FI_ROW")|]; split; reflexivity.
Qed.

Lemma through_chip md tres chip w h full m p q : least_squares lstsq -> md_tres md = Some tres ->
  chip_and_size cv md tres chip w h -> on_chip Opened bs chip (Some full) m -> chip_position cv tres p q ->
  exists c, m = Some c /\
  (forall g, find full g = Ok (mkImage (fst p) (snd p)) -> find c g = Ok (mkImage (fst q) (snd q))) /\
  (forall em o, locate c (mkImage (fst q) (snd q)) em o = locate full (mkImage (fst p) (snd p)) em o).
Proof.
  intros LS Et C O K. destruct C as [(Nc & -> & _) | (e & f & Fe & Ef & -> & _ & _)]; cbn [on_chip] in O.
  - subst m. exists full. split; [reflexivity|]. destruct K as [(_ & ->)|(e & t & f11 & f12 & f21 & f22 & c11 & c12 & c21 & c22 & Fe & _)].
    + split; auto.
    + exfalso. apply Nc. apply (has_tre_find md tres _ Et). exists e. now apply find_named_spec.
  - destruct O as (c & B & ->). exists c. split; [reflexivity|]. cbn in B. unfold chip_opened in B.
    destruct (chipped_image_coordinates f) as [|c0 cs] eqn:Ec; [discriminate|]. rewrite <- Ec in B. clear Ec c0 cs.
    apply bind_ok in B. destruct B as (t & Es & J). injection J as <-.
    destruct K as [(Nk & _)|(e' & t' & f11 & f12 & f21 & f22 & c11 & c12 & c21 & c22 & Fe' & P1 & P2 & P3 & P4 & K)]; [exfalso; exact (Nk e Fe)|].
    assert (e' = e) as -> by (apply find_named_spec in Fe; apply find_named_spec in Fe'; congruence).
    destruct (facade_points e _ _ _ _ _ _ _ _ P1 P2 P3 P4) as (X & Y). subst f. rewrite X, Y in Es. cbn [List.map] in Es.
    cbv zeta in K. destruct K as (T1 & T2 & T3 & T4 & G1 & G2 & Dt & D & Tx & Ty).
    assert (t = t') as ->.
    { eapply (C28_recovers_transform lstsq _ _ t t'); [exact LS| |exact Es| | | | |exact G1|exact G2]; [exact (Forall2_cons _ _ T1 (Forall2_cons _ _ T2 (Forall2_cons _ _ T3 (Forall2_cons _ _ T4 (Forall2_nil _)))))| | | |]; cbn; auto. }
    assert (Fw : forward1 t' p = q) by (destruct q; unfold forward1; cbn in *; unfold denominator in *; congruence).
    split.
    + intros g G. unfold find in *. cbn [opened_world_to_image]. rewrite G. cbn [bind ix iy]. rewrite <- surjective_pairing, Fw. reflexivity.
    + intros em o. unfold locate. cbn [opened_image_to_world ix iy].
      assert (Iv : inverse1 t' (fst q, snd q) = p) by (rewrite <- surjective_pairing, <- Fw; apply inverse_forward; assumption).
      rewrite Iv. reflexivity.
Qed.

(** An image without SAR documents but with RSM or RPC TREs: its model finds the pixel of a ground
    point as the model of the TREs does for the full image, moved to where the ICHIPB TRE says the
    full image's pixels are; and it locates a pixel as the model of the TREs locates the full
    image's pixel, with options of its own. *)
Theorem C90_tres : forall path ds r tres full,
  least_squares lstsq -> open path = Ok (ds, r) -> no_sar ds -> tres_of parse ds tres -> tre_model tres full ->
  exists s, r = Some s /\ forall p q, chip_position cv tres p q ->
  (forall g, world_to_image full g = Ok (mkImage (fst p) (snd p)) -> find s g = Ok (mkImage (fst q) (snd q))) /\
  (forall em o, exists o', locate s (mkImage (fst q) (snd q)) em o =
     bind (image_to_world full (mkImage (fst p) (snd p)) (option_map set_elevation em) o') (fun g => Ok (Some g))).
Proof.
  intros path ds r tres full LS H N T M. destruct (precise_tres path ds r tres H N T) as (md & a & p & A & P & Et & W & E).
  unfold tre_precision_is in P. rewrite Et in P. destruct P as (chip & w & h & fm & C & O & B).
  assert (fm = Some (Optical full)) as ->.
  { cbn in B. unfold map_option in B. destruct M as [(b & Eb & ->)|(Eb & m & Em & ->)].
    - destruct B as [(m & _ & B & ->)|([N'|B] & _)]; [|exfalso; apply N', W|]; rewrite Eb in B; cbn in B; [congruence|discriminate].
    - destruct B as [(m' & _ & B & _)|(_ & [(_ & B)|(N' & _)])]; [|exact (f_equal (fun z => match z with Ok v => v | Err _ => None end) (eq_sym B)) || idtac|exfalso; apply N', W].
      + rewrite Eb in B. cbn in B. discriminate.
      + rewrite Em in B. cbn in B. injection B as <-. reflexivity. }
  assert (Q : exists m, p = Some m).
  { unfold on_chip in O. destruct chip; [destruct O as (c & _ & ->)|]; eauto. }
  destruct Q as (m & ->). destruct (combined md a m r A E) as (s & -> & F & L). exists s. split; [reflexivity|].
  intros p q K. destruct (through_chip md tres chip w h (Optical full) (Some m) p q LS Et C O K) as (c & [= <-] & U & V). split.
  - intros g G. rewrite F. apply U. exact G.
  - intros em o. destruct (L (mkImage (fst q) (snd q)) em o) as (o' & ->). exists o'. rewrite V. reflexivity.
Qed.
Print Assumptions C90_tres.

(** So with an RPC00B TRE the pixel of a ground point is the one STDI-0002 gives for its fields. *)
Theorem C90_rpc : forall path ds r tres tre lon_off lat_off h_off lon_scale lat_scale h_scale
    line_off samp_off line_scale samp_scale ln ld sn sd g q,
  least_squares lstsq -> open path = Ok (ds, r) -> no_sar ds -> tres_of parse ds tres ->
  without_tre tres "RSMIDA" -> first_named tres "tre" "RPC00B" tre -> integer_field cv tre "SUCCESS" 1 ->
  (exists b, number_field cv tre "ERR_BIAS" b) -> (exists b, number_field cv tre "ERR_RAND" b) ->
  number_field cv tre "LONG_OFF" lon_off -> number_field cv tre "LAT_OFF" lat_off -> number_field cv tre "HEIGHT_OFF" h_off ->
  number_field cv tre "LONG_SCALE" lon_scale -> number_field cv tre "LAT_SCALE" lat_scale -> number_field cv tre "HEIGHT_SCALE" h_scale ->
  number_field cv tre "LINE_OFF" line_off -> number_field cv tre "SAMP_OFF" samp_off ->
  number_field cv tre "LINE_SCALE" line_scale -> number_field cv tre "SAMP_SCALE" samp_scale ->
  coefficient_groups cv tre "LINE_NUM_COEFF" ln -> coefficient_groups cv tre "LINE_DEN_COEFF" ld ->
  coefficient_groups cv tre "SAMP_NUM_COEFF" sn -> coefficient_groups cv tre "SAMP_DEN_COEFF" sd ->
  let L := ((longitude g * 180 / PI - lon_off) / lon_scale)%R in
  let P := ((latitude g * 180 / PI - lat_off) / lat_scale)%R in
  let H := ((elevation g - h_off) / h_scale)%R in
  chip_position cv tres
    ((samp_off + samp_scale * (groups_value sn L P H / groups_value sd L P H))%R,
     (line_off + line_scale * (groups_value ln L P H / groups_value ld L P H))%R) q ->
  exists s, r = Some s /\ find s g = Ok (mkImage (fst q) (snd q)).
Proof.
  intros path ds r tres tre lon_off lat_off h_off lon_scale lat_scale h_scale line_off samp_off line_scale samp_scale ln ld sn sd g q
    LS Op N T NR F Su Eb Er F1 F2 F3 F4 F5 F6 F7 F8 F9 F10 G1 G2 G3 G4 L P H C.
  assert (B : exists m, rpc_build cv caught tres = Ok (Some m)).
  { destruct (groups_ok _ _ _ _ G1) as (l1 & P1 & _). destruct (groups_ok _ _ _ _ G2) as (l2 & P2 & _).
    destruct (groups_ok _ _ _ _ G3) as (l3 & P3 & _). destruct (groups_ok _ _ _ _ G4) as (l4 & P4 & _).
    exists (mkRPC line_off samp_off lat_off lon_off h_off line_scale samp_scale lat_scale lon_scale h_scale l1 l2 l3 l4).
    apply C71_model. exists tre. split; [exact F|]. split; [exact Su|]. unfold rpc_says. cbn. repeat split; assumption. }
  destruct B as (m & B).
  assert (R0 : rsm_build cv to_geodetic caught tres = Ok None).
  { apply (proj1 (C50_cases cv to_geodetic caught tres)). intros x I J.
    destruct (find_named tres "tre" "RSMIDA") as [e|] eqn:E; [apply find_named_spec in E; exact (NR e E)|].
    exact (proj1 (find_named_none _ _ _) E x I J). }
  destruct (C90_tres path ds r tres (rpc_sensor rpc_minimize m) LS Op N T (or_intror (conj R0 (ex_intro _ m (conj B eq_refl))))) as (s & -> & K).
  exists s. split; [reflexivity|]. apply (K _ q C).
  destruct (C85_rpc cv caught tres rpc_minimize m tre lon_off lat_off h_off lon_scale lat_scale h_scale line_off samp_off line_scale samp_scale
              ln ld sn sd g B F F1 F2 F3 F4 F5 F6 F7 F8 F9 F10 G1 G2 G3 G4) as (i & -> & X & Y).
  fold L P H in X, Y. destruct i as [x y]. cbn in X, Y. rewrite X, Y. reflexivity.
Qed.
Print Assumptions C90_rpc.
(** *** Images without precise metadata *)

(** No SAR document, and neither RSM nor RPC make a model. *)
Definition only_approximate (ds : Dataset) : Prop :=
  no_sar ds /\
  (ds_tres ds = None \/
   exists tres, tres_of parse ds tres /\ rsm_build cv to_geodetic caught tres = Ok None /\ rpc_build cv caught tres = Ok None).
Definition without_corners (ds : Dataset) : Prop := ds_tres ds = None \/ exists tres, tres_of parse ds tres /\ without_tre tres "CSCRNA".
Definition few_gcps (ds : Dataset) : Prop := forall gcps, ds_gcps ds = Some gcps -> (List.length gcps <= 3)%nat.

Lemma approximate_only path ds r : open path = Ok (ds, r) -> only_approximate ds -> exists md,
  approximate_is Opened bs cv md r /\ (forall t, wants md t) /\
  (forall tres, tres_of parse ds tres -> md_tres md = Some tres) /\ (ds_tres ds = None -> md_tres md = None) /\
  md_geo_transform md = ds_geo_transform ds /\ md_gcps md = ds_gcps ds /\
  md_proj_wkt md = ds_proj_wkt ds /\ md_width md = ds_width ds /\ md_height md = ds_height ds.
Proof.
  intros H (N & T). destruct (without_sar path ds r H N) as (md & a & p & A & P & W & Ts & Tn & E1 & E2 & E3 & E4 & E5 & ->).
  assert (p = None) as ->.
  { unfold tre_precision_is in P. destruct T as [T|(tres & T & Rs & Rp)].
    - rewrite (Tn T) in P. exact P.
    - rewrite (Ts tres T) in P. destruct P as (chip & w & h & full & _ & O & B). cbn in B. unfold map_option in B. rewrite Rs, Rp in B. cbn in B.
      assert (full = None) as ->; [|exact O]. destruct B as [(m & _ & B & _)|(_ & [(_ & B)|(B & _)])]; [discriminate| |exfalso; apply B, W].
      now injection B. }
  exists md. replace (match a with Some a0 => _ | None => _ end) with a by (destruct a; reflexivity). repeat split; assumption.
Qed.
Lemma no_corners ds md : (forall tres, tres_of parse ds tres -> md_tres md = Some tres) -> (ds_tres ds = None -> md_tres md = None) ->
  without_corners ds -> ~ has_tre md "CSCRNA".
Proof.
  intros Ts Tn [T|(tres & T & N)] Hc.
  - destruct Hc as (tres & e & E & _). rewrite (Tn T) in E. discriminate.
  - apply (has_tre_find md tres _ (Ts tres T)) in Hc. destruct Hc as (e & E). apply find_named_spec in E. exact (N e E).
Qed.

(** With a geotransform in degrees every pixel is where the geotransform puts it, at the elevation
    of the elevation model. *)
Theorem C90_geotransform : forall path ds r g0 g1 g2 g3 g4 g5 rest,
  open path = Ok (ds, r) -> only_approximate ds -> without_corners ds -> few_gcps ds ->
  ds_geo_transform ds = Some (g0 :: g1 :: g2 :: g3 :: g4 :: g5 :: rest) -> ds_proj_wkt ds = None \/ ds_proj_wkt ds = Some "" ->
  (g1 * g5 - g2 * g4 <> 0)%R /\
  exists s, r = Some s /\ forall x y em o,
  let g := mkGeo ((g0 + g1 * x + g2 * y) * PI / 180) ((g3 + g4 * x + g5 * y) * PI / 180) 0 in
  locate s (mkImage x y) em o = Ok (Some (match em with None => g | Some t => set_elevation t g end)).
Proof.
  intros path ds r g0 g1 g2 g3 g4 g5 rest H Oa Nc Fg Eg Wk.
  destruct (approximate_only path ds r H Oa) as (md & A & W & Ts & Tn & E1 & E2 & E3 & _).
  destruct A as [(_ & C & _)|(_ & [(gcps & _ & (G & L) & _)|(_ & [(gt & _ & Gt & B)|(Na & _)])])].
  - exfalso. exact (no_corners ds md Ts Tn Nc C).
  - exfalso. rewrite E2 in G. specialize (Fg gcps G). lia.
  - rewrite E1, Eg in Gt. injection Gt as <-. cbn in B. unfold map_option in B. apply bind_ok in B. destruct B as (os & B & Q).
    rewrite E3 in B. destruct (C29_builder_errors crs_of g0 g1 g2 g3 g4 g5 rest (ds_proj_wkt ds)) as (Bad & Good).
    destruct (Req_dec (g1 * g5 - g2 * g4) 0) as [D|D]; [rewrite (Bad D) in B; discriminate|]. split; [exact D|].
    destruct (Good D) as (Ex & _). destruct (Ex Wk) as (s & Es). assert (os = Some s) as -> by congruence. injection Q as <-.
    exists (Optical s). split; [reflexivity|]. intros x y em o g. unfold locate. cbn [opened_image_to_world].
    rewrite (C29_builder_geographic crs_of g0 g1 g2 g3 g4 g5 rest _ s (mkImage x y) (option_map set_elevation em) o Wk Es). destruct em; reflexivity.
  - exfalso. apply Na. split; [apply W|]. rewrite E1. eauto.
Qed.

(** Four or more control points come first: if a projective transform takes them to their pixels,
    four of them being in general position, then that transform places every pixel. *)
Theorem C90_control_points : forall path ds r gcps t k1 k2 k3 k4,
  least_squares lstsq -> open path = Ok (ds, r) -> only_approximate ds -> without_corners ds ->
  ds_gcps ds = Some gcps ->
  let ground g := (gcp_x g * PI / 180, gcp_y g * PI / 180)%R in
  let pixel g := (gcp_pixel g, gcp_line g) in
  Forall (fun g => takes t (ground g) (pixel g)) gcps ->
  In k1 gcps -> In k2 gcps -> In k3 gcps -> In k4 gcps ->
  general_position (ground k1) (ground k2) (ground k3) (ground k4) -> general_position (pixel k1) (pixel k2) (pixel k3) (pixel k4) ->
  (4 <= List.length gcps)%nat -> determinant t <> 0%R ->
  exists s, r = Some s /\ forall p q, takes t p q ->
  (forall e, find s (mkGeo (fst p) (snd p) e) = Ok (mkImage (fst q) (snd q))) /\
  (forall em o, let g := mkGeo (fst p) (snd p) 0 in
     locate s (mkImage (fst q) (snd q)) em o = Ok (Some (match em with None => g | Some t => set_elevation t g end))).
Proof.
  intros path ds r gcps t k1 k2 k3 k4 LS H Oa Nc Eg ground pixel F I1 I2 I3 I4 G1 G2 L4 Dt.
  destruct (approximate_only path ds r H Oa) as (md & A & W & Ts & Tn & E1 & E2 & _).
  destruct A as [(_ & C & _)|(_ & [(gcps' & _ & (G & L) & B)|(Na & _)])].
  - exfalso. exact (no_corners ds md Ts Tn Nc C).
  - assert (gcps' = gcps) as -> by congruence. cbn in B. unfold map_option in B. apply bind_ok in B. destruct B as (ot & B & Q).
    unfold gcp_build in B. destruct (Nat.ltb_spec (List.length gcps) 4) as [|_]; [lia|]. apply bind_ok in B. destruct B as (t' & B & J). injection J as <-.
    injection Q as <-. unfold make_projective_sensor in B.
    destruct (List.map (fun g => mkImage (gcp_pixel g) (gcp_line g)) gcps) as [|i0 is] eqn:Em; [discriminate|]. rewrite <- Em in B. clear Em i0 is.
    rewrite !map_map in B. cbn [longitude latitude ix iy] in B.
    assert (Fit : Forall2 (takes t) (List.map ground gcps) (List.map pixel gcps)) by (clear - F; induction F; constructor; assumption).
    assert (M : forall k, In k gcps -> In (ground k, pixel k) (combine (List.map ground gcps) (List.map pixel gcps))).
    { clear. intros k. induction gcps as [|x l IH]; [intros []|]. cbn [List.map combine In]. intros [-> | I]; [now left|right; auto]. }
    assert (t' = t) as -> by (eapply (C28_recovers_transform lstsq _ _ t' t); [exact LS|exact Fit|exact B|apply M, I1|apply M, I2|apply M, I3|apply M, I4|exact G1|exact G2]).
    exists (Optical (projective_sensor t)). split; [reflexivity|]. intros p q (D & Tx & Ty).
    assert (Fw : forward1 t p = q) by (destruct q; unfold forward1; cbn in *; unfold denominator in *; congruence).
    split.
    + intros e. unfold find. cbn [opened_world_to_image projective_sensor world_to_image]. unfold projective_world_to_image. cbn [longitude latitude].
      rewrite <- surjective_pairing, Fw. reflexivity.
    + intros em o g. unfold locate. cbn [opened_image_to_world projective_sensor image_to_world]. unfold projective_image_to_world. cbn [ix iy].
      rewrite <- surjective_pairing, <- Fw. rewrite inverse_forward by assumption. destruct em; reflexivity.
  - exfalso. apply Na. split; [apply W|]. exists gcps. split; [congruence|exact L4].
Qed.

(** The corner TRE comes before both: its corners are those of the full image, whose size is the
    file's, or what ICHIPB says; chip pixels are placed through ICHIPB. *)
Theorem C90_corners : forall path ds r tres tre t (lon lat : string -> R) (w h : Z),
  least_squares lstsq -> open path = Ok (ds, r) -> only_approximate ds -> tres_of parse ds tres ->
  first_named tres "tre" "CSCRNA" tre ->
  (without_tre tres "ICHIPB" /\ w = ds_width ds /\ h = ds_height ds \/
   exists e, first_named tres "tre" "ICHIPB" e /\ integer_field cv e "FI_COL" w /\ integer_field cv e "FI_ROW" h) ->
  (forall c, In c ["UL"; "UR"; "LR"; "LL"] ->
     number_field cv tre (c ++ "CNR_LONG") (lon c) /\ number_field cv tre (c ++ "CNR_LAT") (lat c)) ->
  let at_ c := (lon c * PI / 180, lat c * PI / 180)%R in
  takes t (at_ "UL") (0, 0)%R -> takes t (at_ "UR") (IZR w, 0)%R -> takes t (at_ "LR") (IZR w, IZR h) -> takes t (at_ "LL") (0, IZR h)%R ->
  general_position (at_ "UL") (at_ "UR") (at_ "LR") (at_ "LL") -> (0 < w)%Z -> (0 < h)%Z -> determinant t <> 0%R ->
  exists s, r = Some s /\ forall g p q, takes t g p -> chip_position cv tres p q ->
  (forall e, find s (mkGeo (fst g) (snd g) e) = Ok (mkImage (fst q) (snd q))) /\
  (forall em o, let g := mkGeo (fst g) (snd g) 0 in
     locate s (mkImage (fst q) (snd q)) em o = Ok (Some (match em with None => g | Some t => set_elevation t g end))).
Proof.
  intros path ds r tres tre t lon lat w h LS H Oa T Fc Sz Fields at_ T1 T2 T3 T4 Gp W0 H0 Dt.
  destruct (approximate_only path ds r H Oa) as (md & A & W & Ts & Tn & E1 & E2 & _ & E4 & E5). pose proof (Ts tres T) as Et.
  assert (Hc : has_tre md "CSCRNA") by (apply (has_tre_find md tres _ Et); exists tre; now apply find_named_spec).
  destruct A as [(_ & _ & tres' & chip & w' & h' & p & Et' & C & B & O)|(N & _)]; [|exfalso; apply N; split; [apply W|exact Hc]].
  assert (tres' = tres) as -> by congruence.
  assert (w' = w /\ h' = h) as [-> ->].
  { destruct C as [(Nc & _ & -> & ->)|(e & f & Fe & -> & _ & Fw & Fh)]; destruct Sz as [(Ns & -> & ->)|(e' & Fe' & Iw & Ih)].
    - split; congruence.
    - exfalso. apply Nc. apply (has_tre_find md tres _ Et). exists e'. now apply find_named_spec.
    - exfalso. exact (Ns e Fe).
    - assert (e' = e) as -> by (apply find_named_spec in Fe; apply find_named_spec in Fe'; congruence).
      apply int_ok in Iw. apply int_ok in Ih. unfold make_facade in Fw, Fh. destruct (grid_points cv e grid_point_names) as [l [|]]; [|discriminate].
      rewrite Iw, Ih in *. cbn in *. split; congruence. }
  cbn in B. unfold map_option in B. apply bind_ok in B. destruct B as (ot & B & Q). injection Q as <-.
  unfold projective_build in B. apply find_named_spec in Fc. rewrite Fc in B. apply bind_ok in B. destruct B as (t' & B & Q). injection Q as <-.
  unfold build_projective_sensor_model in B. apply bind_ok in B. destruct B as (world & Wd & B). unfold make_projective_sensor in B.
  assert (Ws : List.map (fun g => (longitude g, latitude g)) world = List.map at_ ["UL"; "UR"; "LR"; "LL"]).
  { apply map_res_ok in Wd. clear - Wd Fields.
    assert (G : forall names, (forall c, In c names -> In c ["UL"; "UR"; "LR"; "LL"]) -> forall world,
       Forall2 (fun c g => corner cv tre c = Ok g) names world ->
       List.map (fun g => (longitude g, latitude g)) world = List.map at_ names).
    { induction names as [|n names IH]; intros S wd H; inversion H as [|? g ? gs Hg Hs]; subst; [reflexivity|].
      cbn [List.map]. rewrite (IH (fun c Ic => S c (or_intror Ic)) gs Hs). f_equal.
      unfold corner in Hg. destruct (Fields n (S n (or_introl eq_refl))) as [L1 L2]. apply float_ok in L1. apply float_ok in L2.
      rewrite L1, L2 in Hg. cbn [bind] in Hg. destruct (float_field cv tre _) in Hg; [|discriminate]. injection Hg as <-. reflexivity. }
    apply G; [intros c Ic; exact Ic | exact Wd]. }
  rewrite Ws in B. cbn [List.map ix iy] in B.
  assert (Pos : (0 < IZR w)%R /\ (0 < IZR h)%R) by (split; apply IZR_lt; assumption). destruct Pos as (W1 & H1).
  assert (t' = t) as ->.
  { eapply (C28_recovers_transform lstsq _ _ t' t); [exact LS| |exact B| | | | |exact Gp|];
      [exact (Forall2_cons _ _ T1 (Forall2_cons _ _ T2 (Forall2_cons _ _ T3 (Forall2_cons _ _ T4 (Forall2_nil _)))))|now left|right; now left|right; right; now left|right; right; right; now left|].
    unfold general_position, collinear. cbn [fst snd]. pose proof (Rmult_lt_0_compat _ _ W1 H1). repeat split; nra. }
  assert (Q : exists m, r = Some m).
  { cbn [option_map] in O. unfold on_chip in O. destruct chip; [destruct O as (c & _ & ->)|]; eauto. }
  destruct Q as (s & ->). exists s. split; [reflexivity|]. intros g p q (D & Tx & Ty) K.
  destruct (through_chip md tres chip w h _ (Some s) p q LS Et C O K) as (c & [= <-] & U & V).
  assert (Fw : forward1 t g = p) by (destruct p; unfold forward1; cbn in *; unfold denominator in *; congruence). split.
  - intros e. apply U. unfold find. cbn [opened_world_to_image projective_sensor world_to_image]. unfold projective_world_to_image. cbn [longitude latitude].
    rewrite <- surjective_pairing, Fw. reflexivity.
  - intros em o g'. rewrite V. unfold locate. cbn [opened_image_to_world projective_sensor image_to_world]. unfold projective_image_to_world. cbn [ix iy].
    rewrite <- surjective_pairing, <- Fw. rewrite inverse_forward by assumption. destruct em; reflexivity.
Qed.
End Open.

(** *** The nested models are those of C30 and C31 *)
Theorem C90_composite : forall to_geodetic to_geocentric a p i em o,
  opened_image_to_world to_geodetic to_geocentric (Guided (Optical a) (Optical p)) i em o =
    bind (image_to_world (composite_sensor (mkComposite a p)) i (option_map set_elevation em) o) (fun g => Ok (Some g)) /\
  forall g, opened_world_to_image to_geodetic to_geocentric (Guided (Optical a) (Optical p)) g =
    world_to_image (composite_sensor (mkComposite a p)) g.
Proof.
  intros tg tc a p i em o. split; [|reflexivity]. cbn. unfold composite_image_to_world, composite_run.
  destruct o as [d|]; cbn [load nth_error approximate]; destruct (image_to_world a i (option_map set_elevation em) _) as [w|]; reflexivity.
Qed.
Print Assumptions C90_geotransform.
Print Assumptions C90_control_points.
Print Assumptions C90_corners.
Print Assumptions C90_composite.
Theorem C90_chipped : forall lstsq to_geodetic to_geocentric original chipped full i em o,
  match chip_opened lstsq original chipped (Optical full), make_chipped lstsq original chipped full with
  | Ok c, Ok m =>
      opened_image_to_world to_geodetic to_geocentric c i em o =
        bind (image_to_world (chipped_sensor m) i (option_map set_elevation em) o) (fun g => Ok (Some g)) /\
      forall g, opened_world_to_image to_geodetic to_geocentric c g = world_to_image (chipped_sensor m) g
  | Err e, Err e' => e = e'
  | _, _ => False
  end.
Proof.
  intros lstsq tg tc original chipped full i em o. unfold chip_opened, make_chipped. destruct chipped as [|c cs]; [reflexivity|].
  destruct (estimate lstsq _ _) as [t|e]; [|reflexivity]. cbn [bind]. split; [reflexivity|]. intros g. reflexivity.
Qed.
Print Assumptions C90_chipped.

(** *** Examples *)

(** A file with a SICD document, a geotransform and an RPC00B TRE. *)
Definition sicd_file : Dataset :=
  mkDataset 10 20 (Some ["tres"]) (Some ["des"]) (Some [0; 1; 0; 0; 0; 1]%R) None None.
Definition sicd_parse (s : string) : res Element :=
  Ok (if String.eqb s "tres" then El "tres" [] [rpc_tre]
      else El "des_list" [] [El "des" [("name", "XML_DATA_CONTENT")] [field "DESDATA" "note"];
                             El "des" [("name", "XML_DATA_CONTENT")] [field "DESDATA" "<SICD/>"]]).
Definition sicd_document (s : string) : res Document := if String.eqb s "<SICD/>" then Ok (SicdDocument demo_meta) else Err ValueError.

Example C90_non_vacuous : forall lstsq rpc_minimize rsm_minimize crs_of,
  let open := load_gdal_dataset Opened
    (open_builders one_char_conv true flat_geocentric flat_geodetic lstsq rpc_minimize rsm_minimize crs_of sicd_document)
    one_char_conv (fun s => Ok s) (fun _ => "") sicd_parse (fun s => s) (fun _ => Ok (Some sicd_file)) in
  exists r, open "image.ntf" = Ok (sicd_file, r) /\ first_sar_text (fun s => Ok s) (fun _ => "") sicd_parse (fun s => s) sicd_file "<SICD/>" /\
  exists s, r = Some s /\
  opened_image_to_world flat_geodetic flat_geocentric s (mkImage (-30) (-10)) None None = Ok (Some (flat_geodetic (mkVec 0 4 0))).
Proof.
  intros lstsq rpc_minimize rsm_minimize crs_of open.
  assert (O : exists r, open "image.ntf" = Ok (sicd_file, r)).
  { unfold open, load_gdal_dataset. destruct (C29_builder_errors crs_of 0 1 0 0 0 1 [] None) as (_ & A). destruct A as (A & _); [lra|].
    destruct (A (or_introl eq_refl)) as (s & S). cbn [ds_tres sicd_file ds_dess map_res bind]. unfold factory_build, approximate_from_gdal, selection.
    cbn [md_selected md_geo_transform md_proj_wkt md_gcps sicd_parse ds_geo_transform ds_proj_wkt ds_gcps sicd_file ds_width ds_height bind selected existsb sensor_type_eqb orb open_builders b_affine].
    rewrite S. eexists. reflexivity. }
  assert (T : first_sar_text (fun s => Ok s) (fun _ => "") sicd_parse (fun s => s) sicd_file "<SICD/>").
  { exists [El "des" [("name", "XML_DATA_CONTENT")] [field "DESDATA" "note"]; El "des" [("name", "XML_DATA_CONTENT")] [field "DESDATA" "<SICD/>"]],
      [], [Some "note"]. split.
    - exists [El "des_list" [] [El "des" [("name", "XML_DATA_CONTENT")] [field "DESDATA" "note"];
                             El "des" [("name", "XML_DATA_CONTENT")] [field "DESDATA" "<SICD/>"]]]. split; [repeat constructor|reflexivity].
    - split; [repeat constructor|]. split.
      + intros t [<-|[]] (x & [= <-] & [X|X]); apply contains_occurs in X; discriminate.
      + exists "<SICD/>". split; [reflexivity|]. right. now apply contains_occurs. }
  destruct O as (r & O). exists r. split; [exact O|]. split; [exact T|].
  destruct C83_non_vacuous as (_ & (b & B & L) & _).
  destruct (C90_sicd one_char_conv true flat_geocentric flat_geodetic lstsq rpc_minimize rsm_minimize crs_of sicd_document (fun s => Ok s) (fun _ => "")
              sicd_parse (fun s => s) (fun _ => Ok (Some sicd_file)) "image.ntf" sicd_file r "<SICD/>" demo_meta b O T) as (s & -> & K & _); auto.
  - intros X. apply contains_occurs in X. discriminate.
  - exists s. split; [reflexivity|]. rewrite K. exact L.
Qed.

(** Every second pixel of a 10 by 10 image: pixel (4, 6) is pixel (2, 3) of the file. *)
Definition chip_tre : Element := El "tre" [("name", "ICHIPB")]
  [field "OP_COL_11" "a"; field "OP_ROW_11" "a"; field "FI_COL_11" "a"; field "FI_ROW_11" "a";
   field "OP_COL_12" "f"; field "OP_ROW_12" "a"; field "FI_COL_12" "k"; field "FI_ROW_12" "a";
   field "OP_COL_21" "a"; field "OP_ROW_21" "f"; field "FI_COL_21" "a"; field "FI_ROW_21" "k";
   field "OP_COL_22" "f"; field "OP_ROW_22" "f"; field "FI_COL_22" "k"; field "FI_ROW_22" "k"].
Example C90_chip_non_vacuous : chip_position letter_conv (El "tres" [] [chip_tre]) (4, 6)%R (2, 3)%R.
Proof.
  right. exists chip_tre, (mkProjective 0 (1 / 2) 0 0 0 (1 / 2) 0 0).
  exists (mkImage 0 0), (mkImage 10 0), (mkImage 0 10), (mkImage 10 10), (mkImage 0 0), (mkImage 5 0), (mkImage 0 5), (mkImage 5 5).
  assert (Q : forall p f c, grid_point letter_conv chip_tre p = Ok (f, c) -> point_says letter_conv chip_tre p f c)
    by (intros p f c G; apply (grid_point_ok letter_conv (fun s => Ok s) (fun _ => "")); exact G).
  split; [apply find_named_spec; reflexivity|]. do 4 (split; [apply Q; reflexivity|]). cbn [ix iy].
  unfold takes, denominator, determinant, general_position, collinear. cbn [fst snd a0 a1 a2 b0 b1 b2 c0 c1]. repeat split; lra.
Qed.

(** A file with control points and a geotransform, and one with the geotransform only. *)
Definition plain_file (gcps : option (list Gcp)) : Dataset := mkDataset 10 20 None None (Some [10; 2; 0; 40; 0; -3]%R) (Some "") gcps.
Example C90_approximate_non_vacuous : forall rpc_minimize rsm_minimize crs_of, exists lstsq, least_squares lstsq /\
  let open ds := load_gdal_dataset Opened
    (open_builders one_char_conv true flat_geocentric flat_geodetic lstsq rpc_minimize rsm_minimize crs_of sicd_document)
    one_char_conv (fun s => Ok s) (fun _ => "") sicd_parse (fun s => s) (fun _ => Ok (Some ds)) in
  (exists s, open (plain_file None) "image.tif" = Ok (plain_file None, Some s) /\
   opened_image_to_world flat_geodetic flat_geocentric s (mkImage 5 1) None None = Ok (Some (mkGeo (20 * PI / 180) (37 * PI / 180) 0))) /\
  (exists s, open (plain_file (Some unit_gcps)) "image.tif" = Ok (plain_file (Some unit_gcps), Some s) /\
   opened_image_to_world flat_geodetic flat_geocentric s (mkImage 15 21) None None = Ok (Some (mkGeo 5 1 0))).
Proof.
  intros rpc_minimize rsm_minimize crs_of. set (t := mkProjective 10 1 0 20 0 1 0 0). exists (knowing t). split; [apply knowing_least_squares|].
  intros open.
  assert (F : Forall (fun g => takes t (gcp_x g * PI / 180, gcp_y g * PI / 180)%R (gcp_pixel g, gcp_line g)) unit_gcps).
  { repeat (apply Forall_cons; [apply takes_affine; cbn; lra|]). apply Forall_nil. }
  assert (Bg : gcp_build (knowing t) unit_gcps = Ok (Some t)).
  { unfold gcp_build. cbn [unit_gcps List.length Nat.ltb Nat.leb]. unfold make_projective_sensor. cbn [unit_gcps List.map].
    rewrite knowing_estimate; [reflexivity | discriminate|]. cbn [List.map longitude latitude ix iy gcp_x gcp_y gcp_pixel gcp_line].
    unfold unit_gcps in F. repeat match goal with H : Forall _ (_ :: _) |- _ => inversion H; clear H; subst end.
    repeat (apply Forall2_cons; [assumption|]). apply Forall2_nil. }
  destruct (C29_builder_errors crs_of 10 2 0 40 0 (-3) [] (Some "")) as (_ & A). destruct A as (A & _); [lra|]. destruct (A (or_intror eq_refl)) as (s & S).
  assert (Na : forall gcps, only_approximate one_char_conv true flat_geodetic (fun s => Ok s) (fun _ => "") sicd_parse (fun s => s) (plain_file gcps)).
  { intros gcps. split; [|left; reflexivity]. exists [], []. split; [reflexivity|]. split; [constructor|]. intros x []. }
  assert (O1 : exists r, open (plain_file None) "image.tif" = Ok (plain_file None, r)).
  { unfold open, load_gdal_dataset. cbn [ds_tres plain_file ds_dess map_res bind]. unfold factory_build, approximate_from_gdal, selection.
    cbn [md_selected md_geo_transform md_proj_wkt md_gcps ds_geo_transform ds_proj_wkt ds_gcps plain_file ds_width ds_height bind selected existsb sensor_type_eqb orb open_builders b_affine b_gcp].
    rewrite S. eexists. reflexivity. }
  assert (O2 : exists r, open (plain_file (Some unit_gcps)) "image.tif" = Ok (plain_file (Some unit_gcps), r)).
  { unfold open, load_gdal_dataset. cbn [ds_tres plain_file ds_dess map_res bind]. unfold factory_build, approximate_from_gdal, selection.
    cbn [md_selected md_geo_transform md_proj_wkt md_gcps ds_geo_transform ds_proj_wkt ds_gcps plain_file ds_width ds_height bind selected existsb sensor_type_eqb orb open_builders b_affine b_gcp].
    rewrite S, Bg. eexists. reflexivity. }
  split.
  - destruct O1 as (r & O1).
    destruct (C90_geotransform _ _ _ _ _ _ _ _ _ _ _ _ _ _ "image.tif" (plain_file None) r 10 2 0 40 0 (-3) [] O1 (Na None)) as (_ & z & -> & K);
      [left; reflexivity|discriminate|reflexivity|right; reflexivity|].
    exists z. split; [exact O1|]. rewrite (K 5 1 None None)%R. do 2 f_equal. f_equal; lra.
  - destruct O2 as (r & O2).
    destruct (C90_control_points _ _ _ _ _ _ _ _ _ _ _ _ _ _ "image.tif" (plain_file (Some unit_gcps)) r unit_gcps t
      (mkGcp 0 0 0 10 20) (mkGcp 180 0 0 (10 + PI) 20) (mkGcp 180 180 0 (10 + PI) (20 + PI)) (mkGcp 0 180 0 10 (20 + PI))
      (knowing_least_squares t) O2 (Na (Some unit_gcps))) as (z & -> & K);
      [left; reflexivity|reflexivity|exact F|now left|right; now left|right; right; now left|right; right; right; now left| | |cbn; lia|unfold determinant, t; cbn; lra|].
    1, 2: unfold general_position, collinear; cbn [fst snd gcp_x gcp_y gcp_pixel gcp_line]; pose proof PI_RGT_0 as P0; repeat split; nra.
    exists z. split; [exact O2|]. destruct (K (5, 1) (15, 21))%R as (_ & L); [unfold takes, denominator, t; cbn; lra|]. exact (L None None).
Qed.

(** A file with RPC00B and ICHIPB TREs: the RPC puts the ground point on pixel (5, 5) of the full image, which is pixel (5/2, 5/2) of the file. *)
Definition tre_file : Dataset := mkDataset 10 10 (Some ["tres"]) None None None None.
Definition chip_fields : Element := El "tre" [("name", "ICHIPB")] (children_of chip_tre ++ [field "FI_COL" "k"; field "FI_ROW" "k"]).
Lemma no_sar_in_tres decode tostring parse trim : no_sar_text decode tostring parse trim tre_file.
Proof. exists [], []. split; [reflexivity|]. split; [constructor|]. intros x []. Qed.
Example C90_rpc_non_vacuous : forall rpc_minimize rsm_minimize crs_of, exists lstsq s,
  let open := load_gdal_dataset Opened
    (open_builders letter_conv true flat_geocentric flat_geodetic lstsq rpc_minimize rsm_minimize crs_of sicd_document)
    letter_conv (fun s => Ok s) (fun _ => "") (fun _ => Ok (El "tres" [] [letter_rpc; chip_fields])) (fun s => s) (fun _ => Ok (Some tre_file)) in
  open "image.ntf" = Ok (tre_file, Some s) /\
  opened_world_to_image flat_geodetic flat_geocentric s (mkGeo (5 * PI / 180) (3 * PI / 180) 3) = Ok (mkImage (5 / 2) (5 / 2)).
Proof.
  intros rpc_minimize rsm_minimize crs_of. set (t := mkProjective 0 (1 / 2) 0 0 0 (1 / 2) 0 0). exists (knowing t).
  set (open := load_gdal_dataset Opened (open_builders letter_conv true flat_geocentric flat_geodetic (knowing t) rpc_minimize rsm_minimize crs_of sicd_document)
    letter_conv (fun s => Ok s) (fun _ => "") (fun _ => Ok (El "tres" [] [letter_rpc; chip_fields])) (fun s => s) (fun _ => Ok (Some tre_file))).
  set (tres := El "tres" [] [letter_rpc; chip_fields]) in *.
  assert (F : first_named tres "tre" "RPC00B" letter_rpc) by (exists [], [chip_fields]; split; [reflexivity|]; split; [split; reflexivity | intros x []]).
  assert (C : chip_position letter_conv tres (5, 5)%R (5 / 2, 5 / 2)%R).
  { right. exists chip_fields, t.
    exists (mkImage 0 0), (mkImage 10 0), (mkImage 0 10), (mkImage 10 10), (mkImage 0 0), (mkImage 5 0), (mkImage 0 5), (mkImage 5 5).
    assert (Q : forall p f c, grid_point letter_conv chip_fields p = Ok (f, c) -> point_says letter_conv chip_fields p f c)
      by (intros p f c G; apply (grid_point_ok letter_conv (fun s => Ok s) (fun _ => "")); exact G).
    split; [apply find_named_spec; reflexivity|]. do 4 (split; [apply Q; reflexivity|]). cbn [ix iy].
    unfold takes, denominator, determinant, general_position, collinear, t. cbn [fst snd a0 a1 a2 b0 b1 b2 c0 c1]. repeat split; lra. }
  assert (O : exists r, open "image.ntf" = Ok (tre_file, r)).
  { unfold open, load_gdal_dataset. cbn [ds_tres tre_file ds_dess map_res bind]. unfold factory_build, approximate_from_gdal, selection.
    cbn [md_selected md_geo_transform md_proj_wkt md_gcps md_tres md_dess ds_geo_transform ds_proj_wkt ds_gcps tre_file ds_width ds_height bind selected existsb sensor_type_eqb orb].
    unfold models_from_tres.
    change (find_named tres "tre" "ICHIPB") with (Some chip_fields). cbv beta iota zeta.
    replace (make_facade letter_conv chip_fields) with (mkFacade [mkImage 0 0; mkImage 10 0; mkImage 0 10; mkImage 10 10] [mkImage 0 0; mkImage 5 0; mkImage 0 5; mkImage 5 5] (Some 10%Z) (Some 10%Z)) by reflexivity.
    cbn [attribute full_image_width full_image_height bind].
    destruct (rpc_build letter_conv true tres) as [[m|]|] eqn:E; [|vm_compute in E; discriminate|vm_compute in E; discriminate].
    set (bs := open_builders _ _ _ _ _ _ _ _ _).
    assert (B1 : b_rsm bs tres = Ok None) by reflexivity.
    assert (B2 : b_rpc bs tres = Ok (Some (Optical (rpc_sensor rpc_minimize m)))) by (unfold bs; cbn [b_rpc open_builders]; rewrite E; reflexivity).
    assert (B3 : forall x, b_chip bs [mkImage 0 0; mkImage 10 0; mkImage 0 10; mkImage 10 10] [mkImage 0 0; mkImage 5 0; mkImage 0 5; mkImage 5 5] x = Ok (OnChip t x)).
    { intros x. unfold bs. cbn [b_chip open_builders chip_opened List.map ix iy]. rewrite knowing_estimate; [reflexivity|discriminate|].
      unfold t. repeat (apply Forall2_cons; [unfold takes, denominator; cbn; repeat split; lra|]). apply Forall2_nil. }
    change (selected _ TRSM) with true. change (selected _ TRPC) with true. change (selected _ TPROJECTIVE) with true. cbv iota. rewrite B1. cbn [bind]. rewrite B2. cbn [bind].
    change (find_named tres "tre" "CSCRNA") with (@None Element). unfold wrap_chip. cbn [full_image_coordinates chipped_image_coordinates]. rewrite B3. cbn [bind fst snd combine_models].
    eexists. reflexivity. }
  destruct O as (r & O).
  set (ivs := List.map (fun k => (Z.of_nat k, IZR (Z.of_nat k))) (rev (seq 0 20))).
  assert (G1 : coefficient_groups letter_conv letter_rpc "LINE_NUM_COEFF" ivs) by (apply (letter_groups "LINE_NUM_COEFF" (firstn 13 (children_of letter_rpc)) (skipn 14 (children_of letter_rpc))); not_these).
  assert (G2 : coefficient_groups letter_conv letter_rpc "LINE_DEN_COEFF" ivs) by (apply (letter_groups "LINE_DEN_COEFF" (firstn 14 (children_of letter_rpc)) (skipn 15 (children_of letter_rpc))); not_these).
  assert (G3 : coefficient_groups letter_conv letter_rpc "SAMP_NUM_COEFF" ivs) by (apply (letter_groups "SAMP_NUM_COEFF" (firstn 15 (children_of letter_rpc)) (skipn 16 (children_of letter_rpc))); not_these).
  assert (G4 : coefficient_groups letter_conv letter_rpc "SAMP_DEN_COEFF" ivs) by (apply (letter_groups "SAMP_DEN_COEFF" (firstn 16 (children_of letter_rpc)) (skipn 17 (children_of letter_rpc))); not_these).
  set (g := mkGeo (5 * PI / 180) (3 * PI / 180) 3).
  assert (L : ((longitude g * 180 / PI - 3) / 2 = 1)%R) by (unfold g; cbn; field; apply PI_neq0).
  assert (P : ((latitude g * 180 / PI - 3) / 2 = 0)%R) by (unfold g; cbn; field; apply PI_neq0).
  assert (H : ((elevation g - 3) / 2 = 0)%R) by (unfold g; cbn; field).
  assert (V : groups_value ivs 1 0 0 = 19%R).
  { unfold groups_value, total, ivs. cbn -[nth Z.to_nat]. unfold monomial, Z.to_nat, Pos.to_nat. cbn. lra. }
  destruct (C90_rpc letter_conv true flat_geocentric flat_geodetic (knowing t) rpc_minimize rsm_minimize crs_of sicd_document (fun s => Ok s) (fun _ => "")
     (fun _ => Ok tres) (fun s => s) (fun _ => Ok (Some tre_file)) "image.ntf" tre_file r tres letter_rpc 3 3 3 2 2 2 3 3 2 2 ivs ivs ivs ivs g (5 / 2, 5 / 2)%R) as (s & Z & K);
    try assumption; try (apply float_ok; reflexivity).
  - apply knowing_least_squares.
  - apply no_sar_in_tres.
  - exists "tres", []. split; reflexivity.
  - intros e (x & y & Q & N & _). cbn [tres children_of] in Q.
    assert (I : In e [letter_rpc; chip_fields]) by (rewrite Q; apply in_elt). destruct I as [<-|[<-|[]]]; destruct N; discriminate.
  - apply int_ok. reflexivity.
  - exists 3%R. apply float_ok. reflexivity.
  - exists 3%R. apply float_ok. reflexivity.
  - rewrite L, P, H, V. replace (3 + 2 * (19 / 19))%R with 5%R by field. exact C.
  - subst r. exists s. split; [exact O|exact K].
Qed.

(** A file with a CSCRNA TRE only, 10 by 10 pixels, whose corners are at 3 and 8 degrees east and 13 and 3 degrees north. *)
Definition corner_tre : Element := El "tre" [("name", "CSCRNA")]
  [field "ULCNR_LONG" "d"; field "ULCNR_LAT" "n"; field "URCNR_LONG" "i"; field "URCNR_LAT" "n";
   field "LRCNR_LONG" "i"; field "LRCNR_LAT" "d"; field "LLCNR_LONG" "d"; field "LLCNR_LAT" "d";
   field "ULCNR_HT" "a"; field "URCNR_HT" "a"; field "LRCNR_HT" "a"; field "LLCNR_HT" "a"].
Example C90_corners_non_vacuous : forall rpc_minimize rsm_minimize crs_of, exists lstsq s,
  let open := load_gdal_dataset Opened
    (open_builders letter_conv true flat_geocentric flat_geodetic lstsq rpc_minimize rsm_minimize crs_of sicd_document)
    letter_conv (fun s => Ok s) (fun _ => "") (fun _ => Ok (El "tres" [] [corner_tre])) (fun s => s) (fun _ => Ok (Some tre_file)) in
  open "image.ntf" = Ok (tre_file, Some s) /\
  opened_image_to_world flat_geodetic flat_geocentric s (mkImage 4 6) None None = Ok (Some (mkGeo (5 * PI / 180) (7 * PI / 180) 0)).
Proof.
  intros rpc_minimize rsm_minimize crs_of. pose proof PI_RGT_0 as P0.
  set (t := mkProjective (-6) (2 * (180 / PI)) 0 13 0 (- (180 / PI)) 0 0). exists (knowing t).
  set (open := load_gdal_dataset Opened (open_builders letter_conv true flat_geocentric flat_geodetic (knowing t) rpc_minimize rsm_minimize crs_of sicd_document)
    letter_conv (fun s => Ok s) (fun _ => "") (fun _ => Ok (El "tres" [] [corner_tre])) (fun s => s) (fun _ => Ok (Some tre_file))).
  set (tres := El "tres" [] [corner_tre]) in *.
  assert (T : forall a b x y, (x = 2 * a - 6 -> y = 13 - b -> takes t (a * PI / 180, b * PI / 180) (x, y))%R).
  { intros a b x y -> ->. unfold takes, denominator, t. cbn [fst snd a0 a1 a2 b0 b1 b2 c0 c1]. split; [lra|]. split; field; lra. }
  assert (F : first_named tres "tre" "CSCRNA" corner_tre) by (exists [], []; split; [reflexivity|]; split; [split; reflexivity | intros x []]).
  assert (W : forall n, n <> "CSCRNA" -> without_tre tres n).
  { intros n D e (x & y & Q & N & _). cbn [tres children_of] in Q.
    assert (I : In e [corner_tre]) by (rewrite Q; apply in_elt). destruct I as [<-|[]]. destruct N as [_ N]. injection N as N. apply D. now symmetry. }
  assert (O : exists r, open "image.ntf" = Ok (tre_file, r)).
  { unfold open, load_gdal_dataset. cbn [ds_tres tre_file ds_dess map_res bind]. unfold factory_build, approximate_from_gdal, selection.
    cbn [md_selected md_geo_transform md_proj_wkt md_gcps md_tres md_dess ds_geo_transform ds_proj_wkt ds_gcps tre_file ds_width ds_height bind selected existsb sensor_type_eqb orb].
    unfold models_from_tres.
    change (find_named tres "tre" "ICHIPB") with (@None Element). cbv beta iota zeta. cbn [bind md_width md_height].
    set (bs := open_builders _ _ _ _ _ _ _ _ _).
    assert (B1 : b_rsm bs tres = Ok None) by reflexivity.
    assert (B2 : b_rpc bs tres = Ok None) by reflexivity.
    assert (B3 : b_projective bs tres 10 10 = Ok (Some (Optical (projective_sensor t)))).
    { unfold bs. cbn [b_projective open_builders]. unfold projective_build.
      change (find_named tres "tre" "CSCRNA") with (Some corner_tre). cbv iota. unfold build_projective_sensor_model.
      replace (map_res (corner letter_conv corner_tre) ["UL"; "UR"; "LR"; "LL"])
        with (Ok [mkGeo (radians 3) (radians 13) (radians 0); mkGeo (radians 8) (radians 13) (radians 0); mkGeo (radians 8) (radians 3) (radians 0); mkGeo (radians 3) (radians 3) (radians 0)]) by reflexivity.
      cbn [bind make_projective_sensor List.map longitude latitude ix iy].
      rewrite knowing_estimate; [reflexivity|discriminate|].
      repeat (apply Forall2_cons; [apply T; lra|]). apply Forall2_nil. }
    change (selected _ TRSM) with true. change (selected _ TRPC) with true. change (selected _ TPROJECTIVE) with true. cbv iota. rewrite B1. cbn [bind]. rewrite B2. cbn [bind].
    change (find_named tres "tre" "CSCRNA") with (Some corner_tre). unfold wrap_chip. cbn [bind]. rewrite B3. cbn [bind fst snd combine_models].
    eexists. reflexivity. }
  destruct O as (r & O).
  set (lon c := if existsb (String.eqb c) ["UL"; "LL"] then 3%R else 8%R). set (lat c := if existsb (String.eqb c) ["UL"; "UR"] then 13%R else 3%R).
  destruct (C90_corners letter_conv true flat_geocentric flat_geodetic (knowing t) rpc_minimize rsm_minimize crs_of sicd_document (fun s => Ok s) (fun _ => "")
     (fun _ => Ok tres) (fun s => s) (fun _ => Ok (Some tre_file)) "image.ntf" tre_file r tres corner_tre t lon lat 10 10) as (s & Z & K); try assumption; try lia.
  - apply knowing_least_squares.
  - split; [apply no_sar_in_tres|]. right. exists tres. split; [exists "tres", []; split; reflexivity|]. split; reflexivity.
  - exists "tres", []. split; reflexivity.
  - left. split; [apply W; discriminate|split; reflexivity].
  - intros c [<-|[<-|[<-|[<-|[]]]]]; split; apply float_ok; reflexivity.
  - apply T; cbn; lra.
  - apply T; cbn; lra.
  - apply T; cbn; lra.
  - apply T; cbn; lra.
  - unfold general_position, collinear, lon, lat. cbn [fst snd existsb String.eqb Ascii.eqb Bool.eqb andb orb]. repeat split; nra.
  - unfold determinant, t. cbn [a0 a1 a2 b0 b1 b2 c0 c1]. assert (0 < 180 / PI)%R by (apply Rdiv_lt_0_compat; lra). nra.
  - subst r. exists s. split; [exact O|]. destruct (K (5 * PI / 180, 7 * PI / 180) (4, 6) (4, 6))%R as (_ & Loc).
    + apply T; lra.
    + left. split; [apply W; discriminate|reflexivity].
    + exact (Loc None None).
Qed.

(** A file with a SIDD document, a geotransform and an RPC TRE: the document answers. *)
Definition demo_sidd : SiddMeta :=
  mkSiddMeta (mkVec 0 4 0) 20 10 (mkVec 1 0 0) (mkVec 0 1 0) 2 (1/2) (mkPoly2 [mkCoef2 0 0 0] 0 0)
             (mkXyzPoly (mkPoly1 [mkCoef1 2 1] 1) (mkPoly1 [] 0) (mkPoly1 [mkCoef1 3 0] 0)) None.
Definition sidd_text (s : string) : res Document := if String.eqb s "<SIDD/>" then Ok (SiddDocument demo_sidd) else Err ValueError.
Definition sidd_parse (s : string) : res Element :=
  Ok (if String.eqb s "tres" then El "tres" [] [rpc_tre] else El "des_list" [] [El "des" [("name", "XML_DATA_CONTENT")] [field "DESDATA" "<SIDD/>"]]).
Example C90_sidd_non_vacuous : forall to_geocentric to_geodetic lstsq rpc_minimize rsm_minimize crs_of,
  let open parse_xml := load_gdal_dataset Opened
    (open_builders one_char_conv true to_geocentric to_geodetic lstsq rpc_minimize rsm_minimize crs_of parse_xml)
    one_char_conv (fun s => Ok s) (fun _ => "") sidd_parse (fun s => s) (fun _ => Ok (Some sicd_file)) in
  first_sar_text (fun s => Ok s) (fun _ => "") sidd_parse (fun s => s) sicd_file "<SIDD/>" /\
  (exists s, open sidd_text "image.ntf" = Ok (sicd_file, Some s) /\
   opened_image_to_world to_geodetic to_geocentric s (mkImage 12 21) None None = Ok (Some (to_geodetic (mkVec 2 5 0)))) /\
  (** A document that cannot be read leaves the geotransform; without geotransform and TRE there is no model. *)
  load_gdal_dataset Opened (open_builders one_char_conv true to_geocentric to_geodetic lstsq rpc_minimize rsm_minimize crs_of (fun _ => Err ValueError))
    one_char_conv (fun s => Ok s) (fun _ => "") sidd_parse (fun s => s) (fun _ => Ok (Some (mkDataset 10 20 None (Some ["des"]) None None None))) "image.ntf"
  = Ok (mkDataset 10 20 None (Some ["des"]) None None None, None).
Proof.
  intros tc tg lstsq rpc_minimize rsm_minimize crs_of open.
  assert (O : exists r, open sidd_text "image.ntf" = Ok (sicd_file, r)).
  { unfold open, load_gdal_dataset. destruct (C29_builder_errors crs_of 0 1 0 0 0 1 [] None) as (_ & A). destruct A as (A & _); [lra|].
    destruct (A (or_introl eq_refl)) as (s & S). cbn [ds_tres sicd_file ds_dess map_res bind]. unfold factory_build, approximate_from_gdal, selection.
    cbn [md_selected md_geo_transform md_proj_wkt md_gcps sicd_parse ds_geo_transform ds_proj_wkt ds_gcps sicd_file ds_width ds_height bind selected existsb sensor_type_eqb orb open_builders b_affine].
    rewrite S. eexists. reflexivity. }
  assert (Z : occurs "SIDD" "<SIDD/>") by (now apply contains_occurs).
  assert (T : first_sar_text (fun s => Ok s) (fun _ => "") sidd_parse (fun s => s) sicd_file "<SIDD/>").
  { exists [El "des" [("name", "XML_DATA_CONTENT")] [field "DESDATA" "<SIDD/>"]], [], []. split.
    - exists [El "des_list" [] [El "des" [("name", "XML_DATA_CONTENT")] [field "DESDATA" "<SIDD/>"]]]. split; [repeat constructor|reflexivity].
    - split; [repeat constructor|]. split; [intros t []|]. exists "<SIDD/>". split; [reflexivity|]. left. exact Z. }
  split; [exact T|]. split; [|reflexivity].
  destruct O as (r & O). destruct C91_non_vacuous as (U & V & I & _). fold demo_sidd in U, V, I.
  destruct U as (U1 & U2 & U3 & _ & _ & U6 & _ & _ & U9).
  destruct (C90_sidd_pixels one_char_conv true tc tg lstsq rpc_minimize rsm_minimize crs_of sidd_text (fun s => Ok s) (fun _ => "")
              sidd_parse (fun s => s) (fun _ => Ok (Some sicd_file)) "image.ntf" sicd_file r "<SIDD/>" demo_sidd (mkImage 12 21) None (fun _ => mkVec 2 0 0) O T Z) as (s & -> & K);
    try assumption; try reflexivity; try apply V.
  exists s. split; [exact O|]. rewrite K. do 2 f_equal. f_equal. exact I.
Qed.
