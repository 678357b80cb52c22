(** Properties of encoded tiles that involve the sensor model: C86. *)
Require Import ZArith Reals String Ascii List Bool Lia Lra.
Require Import Verif.Base Verif.Text Verif.TextFacts Verif.CoordModel Verif.CoordSpec Verif.CoordProofs Verif.CoordProps Verif.DisplayModel
  Verif.Vec Verif.SicdModel Verif.SarMetaModel Verif.SarMetaProps Verif.BuilderModel
  Verif.EncodeModel Verif.EncodeSpec Verif.EncodeProofs Verif.EncodeProps.
Import ListNotations.
Local Open Scope string_scope.

(** ** C86: a tile of a SICD image locates its pixels where the image does *)
(** The document of the tile with window [b]. *)
Definition tile_document (d : SicdMeta) (b : Bounds) : SicdMeta :=
  with_image_data d (mkImageData (bh b) (bw b) (first_row (image_data d) + by_ b) (first_col (image_data d) + bx b)).
(** [xml] renders a document and [parse] reads one (xsdata, external); what is assumed of them is
    that the document of this tile survives.  The text a tile request puts in the DES option gives,
    when parsed, a sensor model exactly when the document of the image does.  That model sends pixel (x, y) of the tile where the model of the image sends
    (x + left, y + top), with any elevation model, and finds world points accordingly. *)
Theorem C86_sicd_tiles : forall (xml : SicdMeta -> string) (parse : string -> option SicdMeta),
  forall show_R fac st0 d scales t options,
  defaults_are fac st0 scales t options -> updater st0 = Some (sicd_updater d) -> f_format fac = Nitf ->
  forall history, let st := serve sicd_update (fun u => xml (sicd_doc u)) show_R fac st0 history in
  forall g others fs q token st' fs' calls r a,
  create_encoded_tile sicd_update (fun u => xml (sicd_doc u)) show_R g others fac st fs q token = (st', fs', calls, r) -> In (Translate a) calls ->
  parse (xml (tile_document d (fst q))) = Some (tile_document d (fst q)) ->
  exists text d', In ("DES=XML_DATA_CONTENT=" ++ f_header fac ++ text) (a_options a) /\ parse text = Some d'
  /\ (sicd_build d = None -> sicd_build d' = None)
  /\ forall full, sicd_build d = Some full -> exists part, sicd_build d' = Some part
     /\ forall to_geodetic to_geocentric,
        (forall x y em, built_image_to_world to_geodetic to_geocentric part (mkImage x y) em
           = built_image_to_world to_geodetic to_geocentric full (mkImage (x + IZR (bx (fst q))) (y + IZR (by_ (fst q)))) em)
     /\ (forall w, built_world_to_image to_geodetic to_geocentric part w
           = bind (built_world_to_image to_geodetic to_geocentric full w)
                  (fun i => Ok (mkImage (ix i - IZR (bx (fst q))) (iy i - IZR (by_ (fst q)))))).
Proof.
  intros xml parse show_R fac st0 d scales t options D Eu F history st g others fs q token st' fs' calls r a E I P.
  destruct (C75_sicd_tiles xml show_R fac st0 d scales t options D Eu F history g others fs q token st' fs' calls r a E I) as (Z & In1 & _).
  destruct q as [b size]. cbn [fst snd] in *.
  pose proof (C39_chip_metadata d b size Z) as U.
  eexists. eexists. split; [exact In1|]. split; [exact P|]. split.
  - intros N. pose proof (C38_no_model d (b, size) N) as M. rewrite U in M. exact M.
  - intros full B. destruct (C38_from_metadata (fun v => mkGeo 0 0 0) (fun g => mkVec 0 0 0) d b size _ full U B) as (part & Bp & _).
    exists part. split; [exact Bp|]. intros tg tc.
    destruct (C38_from_metadata tg tc d b size _ full U B) as (part' & Bp' & H). rewrite Bp in Bp'. injection Bp' as <-. exact H.
Qed.
Print Assumptions C86_sicd_tiles.

(** The same document as [C75_non_vacuous], now read back by a parser that knows it: the tile's model
    sends its pixel (0, 0) where the model of the image sends (1, 2). *)
Example C86_sicd_non_vacuous :
  let fac := mkFactory Nitf None "H" 0 "NITF" in
  let st := mkState (mkHeap [mkKwargs [] Byte Nitf None 0] [[]]) (Some (sicd_updater demo_meta)) in
  let small := mkBounds 1 2 3 4 in
  let xml := fun d => if (first_row (image_data d) =? 32)%Z then "32" else "?" in
  let parse := fun s => if String.eqb s "32" then Some (tile_document demo_meta small) else None in
  let g := mkGdal (fun fs a => (fs, Ok tt)) (fun _ _ => Ok false) (fun _ _ => Err AttributeError) (fun _ _ _ => Err OtherError) (fun _ _ => Ok tt) (fun fs _ => (fs, Ok tt)) in
  defaults_are fac st [] Byte [] /\
  (exists a, In (Translate a) (snd (fst (create_encoded_tile sicd_update (fun u => xml (sicd_doc u)) (fun _ => "") g nobody fac st (fun _ => None) (small, None) "t")))) /\
  parse (xml (tile_document demo_meta small)) = Some (tile_document demo_meta small) /\
  (exists m m', sicd_build demo_meta = Some (Complete m) /\ sicd_build (tile_document demo_meta small) = Some (Complete m') /\
                first_pixel (converter m) = mkImage 40 30 /\ first_pixel (converter m') = mkImage 41 32).
Proof.
  split; [exists 0%nat; cbn; repeat split; lia|]. split; [eexists; left; reflexivity|]. split; [reflexivity|].
  eexists. eexists. split; [reflexivity|]. split; [reflexivity|]. split; reflexivity.
Qed.

(** *** The corners written in a NITF tile *)
Local Open Scope R_scope.
(** The latitude and longitude, in degrees, a text ddmmss[NS]dddmmss[EW] stands for. *)
Definition says (s : string) (lat lon : R) : Prop :=
  exists south ld lm ls west od om os, dms_layout s south ld lm ls west od om os
    /\ lat = (if south then - dms_value ld lm ls else dms_value ld lm ls)
    /\ lon = (if west then - dms_value od om os else dms_value od om os).
Definition on_globe (g : Geodetic) : Prop :=
  Rabs (in_degrees (latitude g)) <= 90 /\ Rabs (in_degrees (longitude g)) <= 180.
Definition close (x y : R) : Prop := Rabs (x - y) < 1 / 3600 + 1 / 2000000.

Lemma dms_says show_R g : on_globe g ->
  String.length (to_dms_string show_R g) = 15%nat /\
  exists lat lon, says (to_dms_string show_R g) lat lon
    /\ close (in_degrees (latitude g)) lat /\ close (in_degrees (longitude g)) lon.
Proof.
  intros [A B]. split; [apply (C07_dms_fixed_width show_R g A B)|].
  destruct (C08_dms_accuracy show_R g A B) as (south & ld & lm & ls & west & od & om & os & L & S & W & E1 & E2).
  eexists. eexists. split; [exists south, ld, lm, ls, west, od, om, os; repeat split; exact L|].
  assert (H : forall (b : bool) x v, (b = true <-> x < 0) -> - (1 / 2000000) <= Rabs x - v < 1 / 3600 + 1 / 2000000 ->
              close x (if b then - v else v)).
  { clear. intros b x v Hb E. unfold close. destruct b.
    - assert (x < 0) by tauto. rewrite (Rabs_left x) in E by lra. apply Rabs_def1; lra.
    - assert (~ x < 0) by (intros C; apply Hb in C; discriminate). rewrite (Rabs_right x) in E by lra. apply Rabs_def1; lra. }
  split; apply H; assumption.
Qed.

(** The options of each NITF tile encoded with a sensor model that puts the four corners of the
    window on the globe include a 60 character IGEOLO whose four texts give those corners, upper left
    first and clockwise, to within a little more than one second of arc. *)
Theorem C86_corners : forall U update encode show_R fac (st0 : State U) scales t options itw,
  defaults_are fac st0 scales t options -> f_format fac = Nitf -> f_sensor fac = Some itw ->
  forall history, let st := serve update encode show_R fac st0 history in
  forall g others fs q token st' fs' calls r a,
  create_encoded_tile update encode show_R g others fac st fs q token = (st', fs', calls, r) -> In (Translate a) calls ->
  let w := fst q in
  let corners := [(bx w, by_ w); (bx w + bw w, by_ w); (bx w + bw w, by_ w + bh w); (bx w, by_ w + bh w)]%Z in
  exists places, Forall2 (fun c p => itw (fst c) (snd c) = Ok p) corners places
  /\ In "ICORDS=G" (a_options a)
  /\ exists text, In ("IGEOLO=" ++ text)%string (a_options a)
     /\ (Forall on_globe places -> String.length text = 60%nat
         /\ forall i p, nth_error places i = Some p ->
            exists lat lon, says (substring (15 * i) 15 text) lat lon
              /\ close (in_degrees (latitude p)) lat /\ close (in_degrees (longitude p)) lon).
Proof.
  intros U update encode show_R fac st0 scales t options itw D F S history st g others fs q token st' fs' calls r a E I w corners.
  destruct (C53_requests _ _ _ _ _ _ _ _ _ D history _ _ _ _ _ _ _ _ _ _ E I) as (o1 & o2 & L & _ & ->).
  unfold location_options in L. rewrite S, F in L. destruct L as (pa & pb & pc & pd & A & B & C & Dd & ->). cbn [a_options].
  exists [pa; pb; pc; pd]. split; [repeat constructor; assumption|].
  split; [apply in_or_app; right; apply in_or_app; left; left; reflexivity|].
  eexists. split; [apply in_or_app; right; apply in_or_app; left; right; left; reflexivity|].
  intros G. inversion_clear G as [|? ? Ga G1]. inversion_clear G1 as [|? ? Gb G2]. inversion_clear G2 as [|? ? Gc G3].
  inversion_clear G3 as [|? ? Gd _].
  destruct (dms_says show_R pa Ga) as [La Sa]. destruct (dms_says show_R pb Gb) as [Lb Sb].
  destruct (dms_says show_R pc Gc) as [Lc Sc]. destruct (dms_says show_R pd Gd) as [Ld Sd].
  destruct (four_fields _ _ _ _ La Lb Lc Ld) as (L60 & F0 & F1 & F2 & F3).
  split; [exact L60|]. intros i p N.
  destruct i as [|[|[|[|i]]]]; cbn in N; [| | | |destruct i; discriminate]; injection N as <-; cbn [Nat.mul Nat.add];
    [rewrite F0 | rewrite F1 | rewrite F2 | rewrite F3]; assumption.
Qed.
Print Assumptions C86_corners.

Example C86_corners_non_vacuous :
  let fac := mkFactory Nitf (Some (fun x y => Ok (mkGeo (IZR x * PI / 180) 0 0))) "" 0 "NITF" in
  let st := mkState (mkHeap [mkKwargs [] Byte Nitf None 0] [[]]) (@None unit) in
  let g := mkGdal (fun fs a => (fs, Ok tt)) (fun _ _ => Ok false) (fun _ _ => Err AttributeError) (fun _ _ _ => Err OtherError) (fun _ _ => Ok tt) (fun fs _ => (fs, Ok tt)) in
  defaults_are fac st [] Byte [] /\
  (exists a, In (Translate a) (snd (fst (create_encoded_tile (fun u _ => (u, Ok tt)) (fun _ => ""%string) (fun _ => ""%string) g nobody fac st (fun _ => None) (mkBounds 1 2 3 4, None) "t")))) /\
  Forall on_globe (map (fun x => mkGeo (IZR x * PI / 180) 0 0) [1; 4; 4; 1]%Z).
Proof.
  split; [exists 0%nat; cbn; repeat split; lia|]. split; [eexists; left; reflexivity|].
  pose proof PI_RGT_0 as P.
  assert (H : forall x, (0 <= x <= 180)%Z -> on_globe (mkGeo (IZR x * PI / 180) 0 0)).
  { intros x Hx. unfold on_globe, in_degrees. cbn [latitude longitude].
    replace (IZR x * PI / 180 * 180 / PI) with (IZR x) by (field; lra).
    replace (0 * 180 / PI) with 0 by (field; lra). rewrite Rabs_R0, Rabs_right by (apply Rle_ge, IZR_le; lia).
    split; [lra|]. apply IZR_le. lia. }
  cbn [map]. repeat (apply Forall_cons; [apply H; lia|]). apply Forall_nil.
Qed.
