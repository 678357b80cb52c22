(** Properties of encoded tiles: C53, C54, C74, C75. *)
Require Import ZArith Reals String Ascii List Bool Lia.
Require Import Verif.Base Verif.Text Verif.TextFacts Verif.CoordModel Verif.CoordProps Verif.DisplayModel Verif.SarMetaModel Verif.SarMetaProps
  Verif.TreModel Verif.TreSpec Verif.TreProofs Verif.BuilderModel Verif.BuilderSpec Verif.BuilderProofs
  Verif.EncodeModel Verif.EncodeSpec Verif.EncodeProofs.
Import ListNotations.
Local Open Scope string_scope.

(** ** C53: creation options *)
Definition floating (t : GdalType) : Prop := t = Float32 \/ t = Float64.
Theorem C53_table : forall (c : option Compression) (t : GdalType),
  creation_options Jpeg c t = [] /\ creation_options Png c t = []
  /\ (floating t -> c = None \/ c = Some CJ2k \/ c = Some CNone -> creation_options Nitf c t = ["IC=NC"])
  /\ (~ floating t -> c = None \/ c = Some CJ2k -> creation_options Nitf c t = ["IC=C8"])
  /\ (c = Some CNone -> creation_options Nitf c t = ["IC=NC"] /\ creation_options Gtiff c t = ["COMPRESS=NONE"])
  /\ (c = Some CJpeg -> creation_options Nitf c t = ["IC=C3"] /\ creation_options Gtiff c t = ["COMPRESS=JPEG"])
  /\ (c = Some CLzw -> creation_options Nitf c t = ["IC=C8"] /\ creation_options Gtiff c t = ["COMPRESS=LZW"])
  /\ (c = None \/ c = Some CJ2k -> creation_options Gtiff c t = ["COMPRESS=LZW"]).
Proof.
  intros c t. unfold floating. repeat split; intros; try (destruct H as [-> | ->]; reflexivity); subst; try reflexivity.
  - destruct H as [-> | ->]; destruct H0 as [-> | [-> | ->]]; reflexivity.
  - destruct H0 as [-> | ->]; destruct t; try reflexivity; exfalso; apply H; tauto.
Qed.

(** The J2K library cannot write floating point pixels, and the code says so; it still asks for J2K
    when LZW was requested for a NITF. *)
Theorem C53_float_j2k_refuted : ~ (forall c t, floating t -> ~ In "IC=C8" (creation_options Nitf c t)).
Proof. intros H. apply (H (Some CLzw) Float32); [left; reflexivity | left; reflexivity]. Qed.

(** A new factory's options. *)
Theorem C53_new_factory : forall U cv decode tostring make_sidd make_sicd driver dess bands sensor f c desired adjust ext fac (st : State U),
  tile_factory cv decode tostring make_sidd make_sicd driver dess bands sensor f c desired adjust ext = Ok (fac, st) ->
  f_format fac = f /\ f_sensor fac = sensor /\ f_extension fac = ext
  /\ exists t scales, get_type_and_scales bands desired adjust = Ok (t, scales) /\ defaults_are fac st scales t (creation_options f c t).
Proof.
  intros U cv decode tostring ms mc driver dess bands sensor f c desired adjust ext fac st E. unfold tile_factory in E.
  apply bind_ok in E as [sar [_ E]]. apply bind_ok in E as [[h d] [E1 E]]. injection E as <- <-.
  cbn [f_format f_sensor f_extension]. split; [reflexivity|]. split; [reflexivity|]. split; [reflexivity|].
  unfold create_gdal_translate_kwargs in E1. apply bind_ok in E1 as [[t scales] [G E1]]. cbn in E1. injection E1 as <- <-.
  exists t, scales. split; [exact G|]. exists 0%nat. cbn. repeat split; lia.
Qed.

(** Whatever was requested before, with whatever outcome, each Translate call gets the factory's own
    options followed by the corners and the SAR metadata of its own window. *)
Theorem C53_requests : forall U update encode show_R fac (st0 : State U) scales t options,
  defaults_are fac st0 scales t options ->
  forall history, let st := serve update encode show_R fac st0 history in
  forall g others fs q token st' fs' calls r a,
  create_encoded_tile update encode show_R g others fac st fs q token = (st', fs', calls, r) -> In (Translate a) calls ->
  exists location sar,
    location_options show_R fac (fst q) location
    /\ sar_options update encode fac (updater st) q sar (updater st')
    /\ a = mkArgs (temp_name fac token) (fst q) scales t (f_format fac) (snd q) (options ++ location ++ sar).
Proof.
  intros U update encode show_R fac st0 scales t options D history st g others fs q token st' fs' calls r a E I.
  apply (serve_defaults update encode show_R fac history) in D. fold st in D.
  pose proof (prepare_spec update encode show_R fac st q token _ _ _ D) as P.
  pose proof (tile_translate update encode show_R g others _ _ _ _ _ _ _ _ _ _ E I) as T. apply tile_state in E.
  destruct (prepare _ _ _ _ _ _ _) as [st1 x]. cbn in E, T. subst st1 x. destruct P as [_ P]. exact (P a eq_refl).
Qed.

(** Two requests for the same window and size, however far apart, are encoded with the same options
    when there is no SAR metadata. *)
Theorem C53_repeatable : forall U update encode show_R fac (st0 : State U) scales t options,
  defaults_are fac st0 scales t options -> updater st0 = None ->
  forall h1 h2 q tok, let again h := snd (prepare update encode show_R fac (serve update encode show_R fac st0 h) q tok) in
  forall a b, again h1 = Ok a -> again h2 = Ok b -> a = b.
Proof.
  intros U update encode show_R fac st0 scales t options D N h1 h2 q tok again a b A B.
  assert (W : forall h x, again h = Ok x -> exists o1, location_options show_R fac (fst q) o1 /\ x = mkArgs (temp_name fac tok) (fst q) scales t (f_format fac) (snd q) (options ++ o1)).
  { intros h x X. unfold again in X. pose proof (serve_defaults update encode show_R fac h _ _ _ _ D) as D'.
    pose proof (serve_updater update encode show_R fac h st0) as S. rewrite N in S.
    pose proof (prepare_spec update encode show_R fac _ q tok _ _ _ D') as P. destruct (prepare _ _ _ _ _ _ _) as [s y]. cbn in X. subst y.
    destruct P as [_ P]. destruct (P x eq_refl) as (o1 & o2 & L & Q & ->). exists o1. split; [exact L|].
    rewrite S in Q. unfold sar_options in Q. destruct Q as [-> _]. rewrite app_nil_r. reflexivity. }
  destruct (W h1 a A) as (o1 & L1 & ->). destruct (W h2 b B) as (o2 & L2 & ->). do 2 f_equal.
  unfold location_options in L1, L2. destruct (f_sensor fac) as [itw|]; [|congruence]. destruct (f_format fac); try congruence.
  destruct L1 as (a1 & b1 & c1 & d1 & ? & ? & ? & ? & ->). destruct L2 as (a2 & b2 & c2 & d2 & ? & ? & ? & ? & ->). congruence.
Qed.

(** The corner text is the one of C12. *)
Theorem C53_igeolo : forall show_R itw b, checked_igeolo show_R (fun x y => Ok (itw x y)) b = Ok (create_new_igeolo show_R itw (bx b) (by_ b) (bw b) (bh b)).
Proof. intros show_R itw b. unfold checked_igeolo, create_new_igeolo. cbv zeta. cbn [map_res bind fst snd List.map]. reflexivity. Qed.

Example C53_non_vacuous :
  let fac := mkFactory Nitf None "" 0 "NITF" in
  let st := mkState (mkHeap [mkKwargs [] Byte Nitf None 0] [["IC=C8"]]) (Some 0%Z) in
  let upd := fun (u : Z) (q : request) => ((u + 1)%Z, Ok tt) in
  let g := mkGdal (fun fs a => (fs, Ok tt)) (fun _ _ => Ok false) (fun _ _ => Err AttributeError) (fun _ _ _ => Err OtherError) (fun _ _ => Ok tt) (fun fs _ => (fs, Ok tt)) in
  let q := (mkBounds 0 0 1 1, Some (5, 6)%Z) in
  let files := fun _ : string => @None string in
  defaults_are fac st [] Byte ["IC=C8"] /\
  snd (fst (create_encoded_tile upd (fun u => if Z.eqb u 2 then "second" else "") (fun _ => "") g nobody fac
    (serve upd (fun _ => "") (fun _ => "") fac st [(g, nobody, files, q, "aa")]) files q "bb"))
  = [Translate (mkArgs "/vsimem/bb.NITF" (mkBounds 0 0 1 1) [] Byte Nitf (Some (5, 6)%Z)
       ["IC=C8"; "ICAT=SAR"; "IREP=NODISPLY"; "IREPBAND= , "; "ISUBCAT=I,Q"; "DES=XML_DATA_CONTENT=second"]);
     Open "/vsimem/bb.NITF"; Delete "/vsimem/bb.NITF"].
Proof. split; [exists 0%nat; cbn; repeat split; lia | vm_compute; reflexivity]. Qed.

(** ** C75: SICD tiles do not depend on earlier requests *)
Theorem C75_sicd_tiles : forall (xml : SicdMeta -> string) show_R fac st0 d scales t options,
  defaults_are fac st0 scales t options -> updater st0 = Some (sicd_updater d) -> f_format fac = Nitf ->
  forall history, let st := serve sicd_update (fun u => xml (sicd_doc u)) show_R fac st0 history in
  forall g others fs q token st' fs' calls r a,
  create_encoded_tile sicd_update (fun u => xml (sicd_doc u)) show_R g others fac st fs q token = (st', fs', calls, r) -> In (Translate a) calls ->
  let w := fst q in
  (snd q = None \/ snd q = Some (bw w, bh w))
  /\ In ("DES=XML_DATA_CONTENT=" ++ f_header fac ++
         xml (with_image_data d (mkImageData (bh w) (bw w) (first_row (image_data d) + by_ w) (first_col (image_data d) + bx w)))) (a_options a)
  /\ forall o, In o (a_options a) -> In o options \/ (exists x, location_options show_R fac w x /\ In o x) \/ In o ["ICAT=SAR"; "IREP=NODISPLY"; "IREPBAND= , "; "ISUBCAT=I,Q";
         "DES=XML_DATA_CONTENT=" ++ f_header fac ++
         xml (with_image_data d (mkImageData (bh w) (bw w) (first_row (image_data d) + by_ w) (first_col (image_data d) + bx w)))].
Proof.
  intros xml show_R fac st0 d scales t options D Eu F history st g others fs q token st' fs' calls r a E I w.
  destruct (C53_requests _ _ _ _ _ _ _ _ _ D history _ _ _ _ _ _ _ _ _ _ E I) as (o1 & o2 & L & S & ->). fold st in S.
  pose proof (serve_updater sicd_update (fun u => xml (sicd_doc u)) show_R fac history st0) as V. rewrite Eu in V. destruct V as [qs V]. fold st in V.
  change (fold_left _ qs (sicd_updater d)) with (sicd_run (sicd_updater d) qs) in V.
  unfold sar_options in S. rewrite V, F in S. destruct S as (v & Uv & _ & ->).
  destruct (C39_history_independent d qs q) as [H1 H2]. rewrite Uv in H1, H2. cbn [fst snd] in H1, H2. specialize (H2 eq_refl).
  assert (Z : snd q = None \/ snd q = Some (bw w, bh w)).
  { destruct q as [b [[x y]|]]; [|left; reflexivity]. right. cbn [fst snd] in *. unfold w.
    destruct (Z.eq_dec x (bw b)) as [->|Nx]; [destruct (Z.eq_dec y (bh b)) as [->|Ny]; [reflexivity|]|].
    - rewrite C39_scaling_refused in H1 by congruence. discriminate.
    - rewrite C39_scaling_refused in H1 by congruence. discriminate. }
  destruct q as [b size]. cbn [fst snd] in *. rewrite (C39_chip_metadata d b size Z) in H2. cbn [fst sicd_doc] in H2. rewrite H2. fold w.
  split; [exact Z|]. cbn [a_options]. split.
  - apply in_or_app; right. apply in_or_app; right. cbn. tauto.
  - intros o O. apply in_app_or in O as [O|O]; [left; exact O|]. right. apply in_app_or in O as [O|O]; [left; exists o1; split; assumption | right; exact O].
Qed.
Example C75_non_vacuous :
  let fac := mkFactory Nitf None "H" 0 "NITF" in
  let st := mkState (mkHeap [mkKwargs [] Byte Nitf None 0] [[]]) (Some (sicd_updater demo_meta)) in
  let xml := fun d => if (first_row (image_data d) =? 32)%Z then "32" else "?" in
  let g := mkGdal (fun fs a => (fs, Ok tt)) (fun _ _ => Ok false) (fun _ _ => Err AttributeError) (fun _ _ _ => Err OtherError) (fun _ _ => Ok tt) (fun fs _ => (fs, Ok tt)) in
  let files := fun _ : string => @None string in
  let big := (mkBounds 9 9 9 9, None) in let small := (mkBounds 1 2 3 4, None) in
  let tile st := create_encoded_tile sicd_update (fun u => xml (sicd_doc u)) (fun _ => "") g nobody fac st files small "t" in
  let later := serve sicd_update (fun u => xml (sicd_doc u)) (fun _ => "") fac st [(g, nobody, files, big, "b"); (g, nobody, files, (mkBounds 1 2 3 4, Some (9, 9)%Z), "c")] in
  snd (fst (tile later)) = snd (fst (tile st))
  /\ exists a, In (Translate a) (snd (fst (tile later))) /\ In "DES=XML_DATA_CONTENT=H32" (a_options a).
Proof.
  split; [vm_compute; reflexivity|]. eexists. split; [left; reflexivity|]. vm_compute. tauto.
Qed.

(** ** C74: which SAR metadata a factory uses *)
Definition is_sar (x : string) : Prop := occurs "SIDD" x \/ occurs "SICD" x.
Section Sar.
Variable U : Type.
Variable cv : Conv.
Variable decode : string -> res string.
Variable tostring : Element -> string.
Variable make_sidd make_sicd : string -> res U.
Notation text := (extract_desdata_xml decode tostring).
(** Segments before [s] that do not hold SAR metadata. *)
Definition passed_over (l : list Element) : Prop := forall e, In e l -> exists t, text e = Ok t /\ forall x, t = Some x -> ~ is_sar x.

Lemma empty_not_sar : ~ is_sar "".
Proof. intros [[a [b E]] | [a [b E]]]; destruct a; discriminate. Qed.
Theorem C74_first_sar_segment : forall segments,
  (forall before s after x h, segments = (before ++ s :: after)%list -> passed_over before -> text s = Ok (Some x) -> is_sar x ->
     extract_des_header cv s = Ok h ->
     (occurs "SIDD" x -> find_sar cv decode tostring make_sidd make_sicd segments = bind (make_sidd x) (fun u => Ok (Some (u, h))))
     /\ (~ occurs "SIDD" x -> find_sar cv decode tostring make_sidd make_sicd segments = bind (make_sicd x) (fun u => Ok (Some (u, h)))))
  /\ (passed_over segments -> find_sar cv decode tostring make_sidd make_sicd segments = Ok None).
Proof.
  intros segments. 
  assert (Skip : forall e r t, text e = Ok t -> (forall x, t = Some x -> ~ is_sar x) ->
    find_sar cv decode tostring make_sidd make_sicd (e :: r) = find_sar cv decode tostring make_sidd make_sicd r).
  { intros e r t T N. cbn [find_sar]. rewrite T. cbn [bind]. destruct t as [x|]; [|reflexivity].
    specialize (N x eq_refl). destruct x as [|c x]; [reflexivity|].
    destruct (contains "SIDD" (String c x)) eqn:A; [exfalso; apply N; left; apply contains_occurs; exact A|].
    destruct (contains "SICD" (String c x)) eqn:B; [exfalso; apply N; right; apply contains_occurs; exact B|]. reflexivity. }
  split.
  - intros before s after x h -> P T I H. induction before as [|e r IH]; cbn [app].
    + assert (X : x <> "") by (intros ->; exact (empty_not_sar I)). cbn [find_sar]. rewrite T. cbn [bind]. destruct x as [|c x]; [congruence|].
      rewrite H. cbn [bind]. split; intros Q.
      * apply contains_occurs in Q. rewrite Q. reflexivity.
      * destruct I as [I|I]; [contradiction|]. apply contains_false in Q. rewrite Q. apply contains_occurs in I. rewrite I. reflexivity.
    + destruct (P e (or_introl eq_refl)) as [t [Te Ne]]. rewrite (Skip e _ t Te Ne). apply IH. intros e' I'. apply P. right; exact I'.
  - intros P. induction segments as [|e r IH]; [reflexivity|].
    destruct (P e (or_introl eq_refl)) as [t [Te Ne]]. rewrite (Skip e _ t Te Ne). apply IH. intros e' I'. apply P. right; exact I'.
Qed.
(** The header that goes with the metadata is that of its own segment, and only NITF datasets have
    any. *)
Theorem C74_factory : forall driver dess bands sensor f c desired adjust ext fac (st : State U),
  tile_factory cv decode tostring make_sidd make_sicd driver dess bands sensor f c desired adjust ext = Ok (fac, st) ->
  match updater st with
  | None => True
  | Some u => driver = "NITF" /\ exists before s after x,
      get_segments_by_name dess "XML_DATA_CONTENT" = (before ++ s :: after)%list /\ passed_over before
      /\ text s = Ok (Some x) /\ is_sar x /\ extract_des_header cv s = Ok (f_header fac)
      /\ (make_sidd x = Ok u /\ occurs "SIDD" x \/ make_sicd x = Ok u /\ ~ occurs "SIDD" x)
  end.
Proof.
  intros driver dess bands sensor f c desired adjust ext fac st E. unfold tile_factory in E.
  apply bind_ok in E as [sar [E0 E]]. apply bind_ok in E as [[h d] [_ E]]. injection E as <- <-. cbn [updater f_header].
  destruct sar as [[u hd]|]; [|exact I]. cbn [fst snd]. destruct (String.eqb_spec driver "NITF") as [->|N]; [|discriminate]. split; [reflexivity|].
  revert E0. generalize (get_segments_by_name dess "XML_DATA_CONTENT"). intros l. induction l as [|s r IH]; [discriminate|]. cbn [find_sar]. intros E.
  apply bind_ok in E as [t [T E]].
  assert (Go : (forall x, t = Some x -> ~ is_sar x) -> find_sar cv decode tostring make_sidd make_sicd r = Ok (Some (u, hd)) ->
    exists before s0 after x, s :: r = (before ++ s0 :: after)%list /\ passed_over before /\ text s0 = Ok (Some x) /\ is_sar x
      /\ extract_des_header cv s0 = Ok hd /\ (make_sidd x = Ok u /\ occurs "SIDD" x \/ make_sicd x = Ok u /\ ~ occurs "SIDD" x)).
  { intros N F. destruct (IH F) as (b & s0 & a & x & -> & P & R). exists (s :: b), s0, a, x. split; [reflexivity|]. split; [|exact R].
    intros e [<- | Ie]; [exists t; split; assumption | apply P; exact Ie]. }
  destruct t as [[|ch x]|]; [apply Go; [intros x X; injection X as <-; apply empty_not_sar | exact E] | | apply Go; [discriminate | exact E]].
  destruct (contains "SIDD" (String ch x)) eqn:A.
  - apply contains_occurs in A. apply bind_ok in E as [h' [H E]]. apply bind_ok in E as [u' [M E]]. injection E as -> ->.
    exists [], s, r, (String ch x). split; [reflexivity|]. split; [intros e []|]. split; [exact T|]. split; [left; exact A|]. split; [exact H|]. left. tauto.
  - destruct (contains "SICD" (String ch x)) eqn:B.
    + apply contains_occurs in B. apply contains_false in A. apply bind_ok in E as [h' [H E]]. apply bind_ok in E as [u' [M E]]. injection E as -> ->.
      exists [], s, r, (String ch x). split; [reflexivity|]. split; [intros e []|]. split; [exact T|]. split; [right; exact B|]. split; [exact H|]. right. tauto.
    + apply contains_false in A. apply contains_false in B. apply Go; [|exact E]. intros y Y. injection Y as <-. intros [Q|Q]; contradiction.
Qed.
End Sar.
(** A SICD segment before the SIDD one wins, unlike the comment in the code expects of files. *)
Definition seg (x : string) : Element :=
  El "des" [("name", "XML_DATA_CONTENT")]
    (El "field" [("name", "DESVER"); ("value", "1")] [] :: El "field" [("name", "DESSHL"); ("value", "0")] []
     :: El "field" [("name", "DESDATA"); ("value", x)] []
     :: List.map (fun f => El "field" [("name", fst f); ("value", "")] []) des_text_fields).
Definition demo_conv : Conv := mkConv (fun s => if String.eqb s "1" then Some 1%Z else Some 0%Z) (fun _ => None).
Example C74_non_vacuous :
  exists h, find_sar demo_conv (fun s => Ok s) tag_of (fun x => Ok ("sidd:" ++ x)) (fun x => Ok ("sicd:" ++ x)) [seg "other"; seg "SIDD and SICD"; seg "SICD"]
    = Ok (Some ("sidd:SIDD and SICD", h)) /\ String.length h = 173%nat.
Proof. eexists. split; [vm_compute; reflexivity | vm_compute; reflexivity]. Qed.
Theorem C74_sidd_preferred_refuted :
  ~ (forall segments s x, In s segments -> extract_desdata_xml (fun s => Ok s) tag_of s = Ok (Some x) -> occurs "SIDD" x ->
       exists y h, find_sar demo_conv (fun s => Ok s) tag_of (fun x => Ok ("sidd:" ++ x)) (fun x => Ok ("sicd:" ++ x)) segments = Ok (Some ("sidd:" ++ y, h))).
Proof.
  intros H. destruct (H [seg "SICD"; seg "SIDD"] (seg "SIDD") "SIDD") as (y & h & E); [right; left; reflexivity | vm_compute; reflexivity | exists "", ""; reflexivity|].
  vm_compute in E. discriminate.
Qed.

Example C74_factory_non_vacuous :
  exists fac st, tile_factory demo_conv (fun s => Ok s) tag_of (fun x => Ok ("sidd:" ++ x)) (fun x => Ok ("sicd:" ++ x)) "NITF" [El "des_list" [] [seg "other"; seg "a SICD"]; El "des_list" [] [seg "a SIDD"]]
    [mkBand Int16 (Ok (0, 9)%R) (fun _ _ _ => Ok [])] None Nitf None None NoAdjustment "NITF" = Ok (fac, st)
  /\ updater st = Some "sicd:a SICD" /\ String.length (f_header fac) = 173%nat
  /\ exists s, defaults_are fac st s Int16 ["IC=C8"].
Proof.
  do 2 eexists. split; [reflexivity|]. split; [vm_compute; reflexivity|]. split; [vm_compute; reflexivity|]. eexists. unfold defaults_are. exists 0%nat. split; [reflexivity|]. split; [reflexivity|]. cbn. lia.
Qed.

(** ** C54: temporary files *)
Section Cleanup.
Variable U : Type.
Variable update : U -> request -> U * res unit.
Variable encode : U -> string.
Variable show_R : R -> string.
Notation tile g others := (create_encoded_tile update encode show_R g others).

(** The calls a request makes, in order: nothing but its own file is named, and once Translate has
    returned the file is closed if it was opened and then deleted, whatever happened in between
    (provided closing does not itself raise). *)
Definition own_name (n : string) (c : Call) : Prop :=
  match c with Translate a => a_name a = n | Open m | Stat m | Read m _ | Close m | Delete m => m = n end.
Theorem C54_own_name : forall g others fac st fs q token st' fs' calls r,
  tile g others fac st fs q token = (st', fs', calls, r) -> Forall (own_name (temp_name fac token)) calls.
Proof.
  intros g others fac st fs q token st' fs' calls r E. unfold create_encoded_tile in E.
  destruct (prepare _ _ _ _ _ _ _) as [st1 [a|e]] eqn:P; [|injection E as <- <- <- <-; constructor].
  assert (N : a_name a = temp_name fac token).
  { unfold prepare in P. destruct (deepcopy _ _) as [h1 d]. destruct (add_location _ _ _ _ _) as [h3 [[]|e]]; [|discriminate].
    destruct (add_sar _ _ _ _ _ _ _) as [[h4 u] [[]|e]]; [|discriminate]. injection P as <- <-. reflexivity. }
  rewrite N in E. clear P. set (n := temp_name fac token) in *. clearbody n.
  destruct (g_translate g _ a) as [fs1 [[]|e]]; [|injection E as <- <- <- <-; repeat constructor; exact N].
  unfold read_tile, clean_up in E.
  destruct (g_open g _ n) as [[]|].
  - destruct (g_stat g _ n); [destruct (g_read g _ n _)|]; cbv iota in E; (destruct (g_close g _ n); [destruct (g_delete g _ n)|]);
      injection E as <- <- <- <-; repeat (constructor; [first [exact N | reflexivity]|]); constructor.
  - cbv iota in E. destruct (g_delete g _ n); injection E as <- <- <- <-; repeat (constructor; [first [exact N | reflexivity]|]); constructor.
  - cbv iota in E. destruct (g_delete g _ n); injection E as <- <- <- <-; repeat (constructor; [first [exact N | reflexivity]|]); constructor.
Qed.

Theorem C54_always_deleted : forall g others fac st fs q token st' fs' calls r,
  (forall fs n, g_close g fs n = Ok tt) ->
  tile g others fac st fs q token = (st', fs', calls, r) ->
  forall a, In (Translate a) calls -> snd (g_translate g (others (Translate a) fs) a) = Ok tt ->
  exists before, calls = (before ++ [Delete (a_name a)])%list
    /\ (forall n, ~ In (Delete n) before)
    /\ (before = [Translate a; Open (a_name a)] \/ exists b, before = ((Translate a :: Open (a_name a) :: Stat (a_name a) :: b) ++ [Close (a_name a)])%list).
Proof.
  intros g others fac st fs q token st' fs' calls r C E a I T. unfold create_encoded_tile in E.
  destruct (prepare _ _ _ _ _ _ _) as [st1 [a'|e]]; [|injection E as <- <- <- <-; destruct I].
  assert (a = a') as <-.
  { destruct (g_translate g _ a') as [fs1 [[]|e]]; [|injection E as <- <- <- <-; destruct I as [I | []]; now injection I].
    pose proof (read_calls g others fs1 (a_name a')) as Q. destruct (read_tile _ _ _ _) as [[[c f] o] x]. unfold clean_up in E.
    destruct (if o then _ else _); [destruct (g_delete g _ _) as [z y]|]; injection E as <- <- <- <-; (destruct I as [I|I]; [now injection I|]);
      apply in_app_or in I as [I|I]; (try (exfalso; exact (proj1 (Q a) I))); destruct o; cbn in I; intuition discriminate. }
  destruct (g_translate g _ a) as [fs1 [[]|e]] eqn:G; [|discriminate]. clear T G I. generalize dependent (a_name a). intros n E.
  unfold read_tile, clean_up in E.
  destruct (g_open g (others (Open n) fs1) n) as [[]|] eqn:O; cbv iota in E.
  - destruct (g_stat g _ n) as [z|]; [destruct (g_read g _ n z)|]; cbv iota in E; rewrite C in E; destruct (g_delete g _ n); injection E as <- <- <- <-.
    + exists [Translate a; Open n; Stat n; Read n z; Close n]. split; [reflexivity|]. split; [cbn; intuition discriminate|]. right. exists [Read n z]. reflexivity.
    + exists [Translate a; Open n; Stat n; Read n z; Close n]. split; [reflexivity|]. split; [cbn; intuition discriminate|]. right. exists [Read n z]. reflexivity.
    + exists [Translate a; Open n; Stat n; Close n]. split; [reflexivity|]. split; [cbn; intuition discriminate|]. right. exists []. reflexivity.
  - destruct (g_delete g _ n); injection E as <- <- <- <-. exists [Translate a; Open n]. split; [reflexivity|]. cbn. split; [intuition discriminate | left; reflexivity].
  - destruct (g_delete g _ n); injection E as <- <- <- <-. exists [Translate a; Open n]. split; [reflexivity|]. cbn. split; [intuition discriminate | left; reflexivity].
Qed.

(** Other files are as they were, however the request ends; the temporary file is gone whenever the
    request returns. *)
Theorem C54_files : forall g fac st fs q token st' fs' calls r,
  translate_local g -> delete_removes g ->
  tile g nobody fac st fs q token = (st', fs', calls, r) ->
  (forall m, m <> temp_name fac token -> fs' m = fs m)
  /\ (is_ok r -> fs' (temp_name fac token) = None).
Proof.
  intros g fac st fs q token st' fs' calls r TL DR E. pose proof (C54_own_name _ _ _ _ _ _ _ _ _ _ _ E) as O. unfold create_encoded_tile in E.
  destruct (prepare _ _ _ _ _ _ _) as [st1 [a|e]]; [|injection E as <- <- <- <-; split; [reflexivity | intros [x X]; discriminate]].
  assert (N : a_name a = temp_name fac token).
  { assert (H : In (Translate a) calls).
    { destruct (g_translate g _ a) as [fs1 [[]|e]]; [|injection E as <- <- <- <-; left; reflexivity].
      destruct (read_tile _ _ _ _) as [[[c f] o] x]. destruct (clean_up _ _ _ _ _) as [[c' f'] y]. injection E as <- <- <- <-. left; reflexivity. }
    rewrite Forall_forall in O. exact (O _ H). }
  rewrite <- N. clear O N. unfold nobody at 1 in E.
  pose proof (TL fs a) as T. destruct (g_translate g fs a) as [fs1 [[]|e]]; cbn [fst] in T.
  2: { injection E as <- <- <- <-. split; [exact T | intros [x X]; discriminate]. }
  assert (R : let '(c, f, o, x) := read_tile g nobody fs1 (a_name a) in f = fs1).
  { unfold read_tile, nobody. destruct (g_open g _ _) as [[]|]; [|reflexivity|reflexivity]. destruct (g_stat g _ _); [|reflexivity]. destruct (g_read g _ _ _); reflexivity. }
  destruct (read_tile g nobody fs1 (a_name a)) as [[[c f] o] x]. subst f. unfold clean_up, nobody in E.
  replace (if o then fs1 else fs1) with fs1 in E by (destruct o; reflexivity).
  destruct (if o then g_close g fs1 (a_name a) else Ok tt) as [u|e]; [|injection E as <- <- <- <-; split; [exact T | intros [y Y]; discriminate]].
  pose proof (DR fs1 (a_name a)) as [D1 D2]. destruct (g_delete g fs1 (a_name a)) as [fs2 d]. cbn [fst snd] in D1, D2. injection E as <- <- <- <-.
  split; [intros m M; rewrite D1 by exact M; apply T, M|]. intros [y Y]. destruct d as [v|e]; [exact (D2 v eq_refl) | discriminate].
Qed.

(** The answer is the whole of the file that Translate wrote, None if there is no such file, and the
    error of the first call that raises. *)
Theorem C54_answer : forall g fac st fs q token st' fs' calls r,
  tile g nobody fac st fs q token = (st', fs', calls, r) ->
  match snd (prepare update encode show_R fac st q token) with
  | Err e => r = Err e
  | Ok a =>
      let n := a_name a in
      let written := fst (g_translate g fs a) in
      (forall e, snd (g_translate g fs a) = Err e -> r = Err e)
      /\ (snd (g_translate g fs a) = Ok tt -> g_close g written n = Ok tt -> snd (g_delete g written n) = Ok tt ->
          (g_open g written n = Ok false -> r = Ok None)
          /\ (forall e, g_open g written n = Err e -> r = Err e)
          /\ (g_open g written n = Ok true ->
              (forall e, g_stat g written n = Err e -> r = Err e)
              /\ (forall size, g_stat g written n = Ok size ->
                    (forall e, g_read g written n size = Err e -> r = Err e)
                    /\ (forall bytes, g_read g written n size = Ok bytes -> r = Ok (Some bytes)))))
  end.
Proof.
  intros g fac st fs q token st' fs' calls r E. unfold create_encoded_tile in E.
  destruct (prepare _ _ _ _ _ _ _) as [st1 [a|e]]; cbn [snd]; [|injection E as <- <- <- <-; reflexivity].
  cbv zeta. unfold nobody at 1 in E. destruct (g_translate g fs a) as [fs1 [[]|e]]; cbn [fst snd].
  2: { injection E as <- <- <- <-. split; [intros x X; congruence | discriminate]. }
  split; [discriminate|]. intros _ C D. unfold read_tile, clean_up, nobody in E. cbv zeta in E.
  destruct (g_delete g fs1 (a_name a)) as [fs2 d] eqn:G. cbn [snd] in D. subst d.
  destruct (g_open g fs1 (a_name a)) as [[]|x] eqn:O.
  - split; [discriminate|]. split; [discriminate|]. intros _.
    destruct (g_stat g fs1 (a_name a)) as [z|x] eqn:S.
    + split; [discriminate|]. intros size Q. injection Q as <-.
      destruct (g_read g fs1 (a_name a) z) as [b|x]; rewrite C, G in E; injection E as <- <- <- <-; split; congruence.
    + rewrite C, G in E. injection E as <- <- <- <-. split; congruence.
  - rewrite G in E. injection E as <- <- <- <-. repeat split; congruence.
  - rewrite G in E. injection E as <- <- <- <-. repeat split; congruence.
Qed.

(** Requests that run at the same time do not affect each other as long as their file names differ:
    the calls, the answer and the fate of the file are those of a request running alone. *)
Theorem C54_interference : forall g others fac st fs q token,
  depends_on_file g -> leaves_alone others (temp_name fac token) ->
  let alone := tile g nobody fac st fs q token in
  let crowded := tile g others fac st fs q token in
  fst (fst (fst crowded)) = fst (fst (fst alone)) /\ snd (fst crowded) = snd (fst alone) /\ snd crowded = snd alone
  /\ same_file (snd (fst (fst crowded))) (snd (fst (fst alone))) (temp_name fac token).
Proof.
  intros g others fac st fs q token G L. cbv zeta. unfold create_encoded_tile. pose proof (C54_own_name g nobody fac st fs q token) as O. unfold create_encoded_tile in O.
  destruct (prepare _ _ _ _ _ _ _) as [st1 [a|e]]; [|repeat split; reflexivity].
  assert (N : a_name a = temp_name fac token).
  { destruct (g_translate g _ a) as [fs1 [[]|e]]; [|specialize (O _ _ _ _ eq_refl); inversion O; assumption].
    destruct (read_tile _ _ _ _) as [[[c f] o] x]. destruct (clean_up _ _ _ _ _) as [[c' f'] y]. specialize (O _ _ _ _ eq_refl). inversion O; assumption. }
  clear O. rewrite <- N in L |- *. clear N. set (n := a_name a) in *.
  assert (Q : forall c f f', same_file f f' n -> same_file (others c f) (nobody c f') n).
  { intros c f f' S. unfold same_file, nobody. rewrite (L c f). exact S. }
  assert (S0 : same_file (others (Translate a) fs) (nobody (Translate a) fs) n) by (apply Q; reflexivity).
  pose proof (dep_translate g G a _ _ S0) as [T1 T2].
  destruct (g_translate g (others (Translate a) fs) a) as [f1 r1]. destruct (g_translate g (nobody (Translate a) fs) a) as [f2 r2]. cbn [fst snd] in T1, T2. subst r2.
  fold n in T2. destruct r1 as [[]|e]; [|repeat split; [exact T2]].
  assert (R : let '(c1, g1, o1, x1) := read_tile g others f1 n in let '(c2, g2, o2, x2) := read_tile g nobody f2 n in
    c1 = c2 /\ same_file g1 g2 n /\ o1 = o2 /\ x1 = x2).
  { unfold read_tile. cbv zeta. pose proof (Q (Open n) _ _ T2) as S1. rewrite (dep_open g G n _ _ S1).
    destruct (g_open g (nobody (Open n) f2) n) as [[]|]; [|repeat split; exact S1|repeat split; exact S1].
    pose proof (Q (Stat n) _ _ S1) as S2. rewrite (dep_stat g G n _ _ S2). destruct (g_stat g (nobody (Stat n) (nobody (Open n) f2)) n) as [z|]; [|repeat split; exact S2].
    pose proof (Q (Read n z) _ _ S2) as S3. rewrite (dep_read g G n z _ _ S3). destruct (g_read g _ n z); repeat split; exact S3. }
  destruct (read_tile g others f1 n) as [[[c1 g1] o1] x1]. destruct (read_tile g nobody f2 n) as [[[c2 g2] o2] x2]. destruct R as (-> & S & -> & ->).
  unfold clean_up.
  assert (S4 : same_file (if o2 then others (Close n) g1 else g1) (if o2 then nobody (Close n) g2 else g2) n) by (destruct o2; [apply Q|]; exact S).
  set (k1 := if o2 then others (Close n) g1 else g1) in *. set (k2 := if o2 then nobody (Close n) g2 else g2) in *. clearbody k1 k2.
  rewrite (dep_close g G n _ _ S4). destruct (if o2 then g_close g k2 n else Ok tt); [|repeat split; exact S4].
  pose proof (dep_delete g G n _ _ (Q (Delete n) _ _ S4)) as [D1 D2].
  destruct (g_delete g (others (Delete n) k1) n) as [m1 d1]. destruct (g_delete g (nobody (Delete n) k2) n) as [m2 d2]. cbn [fst snd] in D1, D2. subst d2.
  repeat split. exact D2.
Qed.
End Cleanup.

(** Different tokens give different names, also across factories of different formats, as tokens
    are hexadecimal. *)
Lemma split_at_dot a b x y : ~ has_char "." a -> ~ has_char "." b -> a ++ "." ++ x = b ++ "." ++ y -> a = b.
Proof.
  revert b. induction a as [|c a IH]; intros [|d b] A B E.
  - reflexivity.
  - exfalso. cbn in E. injection E as <- _. apply B. left; reflexivity.
  - exfalso. cbn in E. injection E as -> _. apply A. left; reflexivity.
  - cbn in E. injection E as -> E. f_equal. apply IH; [intros H; apply A; right; exact H | intros H; apply B; right; exact H | exact E].
Qed.
Theorem C54_names : forall f1 f2 t1 t2, ~ has_char "." t1 -> ~ has_char "." t2 -> temp_name f1 t1 = temp_name f2 t2 -> t1 = t2.
Proof. intros f1 f2 t1 t2 A B E. unfold temp_name in E. apply append_inj_r in E. exact (split_at_dot _ _ _ _ A B E). Qed.

(** A /vsimem that behaves: Translate writes the options, reading gives them back. *)
Definition put (n : string) (v : option string) (fs : Files) : Files := fun m => if String.eqb m n then v else fs m.
Definition vsimem : Gdal := mkGdal
  (fun fs a => (put (a_name a) (Some (String.concat "," (a_options a))) fs, Ok tt))
  (fun fs n => Ok (match fs n with Some _ => true | None => false end))
  (fun fs n => match fs n with Some s => Ok (Z.of_nat (String.length s)) | None => Err AttributeError end)
  (fun fs n z => match fs n with Some s => Ok (substring 0 (Z.to_nat z) s) | None => Err OtherError end)
  (fun _ _ => Ok tt)
  (fun fs n => match fs n with Some _ => (put n None fs, Ok tt) | None => (fs, Err RuntimeError) end).
(** The same, except that Translate writes part of the file and raises. *)
Definition failing : Gdal := mkGdal (fun fs a => (put (a_name a) (Some "partial") fs, Err RuntimeError))
  (g_open vsimem) (g_stat vsimem) (g_read vsimem) (g_close vsimem) (g_delete vsimem).
(** The same, except that Translate writes nothing. *)
Definition silent : Gdal := mkGdal (fun fs a => (fs, Ok tt))
  (g_open vsimem) (g_stat vsimem) (g_read vsimem) (g_close vsimem) (g_delete vsimem).
Lemma vsimem_laws : forall g, In g [vsimem; failing; silent] -> translate_local g /\ delete_removes g /\ depends_on_file g.
Proof.
  assert (P : forall n v fs m, m <> n -> put n v fs m = fs m). { intros n v fs m H. unfold put. destruct (String.eqb_spec m n); [contradiction | reflexivity]. }
  assert (P' : forall n v fs, put n v fs n = v). { intros n v fs. unfold put. rewrite String.eqb_refl. reflexivity. }
  assert (D : forall g, g_delete g = g_delete vsimem -> delete_removes g).
  { intros g E fs n. rewrite E. cbn. split; [intros m M | intros u]; destruct (fs n) eqn:F; cbn; intros; try discriminate; try reflexivity; [apply P, M | apply P']. }
  intros g [<- | [<- | [<- | []]]]; (split; [intros fs a n H; cbn; first [apply P, H | reflexivity]|]); (split; [apply D; reflexivity|]); constructor; unfold same_file; cbn; intros;
    repeat match goal with H : ?a ?n = ?b ?n |- _ => rewrite H end; try reflexivity; try (split; [reflexivity|]; rewrite ?P'; first [reflexivity | assumption]);
    match goal with |- context [match ?x with _ => _ end] => destruct x eqn:X end; cbn; split; try reflexivity; rewrite ?P'; congruence.
Qed.

Definition demo_fac : Factory := mkFactory Png None "" 0 "PNG".
Definition demo_state : State unit := mkState (mkHeap [mkKwargs [] Byte Png None 0] [["A"; "B"]]) None.
Definition demo_tile (g : Gdal) := create_encoded_tile (fun u _ => (u, Ok tt)) (fun _ => "") (fun _ => "") g nobody demo_fac demo_state (fun _ => None) (mkBounds 0 0 1 1, None) "aa".
Example C54_non_vacuous : snd (demo_tile vsimem) = Ok (Some "A,B") /\ List.length (snd (fst (demo_tile vsimem))) = 6%nat /\ snd (fst (fst (demo_tile vsimem))) "/vsimem/aa.PNG" = None.
Proof. repeat split; vm_compute; reflexivity. Qed.

(** Another request writes and deletes its own file between the calls of this one. *)
Definition meddler : Call -> Files -> Files := fun c fs => put "/vsimem/bb.PNG" (match c with Open _ | Read _ _ => Some "other" | _ => None end) fs.
Example C54_interference_non_vacuous :
  leaves_alone meddler (temp_name demo_fac "aa") /\
  snd (create_encoded_tile (fun u _ => (u, Ok tt)) (fun _ => "") (fun _ => "") vsimem meddler demo_fac demo_state (fun _ => None) (mkBounds 0 0 1 1, None) "aa") = Ok (Some "A,B").
Proof.
  split; [|reflexivity]. intros c fs. reflexivity.
Qed.

(** Translate is outside the try: when it raises after creating the file, nothing deletes it. *)
Theorem C54_translate_failure_refuted :
  ~ (forall U update encode show_R g fac (st : State U) fs q token, translate_local g -> delete_removes g -> fs (temp_name fac token) = None ->
       snd (fst (fst (create_encoded_tile update encode show_R g nobody fac st fs q token))) (temp_name fac token) = None).
Proof.
  intros H. destruct (vsimem_laws failing) as (A & B & _); [right; left; reflexivity|].
  specialize (H _ (fun u _ => (u, Ok tt)) (fun _ => "") (fun _ => "") failing demo_fac demo_state (fun _ => None) (mkBounds 0 0 1 1, None) "aa" A B eq_refl). vm_compute in H. discriminate.
Qed.
(** No file: the answer should be None, but deleting the missing file raises. *)
Theorem C54_none_refuted :
  ~ (forall U update encode show_R g fac (st : State U) fs q token st' fs' calls r, translate_local g -> delete_removes g -> depends_on_file g ->
       create_encoded_tile update encode show_R g nobody fac st fs q token = (st', fs', calls, r) ->
       (forall fs, g_open g fs (temp_name fac token) = Ok false) -> calls <> [] -> r = Ok None) .
Proof.
  intros H. set (gg := mkGdal (fun fs a => (fs, Ok tt)) (fun _ _ => Ok false) (g_stat vsimem) (g_read vsimem) (g_close vsimem) (g_delete vsimem)).
  destruct (vsimem_laws silent) as (A & B & C); [right; right; left; reflexivity|].
  assert (C' : depends_on_file gg) by (destruct C; constructor; cbn in *; auto).
  specialize (H unit (fun u _ => (u, Ok tt)) (fun _ => "") (fun _ => "") gg demo_fac demo_state (fun _ => None) (mkBounds 0 0 1 1, None) "aa" _ _ _ _ A B C' eq_refl (fun _ => eq_refl)).
  vm_compute in H. assert (X : Err RuntimeError = @Ok (option string) None) by (apply H; discriminate). discriminate.
Qed.

Print Assumptions C53_table.
Print Assumptions C53_float_j2k_refuted.
Print Assumptions C53_new_factory.
Print Assumptions C53_requests.
Print Assumptions C53_repeatable.
Print Assumptions C53_igeolo.
Print Assumptions C75_sicd_tiles.
Print Assumptions C74_first_sar_segment.
Print Assumptions C74_factory.
Print Assumptions C74_sidd_preferred_refuted.
Print Assumptions C54_own_name.
Print Assumptions C54_always_deleted.
Print Assumptions C54_files.
Print Assumptions C54_answer.
Print Assumptions C54_interference.
Print Assumptions C54_names.
Print Assumptions C54_translate_failure_refuted.
Print Assumptions C54_none_refuted.
