(** Lemmas about the SIDD documents that an updater holds. *)
Require Import ZArith Reals String Ascii List Bool Lia.
Require Import Verif.Base Verif.TreModel Verif.BuilderModel Verif.EncodeModel Verif.EncodeSpec Verif.EncodeProofs Verif.EncodeProps Verif.EncodeSensorProps
  Verif.SicdModel Verif.SarMetaModel Verif.SarMetaProps Verif.SchemaModel Verif.SchemaSpec Verif.SchemaProofs Verif.SchemaProps
  Verif.SarDocModel Verif.SarDocProofs Verif.SarDocProps Verif.TileDocModel Verif.TileDocProofs Verif.TileSiddSpec.
Import ListNotations.
Local Open Scope string_scope.

(** *** The requests that an updater has seen *)
Section Seen.
Variable U : Type.
Variable update : U -> request -> U * res unit.
Variable encode : U -> string.
Variable show_R : R -> string.

Lemma add_location_known fac h d w : snd (add_location show_R fac h d w) = Ok tt <-> exists o, location_options show_R fac w o.
Proof.
  unfold add_location, location_options. destruct (f_sensor fac) as [itw|]; [|split; [eauto|reflexivity]].
  destruct (f_format fac); cbn [is_nitf]; try (split; [eauto|reflexivity]).
  unfold checked_igeolo. cbv zeta. cbn [DisplayModel.map_res fst snd]. split.
  - destruct (itw (bx w) (by_ w)) as [a|] eqn:A; cbn [bind]; [|intros Q; discriminate Q]. destruct (itw (bx w + bw w)%Z (by_ w)) as [b|] eqn:B; cbn [bind]; [|intros Q; discriminate Q].
    destruct (itw (bx w + bw w)%Z (by_ w + bh w)%Z) as [c|] eqn:C; cbn [bind]; [|intros Q; discriminate Q]. destruct (itw (bx w) (by_ w + bh w)%Z) as [e|] eqn:E; cbn [bind]; [|intros Q; discriminate Q].
    intros _. eexists. exists a, b, c, e. repeat split; assumption.
  - intros (o & a & b & c & e & -> & -> & -> & -> & _). reflexivity.
Qed.
Lemma serve_tried fac u l : f_format fac = Nitf -> forall st, updater st = Some u ->
  exists qs, tried show_R fac l qs /\ updater (serve update encode show_R fac st l) = Some (fold_left (fun u q => fst (update u q)) qs u).
Proof.
  intros Fn. revert u. induction l as [|[[[[g others] fs] q] token] r IH]; intros u st Eu; cbn [serve].
  - exists []. split; [constructor|exact Eu].
  - destruct (create_encoded_tile update encode show_R g others fac st fs q token) as [[[st1 fs1] c] x] eqn:E. apply tile_state in E. subst st1.
    assert (P : let st' := fst (prepare update encode show_R fac st q token) in
      ((forall o, ~ location_options show_R fac (fst q) o) /\ updater st' = Some u) \/ ((exists o, location_options show_R fac (fst q) o) /\ updater st' = Some (fst (update u q)))).
    { unfold prepare. destruct (deepcopy _ _) as [h1 d].
      match goal with |- context [add_location show_R fac ?h d (fst q)] => pose proof (add_location_known fac h d (fst q)) as K; destruct (add_location show_R fac h d (fst q)) as [h3 [[]|e]] end; cbn [snd] in K.
      - right. split; [apply K; reflexivity|]. unfold add_sar. rewrite Eu, Fn. cbn [is_nitf]. destruct (update u q) as [u1 [[]|e]]; reflexivity.
      - left. split; [|exact Eu]. intros o Ho. destruct K as [_ K]. specialize (K (ex_intro _ o Ho)). discriminate. }
    cbv zeta in P. destruct P as [[N P]|[[o Ho] P]].
    + destruct (IH _ _ P) as (qs & T & V). exists qs. split; [constructor; assumption|exact V].
    + destruct (IH _ _ P) as (qs & T & V). exists (q :: qs). split; [apply (tried_next _ _ _ _ _ _ _ _ _ o); assumption|exact V].
Qed.
Lemma tile_text_tried fac (st0 : State U) scales t options u0 : defaults_are fac st0 scales t options -> updater st0 = Some u0 -> f_format fac = Nitf ->
  forall history g others fs q token st' fs' calls r a,
  create_encoded_tile update encode show_R g others fac (serve update encode show_R fac st0 history) fs q token = (st', fs', calls, r) -> In (Translate a) calls ->
  exists qs v, tried show_R fac history qs /\ update (fold_left (fun u q => fst (update u q)) qs u0) q = (v, Ok tt) /\ In ("DES=XML_DATA_CONTENT=" ++ f_header fac ++ encode v) (a_options a).
Proof.
  intros De Eu Fn history g others fs q token st' fs' calls r a E I.
  destruct (C53_requests _ _ _ _ _ _ _ _ _ De history _ _ _ _ _ _ _ _ _ _ E I) as (o1 & o2 & Lo & So & ->).
  destruct (serve_tried fac u0 history Fn st0 Eu) as (qs & T & V).
  unfold sar_options in So. rewrite V, Fn in So. destruct So as (v & Uv & _ & ->). exists qs, v. split; [exact T|]. split; [exact Uv|]. cbn [a_options].
  apply in_or_app; right. apply in_or_app; right. cbn. tauto.
Qed.
End Seen.

(** *** Putting chips into a document *)
Section Chips.
Context {F D T : Type}.
Variable L : Lexical F D T.
Variable num : F -> R.
Notation any := (shaped L formats (fun _ _ => True)).

(** The values of a corner in memory. *)
Definition holds (v : Value F D T) (r : R) : Prop := match v with VInt z => r = IZR z | VFloat f => r = num f | _ => False end.
Definition hold (v : Value F D T * Value F D T) (r : R * R) : Prop := holds (fst v) (fst r) /\ holds (snd v) (snd r).
Definition chip_args (ic dc : string) (size : Z * Z) (ul ur lr ll : Value F D T * Value F D T) : list (string * list (Obj F D T)) :=
  let point p := [row_col formats dc (snd p) (fst p)] in
  [("chip_size", [row_col formats ic (VInt (snd size)) (VInt (fst size))]); ("original_upper_left_coordinate", point ul); ("original_upper_right_coordinate", point ur);
   ("original_lower_left_coordinate", point ll); ("original_lower_right_coordinate", point lr)].

Lemma put_facts v (o : Obj F D T) size ul ur lr ll : In v ["sidd100"; "sidd200"; "sidd300"] -> any (TClass (v ++ ".SIDD")) o ->
  let '(ds, ch, ic, dc) := chip_classes (v ++ ".SIDD") in
  exists s d1 o1, get_slot formats o "downstream_reprocessing" = Ok s /\
    let d0 := match s with [d0] => d0 | _ => construct formats ds [] end in
    any (TClass ds) d0 /\
    any (TClass ds) d1 /\ get_slot formats d1 "geometric_chip" = Ok [construct formats ch (chip_args ic dc size ul ur lr ll)] /\ (forall b, b <> "geometric_chip" -> get_slot formats d1 b = get_slot formats d0 b) /\
    sidd_put_chip formats o size ul ur lr ll = Ok o1 /\ any (TClass (v ++ ".SIDD")) o1 /\
    get_slot formats o1 "downstream_reprocessing" = Ok [d1] /\ (forall b, b <> "downstream_reprocessing" -> get_slot formats o1 b = get_slot formats o b).
Proof.
  intros Iv A. pose proof (chip_fields v Iv) as CF.
  destruct o as [w|root slots]; [destruct A as [[] _]|]. pose proof A as [Er _]. injection Er as Er. subst root. set (o := Inst (v ++ ".SIDD") slots) in *.
  unfold sidd_put_chip. change (match o with Leaf _ => _ | Inst c0 _ => ?g c0 end) with (g (v ++ ".SIDD")) || cbn [o].
  destruct (chip_classes (v ++ ".SIDD")) as [[[ds ch] ic] dc].
  destruct CF as ((f1 & E1 & P1 & T1) & (f2 & E2 & P2 & T2) & (f3 & E3 & T3) & Fc & Frc & Pd & Pc & Pi & Pdc). fold o.
  destruct (get_field L formats _ _ o _ f1 A E1) as (s & Gs & Ss & As). rewrite Gs. cbn [bind].
  set (d0 := match s with [d0] => d0 | _ => construct formats ds [] end).
  assert (Ad : any (TClass ds) d0).
  { assert (N : any (TClass ds) (construct formats ds [] : Obj F D T)).
    { apply construct_ok; [exact Pd|intros ? ? ? []|apply class_names, Pd]. }
    unfold d0. destruct s as [|s0 [|s1 r]]; [exact N| |exact N]. inversion_clear As as [|? ? A0 _]. rewrite T1 in A0. exact A0. }
  assert (Fi : forall a, In a ["row"; "col"] -> exists f, field_of formats ic a = Some f /\ ty f = TPrim PInt) by (intros a Ia; apply Frc, Ia).
  assert (Fd : forall a, In a ["row"; "col"] -> exists f, field_of formats dc a = Some f /\ ty f = TPrim PFloat) by (intros a Ia; apply Frc, Ia).
  pose proof (row_col_any L ic (TPrim PInt) I Pi Fi) as Ai. pose proof (row_col_any L dc (TPrim PFloat) I Pdc Fd) as Adc.
  assert (Ac : any (TClass ch) (construct formats ch (chip_args ic dc size ul ur lr ll))).
  { apply construct_ok; [exact Pc| |apply class_names, Pc]. intros a s0 f Ia Ef. unfold chip_args in Ia. cbn [In] in Ia.
    decompose [or] Ia; clear Ia; try contradiction; (match goal with Z : (_, _) = (a, s0) |- _ => injection Z as <- <- end); (split; [cbn; lia|]).
    1: { rewrite E3 in Ef. injection Ef as <-. rewrite T3. constructor; [apply Ai|constructor]. }
    all: match type of Ef with field_of _ _ ?b = _ => destruct (Fc b ltac:(cbn; tauto)) as (g & Eg & Tg) end; rewrite Ef in Eg; injection Eg as <-; rewrite Tg;
      (constructor; [apply Adc|constructor]). }
  destruct (set_field L formats _ ds d0 "geometric_chip" f2 [construct formats ch (chip_args ic dc size ul ur lr ll)] Ad E2) as (d1 & S1 & A1 & G1 & O1).
  { apply plain_slot; [exact P2|cbn; lia]. }
  { rewrite T2. constructor; [exact Ac|constructor]. }
  change (set_slot formats d0 "geometric_chip" _) with (set_slot formats d0 "geometric_chip" [construct formats ch (chip_args ic dc size ul ur lr ll)]). rewrite S1. cbn [bind].
  destruct (set_field L formats _ _ o "downstream_reprocessing" f1 [d1] A E1) as (o1 & So & A2 & G2 & O2).
  { apply plain_slot; [exact P1|cbn; lia]. }
  { rewrite T1. constructor; [exact A1|constructor]. }
  exists s, d1, o1. repeat (split; [assumption || reflexivity|]). exact O2.
Qed.
(** The chip that was put is the chip that the updater finds. *)
Lemma put_found v (o : Obj F D T) c ul ur lr ll o1 : In v ["sidd100"; "sidd200"; "sidd300"] -> any (TClass (v ++ ".SIDD")) o ->
  hold ul (upper_left c) -> hold ur (upper_right c) -> hold lr (lower_right c) -> hold ll (lower_left c) ->
  sidd_put_chip formats o (chip_cols c, chip_rows c) ul ur lr ll = Ok o1 -> chip_of num formats o1 = Ok (Some c).
Proof.
  intros Iv A Hul Hur Hlr Hll P. pose proof (put_facts v o (chip_cols c, chip_rows c) ul ur lr ll Iv A) as PF. pose proof (chip_fields v Iv) as CF.
  destruct (chip_classes (v ++ ".SIDD")) as [[[ds ch] ic] dc]. destruct PF as (s & d1 & o1' & _ & _ & _ & G1 & _ & P' & _ & G2 & _). rewrite P in P'. injection P' as <-.
  destruct CF as (_ & _ & (f3 & E3 & T3) & Fc & Frc & _).
  unfold chip_of. rewrite G2. cbn [bind]. rewrite G1. cbn [bind].
  assert (RC : forall k row col, (forall a, In a ["row"; "col"] -> exists f, field_of formats k a = Some f) ->
    get formats (row_col formats k row col : Obj F D T) "row" = Ok (Leaf row) /\ get formats (row_col formats k row col : Obj F D T) "col" = Ok (Leaf col)).
  { intros k row col Hk. destruct (Hk "row" ltac:(cbn; tauto)) as [f Ef]. destruct (Hk "col" ltac:(cbn; tauto)) as [g Eg].
    split; apply get_of_slot; unfold row_col; [rewrite (construct_get formats k _ _ f Ef)|rewrite (construct_get formats k _ _ g Eg)]; reflexivity. }
  assert (Ki : forall a, In a ["row"; "col"] -> exists f, field_of formats ic a = Some f) by (intros a Ia; destruct (proj1 (Frc a Ia)) as (f & Ef & _); eauto).
  assert (Kd : forall a, In a ["row"; "col"] -> exists f, field_of formats dc a = Some f) by (intros a Ia; destruct (proj2 (Frc a Ia)) as (f & Ef & _); eauto).
  set (g := construct formats ch (chip_args ic dc (chip_cols c, chip_rows c) ul ur lr ll)).
  assert (Gs : get formats g "chip_size" = Ok (row_col formats ic (VInt (chip_rows c)) (VInt (chip_cols c)))).
  { apply get_of_slot. unfold g. rewrite (construct_get formats ch _ _ f3 E3). reflexivity. }
  rewrite Gs. cbn [bind]. unfold get_integer. rewrite (proj1 (RC ic _ _ Ki)), (proj2 (RC ic _ _ Ki)). cbn [bind integer].
  assert (Corner : forall a p r, In a ["original_upper_left_coordinate"; "original_upper_right_coordinate"; "original_lower_right_coordinate"; "original_lower_left_coordinate"] ->
    find (fun q => String.eqb (fst q) a) (chip_args ic dc (chip_cols c, chip_rows c) ul ur lr ll) = Some (a, [row_col formats dc (snd p) (fst p)]) -> hold p r ->
    bind (get formats g a) (corner num formats) = Ok r).
  { intros a [pc pr] [rc rr] Ia Fa [Hc Hr]. destruct (Fc a Ia) as (f & Ef & Tf).
    assert (G : get formats g a = Ok (row_col formats dc pr pc)) by (apply get_of_slot; unfold g; rewrite (construct_get formats ch _ _ f Ef), Fa; reflexivity).
    rewrite G. cbn [bind]. unfold corner, get_number. rewrite (proj1 (RC dc _ _ Kd)), (proj2 (RC dc _ _ Kd)). cbn [bind fst snd] in *.
    destruct pc; try contradiction; destruct pr; try contradiction; cbn in *; subst; reflexivity. }
  rewrite (Corner _ ul (upper_left c)); [|cbn; tauto|reflexivity|exact Hul]. cbn [bind].
  rewrite (Corner _ ur (upper_right c)); [|cbn; tauto|reflexivity|exact Hur]. cbn [bind].
  rewrite (Corner _ lr (lower_right c)); [|cbn; tauto|reflexivity|exact Hlr]. cbn [bind].
  rewrite (Corner _ ll (lower_left c)); [|cbn; tauto|reflexivity|exact Hll]. cbn [bind]. destruct c. reflexivity.
Qed.
(** A chip replaces the chip that was put before. *)
Lemma put_again v (o : Obj F D T) size ul ur lr ll o1 size' ul' ur' lr' ll' : In v ["sidd100"; "sidd200"; "sidd300"] -> any (TClass (v ++ ".SIDD")) o ->
  sidd_put_chip formats o size ul ur lr ll = Ok o1 -> any (TClass (v ++ ".SIDD")) o1 /\ sidd_put_chip formats o1 size' ul' ur' lr' ll' = sidd_put_chip formats o size' ul' ur' lr' ll'.
Proof.
  intros Iv A P. pose proof (put_facts v o size ul ur lr ll Iv A) as PF. pose proof (put_facts v o size' ul' ur' lr' ll' Iv A) as PG.
  assert (PH : any (TClass (v ++ ".SIDD")) o1 -> _) by (intros A1; exact (put_facts v o1 size' ul' ur' lr' ll' Iv A1)).
  destruct (chip_classes (v ++ ".SIDD")) as [[[ds ch] ic] dc].
  destruct PF as (s & d1 & o1' & Gs & A0 & A1 & G1 & O1 & P' & Ao & G2 & O2). rewrite P in P'. injection P' as <-. specialize (PH Ao). split; [exact Ao|].
  destruct PG as (s' & e1 & p1 & Gs' & _ & B1 & H1 & Q1 & P1 & Bo & H2 & Q2). rewrite Gs in Gs'. injection Gs' as <-.
  destruct PH as (s' & f1 & r1 & Gs' & _ & C1 & K1 & R1 & P2 & Co & K2 & R2). rewrite G2 in Gs'. injection Gs' as <-.
  rewrite P1, P2. f_equal.
  assert (f1 = e1).
  { apply (same_slots L _ _ f1 e1 C1 B1). intros a. destruct (string_dec a "geometric_chip") as [->|N]; [congruence|]. rewrite (R1 a N), (Q1 a N). apply (O1 a N). }
  subst f1. apply (same_slots L _ _ r1 p1 Co Bo). intros a. destruct (string_dec a "downstream_reprocessing") as [->|N]; [congruence|]. rewrite (R2 a N), (Q2 a N). apply (O2 a N).
Qed.
End Chips.

(** *** The document that an updater holds *)
Section Held.
Context {F D T : Type}.
Variable L : Lexical F D T.
Variable num : F -> R.
Variable float_of : R -> F.
Notation any := (shaped L formats (fun _ _ => True)).
Let rd (r : R) : R := num (float_of r).
Variable v : string.
Hypothesis Iv : In v ["sidd100"; "sidd200"; "sidd300"].
(** The document it was made of. *)
Variable o : Obj F D T.
Variable d : SiddMeta.
Hypothesis A : any (TClass (v ++ ".SIDD")) o.
Hypothesis M : sidd_meta num formats o = Ok d.

(** [on], which reads as [dn], is the document with perhaps another chip. *)
Definition keeps (on : Obj F D T) (dn : SiddMeta) : Prop :=
  any (TClass (v ++ ".SIDD")) on /\ sidd_meta num formats on = Ok dn /\
  (forall size ul ur lr ll, sidd_put_chip formats on size ul ur lr ll = sidd_put_chip formats o size ul ur lr ll) /\ (forall c, with_chip dn c = with_chip d c).
Lemma keeps_first : keeps o d.
Proof. repeat split; assumption || reflexivity. Qed.
Lemma keeps_chip on dn : keeps on dn -> chip_of num formats on = Ok (chip dn).
Proof.
  intros (_ & Mn & _). unfold sidd_meta in Mn. repeat match type of Mn with bind ?e _ = _ => destruct e; cbn [bind] in Mn; [|discriminate] end. injection Mn as <-. reflexivity.
Qed.
Lemma keeps_put on dn c ul ur lr ll : keeps on dn -> hold num ul (upper_left c) -> hold num ur (upper_right c) -> hold num lr (lower_right c) -> hold num ll (lower_left c) ->
  exists o1, sidd_put_chip formats on (chip_cols c, chip_rows c) ul ur lr ll = Ok o1 /\ sidd_put_chip formats o (chip_cols c, chip_rows c) ul ur lr ll = Ok o1 /\ keeps o1 (with_chip dn c).
Proof.
  intros (An & Mn & Pn & Wn) H1 H2 H3 H4.
  assert (E : exists o1, sidd_put_chip formats on (chip_cols c, chip_rows c) ul ur lr ll = Ok o1 /\ (forall b, b <> "downstream_reprocessing" -> get_slot formats o1 b = get_slot formats on b)).
  { pose proof (put_facts L v on (chip_cols c, chip_rows c) ul ur lr ll Iv An) as PF. destruct (chip_classes (v ++ ".SIDD")) as [[[ds ch] ic] dc].
    destruct PF as (s & d1 & o1 & _ & _ & _ & _ & _ & P & _ & _ & O). exists o1. split; assumption. }
  destruct E as (o1 & E & O1). exists o1. split; [exact E|]. split; [rewrite <- Pn; exact E|].
  destruct (put_again L v on _ _ _ _ _ o1 (0, 0)%Z ul ur lr ll Iv An E) as [A1 _]. split; [exact A1|]. split; [|split].
  - apply (sidd_changed formats num on); [exact O1| |exact Mn]. apply (put_found L num v on c ul ur lr ll o1 Iv An H1 H2 H3 H4 E).
  - intros size ul' ur' lr' ll'. rewrite <- Pn. apply (put_again L v on _ _ _ _ _ o1 size ul' ur' lr' ll' Iv An E).
  - intros c'. rewrite <- (Wn c'). reflexivity.
Qed.
(** One request, on the objects and on what is read of them. *)
Lemma keeps_step on dn q : keeps on dn ->
  match sidd_update_object formats num float_of on q, sidd_tile rd dn q with
  | Ok o1, Ok d1 => keeps o1 d1 /\ exists c ul ur lr ll, d1 = with_chip d c /\ sidd_put_chip formats o (chip_cols c, chip_rows c) ul ur lr ll = Ok o1 /\
      (chip_cols c, chip_rows c) = match snd q with None => (bw (fst q), bh (fst q)) | Some s => s end /\
      ((chip dn = None -> Forall (fun z => (Z.abs z <= 2 ^ 53)%Z) [bx (fst q); by_ (fst q); bx (fst q) + bw (fst q) - 1; by_ (fst q) + bh (fst q) - 1]%Z) ->
       stand_for num ul (upper_left c) /\ stand_for num ur (upper_right c) /\ stand_for num lr (lower_right c) /\ stand_for num ll (lower_left c))
  | Err e, Err e' => e = e'
  | _, _ => False
  end.
Proof.
  intros K. pose proof (keeps_chip on dn K) as Cn. destruct q as [b size]. unfold sidd_update_object, sidd_tile, sidd_update_doc. rewrite Cn. cbn [bind fst snd].
  set (sz := match size with None => (bw b, bh b) | Some s => s end).
  destruct (chip dn) as [c0|] eqn:E0.
  - destruct (chipped_coordinate_to_full (IZR (bx b), IZR (by_ b)) _ _ _ _ _ _) as [p1|]; cbn [bind]; [|reflexivity].
    destruct (chipped_coordinate_to_full (IZR (bx b + bw b - 1), IZR (by_ b)) _ _ _ _ _ _) as [p2|]; cbn [bind]; [|reflexivity].
    destruct (chipped_coordinate_to_full (IZR (bx b + bw b - 1), IZR (by_ b + bh b - 1)) _ _ _ _ _ _) as [p3|]; cbn [bind]; [|reflexivity].
    destruct (chipped_coordinate_to_full (IZR (bx b), IZR (by_ b + bh b - 1)) _ _ _ _ _ _) as [p4|]; cbn [bind]; [|reflexivity].
    cbn [with_chip chip]. set (c := rounded_chip rd (mkGeoChip (fst sz) (snd sz) p1 p2 p3 p4)).
    set (fl := fun p : R * R => (VFloat (float_of (fst p)), VFloat (float_of (snd p))) : Value F D T * Value F D T).
    destruct (keeps_put on dn c (fl p1) (fl p2) (fl p3) (fl p4) K) as (o1 & P1 & P2 & K1); try (split; reflexivity).
    assert (Es : (chip_cols c, chip_rows c) = sz) by (cbn; destruct sz; reflexivity). change (VFloat (float_of (fst p1)), VFloat (float_of (snd p1))) with (fl p1).
    change (VFloat (float_of (fst p2)), VFloat (float_of (snd p2))) with (fl p2). change (VFloat (float_of (fst p3)), VFloat (float_of (snd p3))) with (fl p3).
    change (VFloat (float_of (fst p4)), VFloat (float_of (snd p4))) with (fl p4). rewrite Es in P1. rewrite P1. split; [exact K1|].
    exists c, (fl p1), (fl p2), (fl p3), (fl p4). split; [destruct K as (_ & _ & _ & W); apply W|]. split; [exact P2|]. split; [exact Es|]. intros _. repeat split; reflexivity.
  - set (c := mkGeoChip (fst sz) (snd sz) (IZR (bx b), IZR (by_ b)) (IZR (bx b + bw b - 1), IZR (by_ b)) (IZR (bx b + bw b - 1), IZR (by_ b + bh b - 1)) (IZR (bx b), IZR (by_ b + bh b - 1))).
    destruct (keeps_put on dn c (VInt (bx b), VInt (by_ b)) (VInt (bx b + bw b - 1), VInt (by_ b)) (VInt (bx b + bw b - 1), VInt (by_ b + bh b - 1)) (VInt (bx b), VInt (by_ b + bh b - 1)) K)
      as (o1 & P1 & P2 & K1); try (split; reflexivity).
    assert (Es : (chip_cols c, chip_rows c) = sz) by (cbn; destruct sz; reflexivity). rewrite Es in P1. rewrite P1. cbn [bind]. split; [exact K1|].
    exists c. do 4 eexists. split; [destruct K as (_ & _ & _ & W); apply W|]. split; [exact P2|]. split; [exact Es|]. intros B. specialize (B eq_refl).
    inversion_clear B as [|? ? B1 B']. inversion_clear B' as [|? ? B2 B'']. inversion_clear B'' as [|? ? B3 B']. inversion_clear B' as [|? ? B4 _]. repeat split; assumption.
Qed.
Lemma keeps_run qs : forall on dn, keeps on dn -> keeps (fold_left (fun o q => fst (sidd_step_object formats num float_of o q)) qs on) (sidd_kept rd dn qs).
Proof.
  induction qs as [|q qs IH]; intros on dn K; [exact K|]. cbn [fold_left sidd_kept]. apply IH. unfold sidd_step_object. pose proof (keeps_step on dn q K) as S.
  destruct (sidd_update_object formats num float_of on q) as [o1|e], (sidd_tile rd dn q) as [d1|e']; try contradiction; cbn [fst]; [apply S|exact K].
Qed.
End Held.
