(** Properties of file name extensions: C55. *)
Require Import Arith NArith String Ascii List Bool Lia.
Require Import Verif.Base Verif.Text Verif.TextFacts Verif.TreSpec Verif.TreProofs Verif.BuilderModel Verif.BuilderSpec Verif.BuilderProofs Verif.ExtModel.
Import ListNotations.
Local Open Scope string_scope.

(** *** Upper case *)
Lemma upper_ascii_idem c : upper_ascii (upper_ascii c) = upper_ascii c.
Proof. destruct c as [[] [] [] [] [] [] [] []]; reflexivity. Qed.
Lemma upper_idem s : upper (upper s) = upper s.
Proof. induction s as [|c r IH]; [reflexivity|]. cbn [upper]. rewrite upper_ascii_idem, IH. reflexivity. Qed.

(** The string has no lower case letter. *)
Definition no_lower (s : string) : Prop := upper s = s.

(** ** C55 *)

(** [w] occurs in [s] when case is ignored. *)
Definition mentions (w s : string) : Prop := occurs w (upper s).
Lemma search_spec words s : search words s = true <-> exists w, In w words /\ mentions w s.
Proof.
  unfold search, mentions. rewrite existsb_exists. split; intros [w [I C]]; exists w; (split; [exact I|]); apply contains_occurs; exact C.
Qed.
Lemma mentions_upper w s : mentions w (upper s) <-> mentions w s.
Proof. unfold mentions. rewrite upper_idem. reflexivity. Qed.

(** What the function computes, in words. *)
Theorem C55_normalize : forall s,
  let nitf := mentions "NITF" s \/ mentions "NTF" s in
  let tiff := mentions "TIF" s in
  let jpeg := mentions "JPEG" s \/ mentions "JPG" s in
  (nitf -> normalize_extension s = "NITF")
  /\ (~ nitf -> tiff -> normalize_extension s = "TIFF")
  /\ (~ nitf -> ~ tiff -> jpeg -> normalize_extension s = "JPEG")
  /\ (~ nitf -> ~ tiff -> ~ jpeg -> normalize_extension s = upper s).
Proof.
  intros s nitf tiff jpeg.
  assert (N : search ["NITF"; "NTF"] (upper s) = true <-> nitf).
  { rewrite search_spec. unfold nitf. split.
    - intros [w [[<- | [<- | []]] M]]; apply (proj1 (mentions_upper _ _)) in M; tauto.
    - intros [M | M]; apply (proj2 (mentions_upper _ _)) in M; [exists "NITF" | exists "NTF"]; split; [left; reflexivity | exact M | right; left; reflexivity | exact M]. }
  assert (T : search ["TIF"; "TIFF"] (upper s) = true <-> tiff).
  { rewrite search_spec. unfold tiff. split.
    - intros [w [[<- | [<- | []]] M]]; apply (proj1 (mentions_upper _ _)) in M; [exact M|].
      destruct M as [a [b E]]. exists a, ("F" ++ b). rewrite E. reflexivity.
    - intros M; apply (proj2 (mentions_upper _ _)) in M. exists "TIF". split; [left; reflexivity | exact M]. }
  assert (J : search ["JPEG"; "JPG"] (upper s) = true <-> jpeg).
  { rewrite search_spec. unfold jpeg. split.
    - intros [w [[<- | [<- | []]] M]]; apply (proj1 (mentions_upper _ _)) in M; tauto.
    - intros [M | M]; apply (proj2 (mentions_upper _ _)) in M; [exists "JPEG" | exists "JPG"]; split; [left; reflexivity | exact M | right; left; reflexivity | exact M]. }
  unfold normalize_extension. cbv zeta.
  destruct (search ["NITF"; "NTF"] (upper s)); destruct (search ["TIF"; "TIFF"] (upper s)); destruct (search ["JPEG"; "JPG"] (upper s));
    repeat split; intros; try reflexivity; exfalso; intuition discriminate.
Qed.

(** The usual spellings, in any case. *)
Theorem C55_spellings : forall s,
  (In (upper s) ["NITF"; "NTF"] -> normalize_extension s = "NITF")
  /\ (In (upper s) ["TIFF"; "TIF"] -> normalize_extension s = "TIFF")
  /\ (In (upper s) ["JPEG"; "JPG"] -> normalize_extension s = "JPEG").
Proof.
  intros s. unfold normalize_extension, search. cbv zeta. rewrite upper_idem.
  split; [|split]; intros H; cbn [In] in H; destruct H as [<- | [<- | []]]; vm_compute; reflexivity.
Qed.

Theorem C55_case : forall a b, upper a = upper b -> normalize_extension a = normalize_extension b.
Proof. intros a b E. unfold normalize_extension. rewrite E. reflexivity. Qed.

Lemma normalize_cases s : In (normalize_extension s) ["NITF"; "TIFF"; "JPEG"] \/
  (normalize_extension s = upper s /\ search ["NITF"; "NTF"] (upper s) = false /\ search ["TIF"; "TIFF"] (upper s) = false /\ search ["JPEG"; "JPG"] (upper s) = false).
Proof.
  unfold normalize_extension. cbv zeta.
  destruct (search ["NITF"; "NTF"] (upper s)); [left; cbn; tauto|].
  destruct (search ["TIF"; "TIFF"] (upper s)); [left; cbn; tauto|].
  destruct (search ["JPEG"; "JPG"] (upper s)); [left; cbn; tauto | right; tauto].
Qed.
Theorem C55_idempotent : forall s, normalize_extension (normalize_extension s) = normalize_extension s /\ no_lower (normalize_extension s).
Proof.
  intros s. destruct (normalize_cases s) as [[<- | [<- | [<- | []]]] | [E [A [B C]]]].
  1-3: split; vm_compute; reflexivity.
  rewrite E. split; [|apply upper_idem]. unfold normalize_extension. cbv zeta. rewrite upper_idem, A, B, C. reflexivity.
Qed.

(** Any extension that merely contains one of the words is taken for that format. *)
Theorem C55_other_extensions_refuted : ~ (forall s, ~ In (upper s) ["NITF"; "NTF"; "TIFF"; "TIF"; "JPEG"; "JPG"] -> normalize_extension s = upper s).
Proof. intros H. specialize (H "motif"). vm_compute in H. assert (E : "TIFF" = "MOTIF") by (apply H; intuition discriminate). discriminate. Qed.

(** *** select_extension *)
Definition in_path (path e : string) : Prop := occurs (upper ("." ++ e)) (upper path).
Lemma select_later_spec path r : forall selected,
  ((forall e, In e r -> ~ in_path path e) -> select_later path r selected = selected)
  /\ (forall e, last_with (in_path path) r e -> select_later path r selected = upper e).
Proof.
  induction r as [|x r IH]; intros selected; (split; [intros H | intros e [a [b [E [P N]]]]]).
  - reflexivity.
  - destruct a; discriminate.
  - cbn [select_later]. destruct (contains _ _) eqn:C.
    + apply contains_occurs in C. exfalso. apply (H x (or_introl eq_refl) C).
    + apply (proj1 (IH selected)). intros e I. apply H. right; exact I.
  - cbn [select_later]. destruct a as [|y a]; cbn in E; injection E as -> ->.
    + apply contains_occurs in P. rewrite P. apply (proj1 (IH (upper e)) N).
    + apply (proj2 (IH _)). exists a, b. repeat split; assumption.
Qed.

(** The last extension after the first whose ".ext" occurs anywhere in the path, else the first. *)
Theorem C55_select : forall path,
  select_extension path [] = "UNKNOWN"
  /\ forall first others,
     ((forall e, In e others -> ~ in_path path e) -> select_extension path (first :: others) = upper first)
     /\ (forall e, last_with (in_path path) others e -> select_extension path (first :: others) = upper e).
Proof. intros path. split; [reflexivity|]. intros first others. apply select_later_spec. Qed.

Lemma last_or_none {A} (P : A -> Prop) (dec : forall x, {P x} + {~ P x}) l : (forall x, In x l -> ~ P x) \/ exists x, last_with P l x.
Proof.
  induction l as [|a l IH]; [left; intros x []|]. destruct IH as [N | [x [b [c [E [Q N]]]]]].
  - destruct (dec a) as [Y | Y]; [right; exists a, [], l; repeat split; assumption | left; intros x [<- | I]; [exact Y | apply N; exact I]].
  - right. exists x, (a :: b), c. rewrite E. repeat split; assumption.
Qed.
Lemma in_path_dec path e : {in_path path e} + {~ in_path path e}.
Proof. unfold in_path. destruct (contains (upper ("." ++ e)) (upper path)) eqn:C; [left; apply contains_occurs | right; apply contains_false]; exact C. Qed.

(** One of the driver's extensions, whatever the path, and independent of case. *)
Theorem C55_select_is_an_extension : forall path extensions, extensions <> [] ->
  exists e, In e extensions /\ select_extension path extensions = upper e.
Proof.
  intros path [|x r] N; [congruence|]. destruct (C55_select path) as [_ H]. destruct (H x r) as [H1 H2].
  destruct (last_or_none _ (in_path_dec path) r) as [Q | [e Q]].
  - exists x. split; [left; reflexivity | apply H1; exact Q].
  - exists e. split; [|apply H2; exact Q]. destruct Q as [a [b [-> _]]]. right. apply in_or_app. right; left; reflexivity.
Qed.
Theorem C55_select_case : forall p q l, upper p = upper q -> select_extension p l = select_extension q l.
Proof.
  intros p q [|x r] E; [reflexivity|]. cbn [select_extension]. generalize (upper x). induction r as [|y r IH]; intros s; [reflexivity|].
  cbn [select_later]. rewrite E. apply IH.
Qed.

(** "Contains" is not "ends with": a later extension anywhere in the path beats the real one. *)
Theorem C55_real_extension_refuted :
  ~ (forall directory name first others,
       select_extension (directory ++ "/" ++ name ++ "." ++ first) (first :: others) = upper first).
Proof. intros H. specialize (H "/data/old.j2k" "scene" "jp2" ["j2k"]). vm_compute in H. discriminate. Qed.

(** *** Drivers *)
Fixpoint join_space (l : list string) : string :=
  match l with [] => "" | [w] => w | w :: r => w ++ " " ++ join_space r end.
Lemma split_space_not_nil s : split_space s <> [].
Proof. destruct s as [|c r]; cbn; [discriminate|]. destruct (Ascii.eqb c " "); [discriminate|]. destruct (split_space r); discriminate. Qed.
(** Splitting loses nothing, and no part contains a space. *)
Theorem C55_split : forall s, join_space (split_space s) = s /\ forall w, In w (split_space s) -> ~ has_char " " w.
Proof.
  induction s as [|c r [J N]].
  - split; [reflexivity|]. intros w [<- | []] H. exact H.
  - cbn [split_space]. destruct (Ascii.eqb_spec c " ") as [-> | D].
    + split.
      * pose proof (split_space_not_nil r). destruct (split_space r) as [|w ws] eqn:E; [congruence|].
        change (String " " (join_space (w :: ws)) = String " " r). rewrite J. reflexivity.
      * intros w [<- | I]; [intros H; exact H | apply N; exact I].
    + pose proof (split_space_not_nil r). destruct (split_space r) as [|w ws] eqn:E; [congruence|]. split.
      * destruct ws as [|v ws]; [change (String c w = String c r); cbn in J; rewrite J; reflexivity|].
        change (String c (join_space (w :: v :: ws)) = String c r). rewrite J. reflexivity.
      * intros x [<- | I]; [|apply N; right; exact I]. cbn [has_char]. intros [X | X]; [congruence | exact (N w (or_introl eq_refl) X)].
Qed.

Fixpoint all_chars (P : ascii -> Prop) (s : string) : Prop := match s with EmptyString => True | String c r => P c /\ all_chars P r end.
(** White space: tab, line feed and the like, the separators of ASCII, blank. *)
Definition white (c : ascii) : Prop := In (nat_of_ascii c) [9; 10; 11; 12; 13; 28; 29; 30; 31; 32].
Lemma is_space_white c : is_space c = true <-> white c.
Proof.
  assert (E : is_space c = existsb (Nat.eqb (nat_of_ascii c)) [9; 10; 11; 12; 13; 28; 29; 30; 31; 32]) by (destruct c as [[] [] [] [] [] [] [] []]; reflexivity).
  unfold white. rewrite E, existsb_exists. split.
  - intros (n & I & Q). apply Nat.eqb_eq in Q. now rewrite Q.
  - intros I. exists (nat_of_ascii c). split; [exact I|apply Nat.eqb_refl].
Qed.
Lemma rstrip_spec s : exists b, s = rstrip s ++ b /\ all_chars white b /\ forall a c, rstrip s = a ++ String c "" -> ~ white c.
Proof.
  induction s as [|c r (b & E & A & L)]; [exists ""; split; [reflexivity|split; [exact I|]]; intros [|x a] c; discriminate|].
  cbn [rstrip]. destruct (rstrip r) as [|d t] eqn:R.
  - destruct (is_space c) eqn:S.
    + exists (String c r). split; [reflexivity|]. split; [|intros [|x a] y; discriminate]. split; [now apply is_space_white|]. rewrite E. exact A.
    + exists b. split; [cbn; now rewrite E at 1|]. split; [exact A|]. intros [|x a] y H.
      * injection H as <-. rewrite <- is_space_white. congruence.
      * injection H as <- H. destruct a; discriminate.
  - exists b. split; [cbn [append]; f_equal; exact E|]. split; [exact A|]. intros [|x a] y H; [discriminate|]. injection H as <- H. exact (L a y H).
Qed.
(** Stripping removes exactly the white space at both ends. *)
Theorem C55_strip : forall s, exists a b, s = a ++ strip s ++ b /\ all_chars white a /\ all_chars white b
  /\ (forall c r, strip s = String c r -> ~ white c) /\ (forall r c, strip s = r ++ String c "" -> ~ white c).
Proof.
  intros s. unfold strip. assert (H : exists a, s = a ++ lstrip s /\ all_chars white a /\ forall c r, lstrip s = String c r -> ~ white c).
  { induction s as [|c r (a & E & A & F)]; [exists ""; repeat split; discriminate|]. cbn [lstrip]. destruct (is_space c) eqn:S.
    - exists (String c a). split; [cbn; now rewrite E at 1|]. split; [split; [now apply is_space_white|exact A]|exact F].
    - exists "". split; [reflexivity|]. split; [exact I|]. intros d t [= <- <-]. rewrite <- is_space_white. congruence. }
  destruct H as (a & E & A & F). destruct (rstrip_spec (lstrip s)) as (b & Eb & B & L). exists a, b.
  split; [rewrite <- Eb; exact E|]. split; [exact A|]. split; [exact B|]. split; [|exact L].
  intros c r H. apply (F c (r ++ b)). rewrite Eb, H. reflexivity.
Qed.

(** The extensions of the last registered driver of that name that has any. *)
Theorem C55_driver : forall drivers name,
  (forall d e, last_with (fun d => driver_long_name d = name /\ exists e, driver_extensions d = Some e /\ e <> "") drivers d ->
     driver_extensions d = Some e ->
     get_extensions_from_driver drivers (Some name) = split_space (strip e))
  /\ ((forall d e, In d drivers -> driver_long_name d = name -> driver_extensions d = Some e -> e = "") ->
     get_extensions_from_driver drivers (Some name) = [])
  /\ get_extensions_from_driver drivers None = [].
Proof.
  intros drivers name. split; [|split; [|reflexivity]].
  - intros d e [a [b [E [[L [e' [Ee Ne]]] N]]]] Ed. rewrite Ed in Ee. injection Ee as <-.
    unfold get_extensions_from_driver, get_gdal_driver_extensions. rewrite E, flat_map_app. cbn [flat_map]. rewrite Ed.
    destruct e as [|c e]; [congruence|]. cbn [app]. rewrite rev_app_distr. cbn [rev]. rewrite <- app_assoc. cbn [app].
    match goal with |- context [rev (flat_map ?f b)] => set (g := f) end.
    assert (Q : forall p, In p (rev (flat_map g b)) -> String.eqb (fst p) name = false).
    { intros p I. apply in_rev in I. apply in_flat_map in I. destruct I as [d' [I' G]]. unfold g in G.
      destruct (driver_extensions d') as [[|c' e']|] eqn:X; try contradiction. destruct G as [<- | []]. cbn [fst].
      apply String.eqb_neq. intros Y. apply (N d' I'). split; [exact Y|]. exists (String c' e'). split; [exact X | discriminate]. }
    rewrite find_app.
    destruct (List.find (fun p => String.eqb (fst p) name) (rev (flat_map g b))) as [p|] eqn:F.
    { apply List.find_some in F. destruct F as [I T]. rewrite (Q p I) in T. discriminate. }
    cbn [List.find fst]. rewrite L, String.eqb_refl. reflexivity.
  - intros H. unfold get_extensions_from_driver, get_gdal_driver_extensions.
    match goal with |- context [List.find ?q ?l] => destruct (List.find q l) as [p|] eqn:F end; [|reflexivity].
    apply List.find_some in F. destruct F as [I T]. apply in_rev in I. apply in_flat_map in I. destruct I as [d [I G]].
    apply String.eqb_eq in T. destruct (driver_extensions d) as [[|c e]|] eqn:X; try contradiction. destruct G as [<- | []]. cbn in T.
    specialize (H d _ I T X). discriminate.
Qed.

(** The extension reported for an image: a normal form, in upper case. *)
Definition registered (name : string) (d : Driver) : Prop := driver_long_name d = name /\ exists e, driver_extensions d = Some e /\ e <> "".
Theorem C55_image_extension : forall drivers info path,
  (forall e, info path = Err e -> get_image_extension drivers info path = Err e)
  /\ (info path = Ok None -> get_image_extension drivers info path = Ok "UNKNOWN")
  /\ (forall name, info path = Ok (Some name) -> (forall d, In d drivers -> ~ registered name d) -> get_image_extension drivers info path = Ok "UNKNOWN")
  /\ (forall name d e first others, info path = Ok (Some name) -> last_with (registered name) drivers d -> driver_extensions d = Some e ->
      split_space (strip e) = first :: others ->
      ((forall x, In x others -> ~ in_path path x) -> get_image_extension drivers info path = Ok (normalize_extension first))
      /\ (forall x, last_with (in_path path) others x -> get_image_extension drivers info path = Ok (normalize_extension x)))
  /\ (forall x, get_image_extension drivers info path = Ok x -> normalize_extension x = x /\ no_lower x).
Proof.
  intros drivers info path. unfold get_image_extension. split; [|split; [|split; [|split]]].
  - intros e ->. reflexivity.
  - intros ->. reflexivity.
  - intros name -> N. cbn [bind]. destruct (C55_driver drivers name) as (_ & D & _). rewrite D; [reflexivity|].
    intros d e I L E. destruct e as [|c r]; [reflexivity|]. exfalso. apply (N d I). split; [exact L|]. exists (String c r). split; [exact E|discriminate].
  - intros name d e first others -> L E S. cbn [bind]. destruct (C55_driver drivers name) as (D & _). rewrite (D d e L E), S.
    destruct (C55_select path) as [_ Q]. destruct (Q first others) as [Q1 Q2]. split.
    + intros N. rewrite (Q1 N). f_equal. apply C55_case, upper_idem.
    + intros x X. rewrite (Q2 x X). f_equal. apply C55_case, upper_idem.
  - intros x H. destruct (info path) as [n|]; [|discriminate]. injection H as <-. apply C55_idempotent.
Qed.

Example C55_non_vacuous :
  get_image_extension [mkDriver "GeoTIFF" (Some "tif tiff"); mkDriver "NITF" (Some " ntf "); mkDriver "Memory" None]
    (fun _ => Ok (Some "GeoTIFF")) "/data/Scene.TIFF" = Ok "TIFF"
  /\ get_image_extension [mkDriver "JPEG-2000" (Some "jp2 j2k")] (fun _ => Ok (Some "JPEG-2000")) "a.j2k" = Ok "J2K"
  /\ get_image_extension [] (fun _ => Ok None) "a.j2k" = Ok "UNKNOWN"
  /\ get_image_extension [] (fun _ => Err RuntimeError) "a.j2k" = Err RuntimeError
  /\ registered "NITF" (mkDriver "NITF" (Some " ntf ")) /\ split_space (strip "jp2 j2k") = ["jp2"; "j2k"].
Proof. repeat split; try (vm_compute; reflexivity). exists " ntf ". split; [reflexivity|discriminate]. Qed.

Print Assumptions C55_normalize.
Print Assumptions C55_spellings.
Print Assumptions C55_case.
Print Assumptions C55_idempotent.
Print Assumptions C55_other_extensions_refuted.
Print Assumptions C55_select.
Print Assumptions C55_select_is_an_extension.
Print Assumptions C55_select_case.
Print Assumptions C55_real_extension_refuted.
Print Assumptions C55_split.
Print Assumptions C55_strip.
Print Assumptions C55_driver.
Print Assumptions C55_image_extension.
