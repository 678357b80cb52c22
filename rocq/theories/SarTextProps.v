(** C107: the numbers of the SAR sensor models are those of the XML elements that the formats name. *)
Require Import ZArith Reals String List Bool Lia.
Require Import Verif.Base Verif.Vec Verif.SicdModel Verif.SarMetaModel Verif.SarMetaProps Verif.SchemaModel Verif.SchemaSpec Verif.SchemaProofs Verif.SchemaProps
  Verif.SarDocModel Verif.SarDocProofs Verif.SarTextSpec Verif.SarTextProofs Verif.SchemaCheck Verif.ExampleDocs Verif.SarDocProps.
Import ListNotations.
Local Open Scope string_scope.

(** The part [a] of [o], with its path. *)
Ltac follow :=
  match goal with
  | R : reads ?L ?x ?p (TClass ?c) ?o, G : get formats ?o ?a = Ok ?v |- _ =>
    lazymatch goal with _ : reads L x _ _ v |- _ => fail | _ => idtac end;
    let t := eval vm_compute in (element_field c a) in
    match t with Some (?n, ?t) => let N := fresh "R" in pose proof (reads_child L x p c o a v n t R ltac:(vm_compute; reflexivity) G) as N; cbn [app] in N end
  end.
Ltac opened H := repeat match type of H with
  | bind ?e _ = Ok _ => let E := fresh "G" in destruct e eqn:E; [|discriminate H]; cbn beta iota zeta delta [bind] in H
  end.
Ltac lookup := vm_compute; reflexivity.
Ltac poly1_table := split; [lookup|eexists; split; [lookup|split; [lookup|do 2 eexists; lookup]]].
Ltac poly2_table := split; [lookup|split; [lookup|eexists; split; [lookup|split; [lookup|split; [lookup|do 2 eexists; lookup]]]]].
Ltac read_all := repeat match goal with |- _ /\ _ => split end;
  lazymatch goal with
  | R : reads ?L ?x ?p _ ?o, G : vector ?num formats ?o = Ok ?v |- vector_at ?L ?num ?x ?p ?v => apply (vector_read L num x p _ o v R); [split; [|split]; lookup|exact G]
  | R : reads ?L ?x ?p _ ?o, G : poly1 ?num formats ?o = Ok ?v |- poly1_at ?L ?num ?x ?p ?v => apply (poly1_read L num x p _ o v R); [poly1_table|exact G]
  | R : reads ?L ?x ?p _ ?o, G : poly2 ?num formats ?o = Ok ?v |- poly2_at ?L ?num ?x ?p ?v => apply (poly2_read L num x p _ o v R); [poly2_table|exact G]
  | R : reads ?L ?x ?p _ ?o, G : xyzpoly ?num formats ?o = Ok ?v |- xyz_at ?L ?num ?x ?p ?v =>
    apply (xyz_read L num x p _ o v R); [eexists; split; [|split; [lookup|split; lookup]]; poly1_table|exact G]
  | R : reads ?L ?x ?p _ ?o, G : corner ?num formats ?o = Ok ?v |- pixel_at ?L ?num ?x ?p ?v => apply (pixel_read L num x p _ o v R); [split; lookup|exact G]
  | R : reads ?L ?x ?p _ ?o, G : corner ?num formats ?o = Ok ?v |- pixel_at ?L ?num ?x ?p (fst ?v, snd ?v) =>
    rewrite <- surjective_pairing; apply (pixel_read L num x p _ o v R); [split; lookup|exact G]
  | R : reads ?L ?x ?q (TClass ?c) ?o, G : get_integer formats ?o ?a = Ok ?z |- integer_at ?L ?x _ ?z =>
    let t := eval vm_compute in (element_field c a) in match t with Some (?n, _) => refine (get_integer_at L x q c o a n z R _ G); lookup end
  | R : reads ?L ?x ?q (TClass ?c) ?o, G : get_number ?num formats ?o ?a = Ok ?z |- number_at ?L ?num ?x _ ?z =>
    let t := eval vm_compute in (element_field c a) in match t with Some (?n, _) => refine (get_number_at L num x q c o a n z R _ G); lookup end
  | R : reads ?L ?x ?q (TClass ?c) ?o, G : get_enum formats ?o ?a = Ok ?z |- word_at ?x _ ?z =>
    let t := eval vm_compute in (element_field c a) in match t with Some (?n, TEnum ?e) => refine (get_word_at L x q c o a n e z R _ G); lookup end
  | _ => idtac
  end.

Lemma document_read F D T (L : Lexical F D T) x o : parse_document L formats x = Ok o -> snd (tag x) = "SICD" \/ snd (tag x) = "SIDD" ->
  exists c, In (c, tag x) roots /\ reads L x [] (TClass c) o.
Proof.
  intros P N. destruct (C96_versions F D T L x o P N) as (c & slots & -> & I). exists c. split; [exact I|]. destruct (root_classes c _ I) as (k & _ & Fr & _ & Nk).
  unfold parse_document in P. rewrite Fr, Nk in P. now apply reads_root.
Qed.

Ltac opened_all := repeat match goal with G : bind ?e _ = Ok _ |- _ =>
  let q := fresh "q" in let E := fresh "E" in destruct e as [q|] eqn:E; [|discriminate G]; cbn beta iota delta [bind] in G end.

Lemma chip_read F D T (L : Lexical F D T) (num : F -> R) v x o c : In v ["sidd100"; "sidd200"; "sidd300"] ->
  reads L x [] (TClass (v ++ ".SIDD")) o -> chip_of num formats o = Ok c ->
  let g := ["DownstreamReprocessing"; "GeometricChip"] in
  match c with
  | None => elements x g = []
  | Some c =>
    integer_at L x (g ++ ["ChipSize"; "Col"]) (chip_cols c) /\ integer_at L x (g ++ ["ChipSize"; "Row"]) (chip_rows c) /\
    pixel_at L num x (g ++ ["OriginalUpperLeftCoordinate"]) (upper_left c) /\ pixel_at L num x (g ++ ["OriginalUpperRightCoordinate"]) (upper_right c) /\
    pixel_at L num x (g ++ ["OriginalLowerRightCoordinate"]) (lower_right c) /\ pixel_at L num x (g ++ ["OriginalLowerLeftCoordinate"]) (lower_left c)
  end.
Proof.
  intros I R H. cbn [app]. unfold chip_of in H. destruct (get_slot formats o "downstream_reprocessing") as [ds|] eqn:Gd; [|discriminate]. cbn [bind] in H.
  assert (N1 : (forall d, ds <> [d]) -> elements x ["DownstreamReprocessing"; "GeometricChip"] = []).
  { intros N. change ["DownstreamReprocessing"; "GeometricChip"] with (["DownstreamReprocessing"] ++ ["GeometricChip"])%list. rewrite elements_app.
    cbn [In] in I. decompose [or] I; clear I; try contradiction; subst v; cbn [String.append] in R;
      (match type of R with reads _ _ _ (TClass ?c) _ => let t := eval vm_compute in (single_field c "downstream_reprocessing") in match t with Some (?n, ?t) =>
         pose proof (reads_absent L x [] c o "downstream_reprocessing" ds n t R ltac:(lookup) Gd N) as A end end);
      cbn [app] in A; rewrite A; reflexivity. }
  destruct ds as [|d [|d' r]]; [injection H as <-; apply N1; discriminate| |injection H as <-; apply N1; discriminate]. clear N1.
  destruct (get_slot formats d "geometric_chip") as [cs|] eqn:Gc; [|discriminate]. cbn [bind] in H. apply get_of_slot in Gd.
  destruct cs as [|g [|g' r]].
  1, 3: injection H as <-; cbn [In] in I; decompose [or] I; clear I; try contradiction; subst v; cbn [String.append] in R; follow;
    (match goal with Q : reads _ _ ["DownstreamReprocessing"] (TClass ?c) ?e, C : get_slot formats ?e "geometric_chip" = Ok ?l |- _ =>
       let t := eval vm_compute in (single_field c "geometric_chip") in match t with Some (?n, ?t) =>
       refine (reads_absent L x ["DownstreamReprocessing"] c e "geometric_chip" l n t Q _ C _); [lookup|discriminate] end end).
  apply get_of_slot in Gc. opened H. injection H as <-. cbn [chip_cols chip_rows upper_left upper_right lower_right lower_left]. 
  cbn [In] in I. decompose [or] I; clear I; try contradiction; subst v; cbn [String.append] in R; opened_all; repeat follow.
  all: read_all.
Qed.

Lemma sidd_read_of F D T (L : Lexical F D T) (num : F -> R) v x o d : In v ["sidd100"; "sidd200"; "sidd300"] ->
  reads L x [] (TClass (v ++ ".SIDD")) o -> sidd_meta num formats o = Ok d ->
  let plane := ["Measurement"; "PlaneProjection"] in
  vector_at L num x (plane ++ ["ReferencePoint"; "ECEF"]) (ref_position d) /\
  pixel_at L num x (plane ++ ["ReferencePoint"; "Point"]) (ref_col d, ref_row d) /\
  vector_at L num x (plane ++ ["ProductPlane"; "RowUnitVector"]) (plane_urow d) /\
  vector_at L num x (plane ++ ["ProductPlane"; "ColUnitVector"]) (plane_ucol d) /\
  pixel_at L num x (plane ++ ["SampleSpacing"]) (spacing_col d, spacing_row d) /\
  poly2_at L num x (plane ++ ["TimeCOAPoly"]) (sidd_time_coa d) /\
  xyz_at L num x ["Measurement"; "ARPPoly"] (sidd_arppoly d) /\
  let g := ["DownstreamReprocessing"; "GeometricChip"] in
  match chip d with
  | None => elements x g = []
  | Some c =>
    integer_at L x (g ++ ["ChipSize"; "Col"]) (chip_cols c) /\ integer_at L x (g ++ ["ChipSize"; "Row"]) (chip_rows c) /\
    pixel_at L num x (g ++ ["OriginalUpperLeftCoordinate"]) (upper_left c) /\ pixel_at L num x (g ++ ["OriginalUpperRightCoordinate"]) (upper_right c) /\
    pixel_at L num x (g ++ ["OriginalLowerRightCoordinate"]) (lower_right c) /\ pixel_at L num x (g ++ ["OriginalLowerLeftCoordinate"]) (lower_left c)
  end.
Proof.
  intros I R H. pose proof (fun c => chip_read F D T L num v x o c I R) as Ch. cbn [app] in *. unfold sidd_meta in H. opened H. injection H as <-.
  cbn [ref_position ref_col ref_row plane_urow plane_ucol spacing_col spacing_row sidd_time_coa sidd_arppoly chip].
  repeat match goal with G : bind (get formats _ _) _ = Ok _ |- _ => let g := fresh "q" in let E := fresh "E" in
    match type of G with bind ?e _ = _ => destruct e as [g|] eqn:E; [|discriminate G]; cbn beta iota delta [bind] in G end end.
  cbn [In] in I. decompose [or] I; clear I; try contradiction; subst v; cbn [String.append] in R; repeat follow.
  all: read_all.
  all: exact (Ch _ eq_refl).
Qed.

(** A SIDD document of any of the three versions: each number that the sensor model builder uses is the
    text of the only element at its place. *)
Theorem C107_sidd : forall F D T (L : Lexical F D T) (num : F -> R) x o d,
  parse_document L formats x = Ok o -> snd (tag x) = "SIDD" -> sidd_meta num formats o = Ok d ->
  let plane := ["Measurement"; "PlaneProjection"] in
  vector_at L num x (plane ++ ["ReferencePoint"; "ECEF"]) (ref_position d) /\
  pixel_at L num x (plane ++ ["ReferencePoint"; "Point"]) (ref_col d, ref_row d) /\
  vector_at L num x (plane ++ ["ProductPlane"; "RowUnitVector"]) (plane_urow d) /\
  vector_at L num x (plane ++ ["ProductPlane"; "ColUnitVector"]) (plane_ucol d) /\
  pixel_at L num x (plane ++ ["SampleSpacing"]) (spacing_col d, spacing_row d) /\
  poly2_at L num x (plane ++ ["TimeCOAPoly"]) (sidd_time_coa d) /\
  xyz_at L num x ["Measurement"; "ARPPoly"] (sidd_arppoly d) /\
  let g := ["DownstreamReprocessing"; "GeometricChip"] in
  match chip d with
  | None => elements x g = []
  | Some c =>
    integer_at L x (g ++ ["ChipSize"; "Col"]) (chip_cols c) /\ integer_at L x (g ++ ["ChipSize"; "Row"]) (chip_rows c) /\
    pixel_at L num x (g ++ ["OriginalUpperLeftCoordinate"]) (upper_left c) /\ pixel_at L num x (g ++ ["OriginalUpperRightCoordinate"]) (upper_right c) /\
    pixel_at L num x (g ++ ["OriginalLowerRightCoordinate"]) (lower_right c) /\ pixel_at L num x (g ++ ["OriginalLowerLeftCoordinate"]) (lower_left c)
  end.
Proof.
  intros F D T L num x o d P N H. destruct (document_read F D T L x o P (or_intror N)) as (c & I & R). cbn [roots In] in I.
  decompose [or] I; clear I; try contradiction; (match goal with Q : _ = (c, tag x) |- _ => injection Q as <- Q; rewrite <- Q in N end); try discriminate.
  - apply (sidd_read_of F D T L num "sidd100" x o d); cbn [In]; auto.
  - apply (sidd_read_of F D T L num "sidd200" x o d); cbn [In]; auto.
  - apply (sidd_read_of F D T L num "sidd300" x o d); cbn [In]; auto.
Qed.
Print Assumptions C107_sidd.

Lemma pfa_read F D T (L : Lexical F D T) (num : F -> R) v x o m : In v ["sicd121"; "sicd130"] ->
  reads L x [] (TClass (v ++ ".SICD")) o -> pfa_of num formats o = Ok m ->
  vector_at L num x ["PFA"; "FPN"] (fpn m) /\ poly1_at L num x ["PFA"; "PolarAngPoly"] (polar_ang m) /\ poly1_at L num x ["PFA"; "SpatialFreqSFPoly"] (spatial_freq_sf m).
Proof.
  intros I R H. unfold pfa_of in H. opened H. injection H as <-. cbn [fpn polar_ang spatial_freq_sf]. opened_all.
  cbn [In] in I. decompose [or] I; clear I; try contradiction; subst v; cbn [String.append] in R; repeat follow.
  all: read_all.
Qed.
Lemma az_sf_read F D T (L : Lexical F D T) (num : F -> R) v x o m : In v ["sicd121"; "sicd130"] ->
  reads L x [] (TClass (v ++ ".SICD")) o -> az_sf_of num formats o = Ok m -> number_at L num x ["RgAzComp"; "AzSF"] m.
Proof.
  intros I R H. unfold az_sf_of in H. opened H.
  cbn [In] in I. decompose [or] I; clear I; try contradiction; subst v; cbn [String.append] in R; repeat follow.
  all: read_all.
Qed.
Lemma inca_read F D T (L : Lexical F D T) (num : F -> R) v x o m : In v ["sicd121"; "sicd130"] ->
  reads L x [] (TClass (v ++ ".SICD")) o -> inca_of num formats o = Ok m ->
  number_at L num x ["RMA"; "INCA"; "R_CA_SCP"] (r_ca_scp m) /\ poly1_at L num x ["RMA"; "INCA"; "TimeCAPoly"] (time_ca m) /\
  poly2_at L num x ["RMA"; "INCA"; "DRateSFPoly"] (drate_sf m).
Proof.
  intros I R H. unfold inca_of in H. opened H. injection H as <-. cbn [r_ca_scp time_ca drate_sf]. opened_all.
  cbn [In] in I. decompose [or] I; clear I; try contradiction; subst v; cbn [String.append] in R; repeat follow.
  all: read_all.
Qed.

Lemma grid_type_name m t : grid_type_of m = Some t -> m = grid_name t.
Proof.
  unfold grid_type_of. repeat match goal with |- context [String.eqb m ?n] => destruct (String.eqb_spec m n) as [->|_]; [intros H; injection H as <-; reflexivity|] end. discriminate.
Qed.
Lemma algorithm_of m : algorithm_name (form_algo_of m) m.
Proof.
  unfold form_algo_of. repeat match goal with |- context [String.eqb m ?n] => destruct (String.eqb_spec m n) as [->|?]; [reflexivity|] end.
  intros [E|[E|[E|[]]]]; congruence.
Qed.
Lemma or_none_some {A} (r : res A) a : or_none r = Some a -> r = Ok a.
Proof. destruct r; cbn; congruence. Qed.

Lemma algorithm_read F D T (L : Lexical F D T) v x o a m : In v ["sicd121"; "sicd130"] ->
  reads L x [] (TClass (v ++ ".SICD")) o -> bind (get formats o "image_formation") (fun i => bind (get formats i "image_form_algo") (fun a => Ok a)) = Ok a -> enum_value a = Ok m ->
  word_at x ["ImageFormation"; "ImageFormAlgo"] m.
Proof.
  intros I R H E. opened H. injection H as <-.
  cbn [In] in I. decompose [or] I; clear I; try contradiction; subst v; cbn [String.append] in R; repeat follow;
    (match goal with Q : reads _ _ ["ImageFormation"; "ImageFormAlgo"] (TEnum ?e) _ |- _ => exact (reads_word L x _ e _ m Q E) end).
Qed.

Lemma sicd_read_of F D T (L : Lexical F D T) (num : F -> R) v x o d : In v ["sicd121"; "sicd130"] ->
  reads L x [] (TClass (v ++ ".SICD")) o -> sicd_meta num formats o = Ok d ->
  vector_at L num x ["GeoData"; "SCP"; "ECF"] (scp_position d) /\
  integer_at L x ["ImageData"; "SCPPixel"; "Row"] (scp_row d) /\ integer_at L x ["ImageData"; "SCPPixel"; "Col"] (scp_col d) /\
  integer_at L x ["ImageData"; "FirstRow"] (first_row (image_data d)) /\ integer_at L x ["ImageData"; "FirstCol"] (first_col (image_data d)) /\
  (num_rows (image_data d) <> 0%Z -> integer_at L x ["ImageData"; "NumRows"] (num_rows (image_data d))) /\
  (num_cols (image_data d) <> 0%Z -> integer_at L x ["ImageData"; "NumCols"] (num_cols (image_data d))) /\
  vector_at L num x ["Grid"; "Row"; "UVectECF"] (row_uvect d) /\ vector_at L num x ["Grid"; "Col"; "UVectECF"] (col_uvect d) /\
  number_at L num x ["Grid"; "Row"; "SS"] (row_spacing d) /\ number_at L num x ["Grid"; "Col"; "SS"] (col_spacing d) /\
  poly2_at L num x ["Grid"; "TimeCOAPoly"] (time_coa d) /\ xyz_at L num x ["Position"; "ARPPoly"] (arppoly d) /\
  vector_at L num x ["SCPCOA"; "ARPPos"] (arppos d) /\ vector_at L num x ["SCPCOA"; "ARPVel"] (arpvel d) /\
  word_at x ["SCPCOA"; "SideOfTrack"] (side d) /\ word_at x ["Grid"; "Type"] (grid_name (grid_type d)) /\
  (grid_type d = RGAZIM -> exists s, word_at x ["ImageFormation"; "ImageFormAlgo"] s /\ algorithm_name (form_algo d) s) /\
  (forall m, pfa_meta d = Some m -> vector_at L num x ["PFA"; "FPN"] (fpn m) /\ poly1_at L num x ["PFA"; "PolarAngPoly"] (polar_ang m) /\
                                    poly1_at L num x ["PFA"; "SpatialFreqSFPoly"] (spatial_freq_sf m)) /\
  (forall r, az_sf d = Some r -> number_at L num x ["RgAzComp"; "AzSF"] r) /\
  (forall m, inca_meta d = Some m -> number_at L num x ["RMA"; "INCA"; "R_CA_SCP"] (r_ca_scp m) /\ poly1_at L num x ["RMA"; "INCA"; "TimeCAPoly"] (time_ca m) /\
                                     poly2_at L num x ["RMA"; "INCA"; "DRateSFPoly"] (drate_sf m)).
Proof.
  intros I R H. pose proof (fun c => pfa_read F D T L num v x o c I R) as Pf. pose proof (fun c => az_sf_read F D T L num v x o c I R) as Az. pose proof (fun c => inca_read F D T L num v x o c I R) as In_.
  unfold sicd_meta in H. cbn [get_path] in H. opened H. destruct (grid_type_of _) as [t|] eqn:Gt; [|discriminate H]. opened H. injection H as <-.
  cbn [scp_position scp_row scp_col image_data num_rows num_cols first_row first_col row_uvect col_uvect row_spacing col_spacing time_coa arppoly arppos arpvel side grid_type form_algo pfa_meta az_sf inca_meta].
  rewrite <- (grid_type_name _ _ Gt).
  assert (Al : t = RGAZIM -> exists s, word_at x ["ImageFormation"; "ImageFormAlgo"] s /\ algorithm_name a17 s).
  { intros ->. destruct (bind (get formats o "image_formation") _) as [al|] eqn:Ea; [|discriminate]. cbn beta iota in G17.
    destruct (enum_value al) as [m|] eqn:Em; [|discriminate]. cbn [bind] in G17. injection G17 as <-. exists m. split; [|apply algorithm_of].
    exact (algorithm_read F D T L v x o al m I R Ea Em). }
  clear G17. opened_all. repeat match goal with X : Ok _ = Ok _ |- _ => injection X as X; subst end.
  cbn [In] in I. decompose [or] I; clear I; try contradiction; subst v; cbn [String.append] in R; repeat follow.
  all: read_all.
  all: try exact Al; try (intros m Sm; apply or_none_some in Sm; now auto).
  all: intros Nz; (match goal with |- integer_at _ _ _ (or_zero ?e) => destruct e eqn:?; [|now destruct Nz]; cbn [or_zero] end); read_all.
Qed.

(** A SICD document of either version: each number and name that the sensor model builder uses is the
    text of the only element at its place. *)
Theorem C107_sicd : forall F D T (L : Lexical F D T) (num : F -> R) x o d,
  parse_document L formats x = Ok o -> snd (tag x) = "SICD" -> sicd_meta num formats o = Ok d ->
  vector_at L num x ["GeoData"; "SCP"; "ECF"] (scp_position d) /\
  integer_at L x ["ImageData"; "SCPPixel"; "Row"] (scp_row d) /\ integer_at L x ["ImageData"; "SCPPixel"; "Col"] (scp_col d) /\
  integer_at L x ["ImageData"; "FirstRow"] (first_row (image_data d)) /\ integer_at L x ["ImageData"; "FirstCol"] (first_col (image_data d)) /\
  (num_rows (image_data d) <> 0%Z -> integer_at L x ["ImageData"; "NumRows"] (num_rows (image_data d))) /\
  (num_cols (image_data d) <> 0%Z -> integer_at L x ["ImageData"; "NumCols"] (num_cols (image_data d))) /\
  vector_at L num x ["Grid"; "Row"; "UVectECF"] (row_uvect d) /\ vector_at L num x ["Grid"; "Col"; "UVectECF"] (col_uvect d) /\
  number_at L num x ["Grid"; "Row"; "SS"] (row_spacing d) /\ number_at L num x ["Grid"; "Col"; "SS"] (col_spacing d) /\
  poly2_at L num x ["Grid"; "TimeCOAPoly"] (time_coa d) /\ xyz_at L num x ["Position"; "ARPPoly"] (arppoly d) /\
  vector_at L num x ["SCPCOA"; "ARPPos"] (arppos d) /\ vector_at L num x ["SCPCOA"; "ARPVel"] (arpvel d) /\
  word_at x ["SCPCOA"; "SideOfTrack"] (side d) /\ word_at x ["Grid"; "Type"] (grid_name (grid_type d)) /\
  (grid_type d = RGAZIM -> exists s, word_at x ["ImageFormation"; "ImageFormAlgo"] s /\ algorithm_name (form_algo d) s) /\
  (forall m, pfa_meta d = Some m -> vector_at L num x ["PFA"; "FPN"] (fpn m) /\ poly1_at L num x ["PFA"; "PolarAngPoly"] (polar_ang m) /\
                                    poly1_at L num x ["PFA"; "SpatialFreqSFPoly"] (spatial_freq_sf m)) /\
  (forall r, az_sf d = Some r -> number_at L num x ["RgAzComp"; "AzSF"] r) /\
  (forall m, inca_meta d = Some m -> number_at L num x ["RMA"; "INCA"; "R_CA_SCP"] (r_ca_scp m) /\ poly1_at L num x ["RMA"; "INCA"; "TimeCAPoly"] (time_ca m) /\
                                     poly2_at L num x ["RMA"; "INCA"; "DRateSFPoly"] (drate_sf m)).
Proof.
  intros F D T L num x o d P N H. destruct (document_read F D T L x o P (or_introl N)) as (c & I & R). cbn [roots In] in I.
  decompose [or] I; clear I; try contradiction; (match goal with Q : _ = (c, tag x) |- _ => injection Q as <- Q; rewrite <- Q in N end); try discriminate.
  - apply (sicd_read_of F D T L num "sicd121" x o d); cbn [In]; auto.
  - apply (sicd_read_of F D T L num "sicd130" x o d); cbn [In]; auto.
Qed.
Print Assumptions C107_sicd.

(** The document that the updater writes for a chip of a SICD image, after any chips before it: the four
    numbers of its ImageData. *)
Theorem C107_sicd_chip : forall F D T (L : Lexical F D T) (num : F -> R), lexical_ok L ->
  forall x o d, parse_document L formats x = Ok o -> snd (tag x) = "SICD" -> sicd_meta num formats o = Ok d ->
  forall qs b, (0 < bw b)%Z -> (0 < bh b)%Z ->
  exists y, render_document L formats (sicd_run_object formats (first_row (image_data d)) (first_col (image_data d)) o (qs ++ [(b, None)])) = Some y /\ tag y = tag x /\
    integer_at L y ["ImageData"; "FirstRow"] (first_row (image_data d) + by_ b) /\ integer_at L y ["ImageData"; "FirstCol"] (first_col (image_data d) + bx b) /\
    integer_at L y ["ImageData"; "NumRows"] (bh b) /\ integer_at L y ["ImageData"; "NumCols"] (bw b).
Proof.
  intros F D T L num LO x o d P N M qs b W H. destruct (C97_sicd_updates F D T L num LO x o d P N M (qs ++ [(b, None)])) as (y & Y & Ty & Py & My).
  exists y. split; [exact Y|]. split; [exact Ty|].
  destruct (C107_sicd F D T L num y _ _ Py ltac:(now rewrite Ty) My) as (_ & _ & _ & Fr & Fc & Nr & Nc & _).
  assert (E : image_data (sicd_doc (sicd_run (sicd_updater d) (qs ++ [(b, None)]))) = mkImageData (bh b) (bw b) (first_row (image_data d) + by_ b) (first_col (image_data d) + bx b)).
  { replace (sicd_run (sicd_updater d) (qs ++ [(b, None)])) with (fst (sicd_update (sicd_run (sicd_updater d) qs) (b, None))) by (unfold sicd_run; rewrite fold_left_app; reflexivity).
    destruct (sicd_run_originals d qs) as (A & B & _).
    unfold sicd_update. cbn [fst snd sicd_doc with_image_data image_data]. now rewrite A, B. }
  rewrite E in *. cbn [num_rows num_cols first_row first_col] in *. repeat split; auto; [apply Nr|apply Nc]; lia.
Qed.
Print Assumptions C107_sicd_chip.

(** The document that the updater writes for a chip of a SIDD image, whose corners are [c]. *)
Theorem C107_sidd_chip : forall F D T (L : Lexical F D T) (num : F -> R), lexical_ok L -> whole_numbers L num ->
  forall x o d, parse_document L formats x = Ok o -> snd (tag x) = "SIDD" -> sidd_meta num formats o = Ok d ->
  forall c ul ur lr ll, stand_for num ul (upper_left c) -> stand_for num ur (upper_right c) -> stand_for num lr (lower_right c) -> stand_for num ll (lower_left c) ->
  exists o' y, sidd_put_chip formats o (chip_cols c, chip_rows c) ul ur lr ll = Ok o' /\ render_document L formats o' = Some y /\ tag y = tag x /\
    let g := ["DownstreamReprocessing"; "GeometricChip"] in
    integer_at L y (g ++ ["ChipSize"; "Col"]) (chip_cols c) /\ integer_at L y (g ++ ["ChipSize"; "Row"]) (chip_rows c) /\
    pixel_at L num y (g ++ ["OriginalUpperLeftCoordinate"]) (upper_left c) /\ pixel_at L num y (g ++ ["OriginalUpperRightCoordinate"]) (upper_right c) /\
    pixel_at L num y (g ++ ["OriginalLowerRightCoordinate"]) (lower_right c) /\ pixel_at L num y (g ++ ["OriginalLowerLeftCoordinate"]) (lower_left c).
Proof.
  intros F D T L num LO WN x o d P N M c ul ur lr ll S1 S2 S3 S4.
  destruct (C97_sidd_chip F D T L num LO WN x o d P N M c ul ur lr ll S1 S2 S3 S4) as (o' & y & o'' & E1 & E2 & Ty & Py & My).
  exists o', y. split; [exact E1|]. split; [exact E2|]. split; [exact Ty|].
  destruct (C107_sidd F D T L num y o'' _ Py ltac:(now rewrite Ty) My) as (_ & _ & _ & _ & _ & _ & _ & G). exact G.
Qed.
Print Assumptions C107_sidd_chip.

(** The documents of test/data: a PFA image and a chip. *)
Example C107_non_vacuous :
  (exists o d, parse_document exact formats example_pfa = Ok o /\ snd (tag example_pfa) = "SICD" /\ sicd_meta decimal_value formats o = Ok d /\
     grid_type d = RGAZIM /\ form_algo d = AlgoPFA /\ pfa_meta d <> None /\ word_at example_pfa ["Grid"; "Type"] "RGAZIM") /\
  (exists o d c, parse_document exact formats example_sidd_chip = Ok o /\ snd (tag example_sidd_chip) = "SIDD" /\ sidd_meta decimal_value formats o = Ok d /\ chip d = Some c /\
     integer_at exact example_sidd_chip ["DownstreamReprocessing"; "GeometricChip"; "ChipSize"; "Col"] (chip_cols c)).
Proof.
  split.
  - destruct (example_documents ("sicd121.SICD", example_pfa) ltac:(cbn; tauto)) as (o & P & _). cbn [fst snd] in P.
    assert (X : match bind (parse_document exact formats example_pfa) (sicd_meta decimal_value formats) with
                | Ok d => grid_type d = RGAZIM /\ form_algo d = AlgoPFA /\ pfa_meta d <> None | Err _ => False end) by (vm_compute; repeat split; discriminate).
    rewrite P in X. cbn [bind] in X. destruct (sicd_meta decimal_value formats o) as [d|] eqn:M; [|contradiction]. destruct X as (A & B & C).
    exists o, d. pose proof (C107_sicd _ _ _ exact decimal_value _ o d P eq_refl M) as R. rewrite A in R.
    split; [exact P|]. split; [reflexivity|]. split; [exact M|]. split; [exact A|]. split; [exact B|]. split; [exact C|]. apply R.
  - destruct (example_documents ("sidd200.SIDD", example_sidd_chip) ltac:(cbn; tauto)) as (o & P & _). cbn [fst snd] in P.
    assert (X : match bind (parse_document exact formats example_sidd_chip) (sidd_meta decimal_value formats) with
                | Ok d => chip d <> None | Err _ => False end) by (vm_compute; discriminate).
    rewrite P in X. cbn [bind] in X. destruct (sidd_meta decimal_value formats o) as [d|] eqn:M; [|contradiction]. destruct (chip d) as [c|] eqn:C; [|contradiction].
    exists o, d, c. pose proof (C107_sidd _ _ _ exact decimal_value _ o d P eq_refl M) as R. rewrite C in R.
    split; [exact P|]. split; [reflexivity|]. split; [exact M|]. split; [exact C|]. apply R.
Qed.
