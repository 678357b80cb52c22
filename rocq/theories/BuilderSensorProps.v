(** From the TREs and the geotransform to pixels and ground points: C85, and the rest of C29 and
    C50.  The theorems put the builders (BuilderProps) and the sensor models (PolyProps,
    TransformProps) together, so that nothing but the fields of the metadata is left. *)
Require Import ZArith Reals String Ascii List Bool Lia Lra Permutation.
Require Import Verif.Base Verif.Vec Verif.SarMetaModel Verif.SensorBase Verif.RpcModel Verif.RsmModel Verif.TransformModel.
Require Import Verif.PolySpec Verif.PolyProofs Verif.PolyProps Verif.TransformProps.
Require Import Verif.TreModel Verif.TreSpec Verif.TreProofs Verif.TreProps Verif.BuilderModel Verif.BuilderSpec
  Verif.BuilderProofs Verif.BuilderProps.
Import ListNotations.
Local Open Scope string_scope.

(** ** C29: the geotransform and the projection of a dataset *)

(** GDAL reports "no projection" as an empty string; it must not be reprojected. *)
Theorem C29_builder_geographic : forall crs_of g0 g1 g2 g3 g4 g5 rest wkt s i em o,
  wkt = None \/ wkt = Some "" ->
  affine_build crs_of (g0 :: g1 :: g2 :: g3 :: g4 :: g5 :: rest) wkt = Ok (Some s) ->
  let g := mkGeo ((g0 + g1 * ix i + g2 * iy i) * PI / 180) ((g3 + g4 * ix i + g5 * iy i) * PI / 180) 0 in
  image_to_world s i em o = Ok (match em with None => g | Some f => f g end).
Proof.
  intros crs_of g0 g1 g2 g3 g4 g5 rest wkt s i em o W H g.
  assert (K : exists m, make_affine (g0 :: g1 :: g2 :: g3 :: g4 :: g5 :: rest) None = Ok m /\ s = affine_sensor m).
  { unfold affine_build in H. apply bind_ok in H. destruct H as [m [E H]]. exists m. split; [exact E|].
    destruct W as [-> | ->]; injection H as <-; reflexivity. }
  destruct K as [m [E ->]]. apply (C29_geotransform g0 g1 g2 g3 g4 g5 rest i em o m E).
Qed.

(** With a projection the position is given to its transformer first. *)
Theorem C29_builder_projected : forall crs_of g0 g1 g2 g3 g4 g5 rest w s i em o,
  w <> "" ->
  affine_build crs_of (g0 :: g1 :: g2 :: g3 :: g4 :: g5 :: rest) (Some w) = Ok (Some s) ->
  exists crs, crs_of w = Ok crs /\
  let p := to_wgs84 crs (mkVec (g0 + g1 * ix i + g2 * iy i) (g3 + g4 * ix i + g5 * iy i) 1) in
  let g := mkGeo (vx p * PI / 180) (vy p * PI / 180) 0 in
  image_to_world s i em o = Ok (match em with None => g | Some f => f g end).
Proof.
  intros crs_of g0 g1 g2 g3 g4 g5 rest w s i em o W H. unfold affine_build in H. apply bind_ok in H. destruct H as [m0 [E0 H]].
  destruct w as [|a w]; [congruence|]. apply bind_ok in H. destruct H as [crs [E1 H]]. exists crs. split; [exact E1|].
  apply bind_ok in H. destruct H as [m [E H]]. injection H as <-.
  apply (C29_reprojection g0 g1 g2 g3 g4 g5 rest crs i em o m E).
Qed.

(** When there is a model: exactly when the geotransform can be inverted and pyproj knows the
    projection.  Nothing is caught: a geotransform that cannot be inverted is a ValueError even if
    the projection is not known either. *)
Theorem C29_builder_errors : forall crs_of g0 g1 g2 g3 g4 g5 rest wkt,
  let gt := g0 :: g1 :: g2 :: g3 :: g4 :: g5 :: rest in
  ((g1 * g5 - g2 * g4 = 0)%R -> affine_build crs_of gt wkt = Err ValueError)
  /\ ((g1 * g5 - g2 * g4 <> 0)%R ->
      ((wkt = None \/ wkt = Some "") -> exists s, affine_build crs_of gt wkt = Ok (Some s))
      /\ (forall w, wkt = Some w -> w <> "" ->
           (forall e, crs_of w = Err e -> affine_build crs_of gt wkt = Err e)
           /\ (forall crs, crs_of w = Ok crs -> exists s, affine_build crs_of gt wkt = Ok (Some s)))).
Proof.
  intros crs_of g0 g1 g2 g3 g4 g5 rest wkt gt. unfold affine_build, gt.
  destruct (C29_rejects_singular g0 g1 g2 g3 g4 g5 rest None) as [A B]. split.
  - intros D. rewrite (A D). reflexivity.
  - intros D. destruct (B D) as [m ->]. cbn [bind]. split.
    + intros [-> | ->]; eexists; reflexivity.
    + intros w -> W. destruct w as [|a w]; [congruence|]. split.
      * intros e ->. reflexivity.
      * intros crs ->. cbn [bind]. destruct (C29_rejects_singular g0 g1 g2 g3 g4 g5 rest (Some crs)) as [_ B'].
        destruct (B' D) as [m' ->]. eexists. reflexivity.
Qed.

(** ** C50: the image domain *)
Theorem C50_image_domain : forall cv tre d,
  build_rsm_image_domain cv tre = Ok d <->
  integer_field cv tre "MINR" (min_row d) /\ integer_field cv tre "MAXR" (max_row d)
  /\ integer_field cv tre "MINC" (min_column d) /\ integer_field cv tre "MAXC" (max_column d).
Proof.
  intros cv tre d. unfold build_rsm_image_domain. rewrite <- !int_ok. split.
  - intros H. steps H. injection H as <-. cbn. tauto.
  - intros [A [B [C D]]]. rewrite A, B, C, D. destruct d; reflexivity.
Qed.

Theorem C50_context : forall cv to_geodetic tre ground image,
  build_rsm_context cv to_geodetic tre = Ok (ground, image) <->
  build_rsm_ground_domain cv to_geodetic tre = Ok ground /\ build_rsm_image_domain cv tre = Ok image.
Proof.
  intros cv tg tre ground image. unfold build_rsm_context. split.
  - intros H. steps H. injection H as <- <-. tauto.
  - intros [-> ->]. reflexivity.
Qed.

(** ** C85: locating pixels by the TREs *)

(** *** RPC00B *)

(** The groups [ivs] (index, value) of a coefficient list say the polynomial, in whatever order
    they are written. *)
Definition coefficient_groups (cv : Conv) (tre : Element) (name : string) (ivs : list (Z * R)) : Prop :=
  (exists rep s, first_named tre "repeated" name rep /\ attr rep "number" = Some s /\ to_int cv s = Some 20%Z
     /\ Forall2 (group_is cv) (children_of rep) ivs)
  /\ Permutation (List.map fst ivs) (List.map Z.of_nat (seq 0 20)).
Definition groups_value (ivs : list (Z * R)) (L P H : R) : R :=
  total (List.map (fun iv => (snd iv * monomial L P H (nth (Z.to_nat (fst iv)) rpc00b_exponents (0, 0, 0)%nat))%R) ivs).

Lemma total_permutation (l l' : list R) : Permutation l l' -> total l = total l'.
Proof. intros P. induction P; unfold total in *; cbn; lra. Qed.
Lemma find_unique {A} (p : A -> bool) (l : list A) a : In a l -> p a = true -> (forall x, In x l -> p x = true -> x = a) ->
  List.find p l = Some a.
Proof.
  intros I T U. destruct (List.find p l) as [b|] eqn:F.
  - apply find_some in F. rewrite (U b) by tauto. reflexivity.
  - pose proof (find_none _ _ F a I). congruence.
Qed.
Lemma nodup_fst (ivs : list (Z * R)) a b : NoDup (List.map fst ivs) -> In a ivs -> In b ivs -> fst a = fst b -> a = b.
Proof.
  induction ivs as [|c ivs IH]; intros N I J E; [destruct I|]. cbn in N. inversion N as [|x l N1 N2]; subst.
  destruct I as [<- | I], J as [<- | J]; [reflexivity | | | apply IH; assumption].
  - exfalso. apply N1. rewrite E. apply in_map. exact J.
  - exfalso. apply N1. rewrite <- E. apply in_map. exact I.
Qed.
Lemma groups_ok cv tre name ivs : coefficient_groups cv tre name ivs ->
  exists l, parse_rpc_coefficients cv tre name = Ok l /\ List.length l = 20%nat
  /\ forall L P H, rpc00b l L P H = groups_value ivs L P H.
Proof.
  intros [[rep [s [F [S [N G]]]]] Perm].
  assert (Rng : forall iv, In iv ivs -> (0 <= fst iv < 20)%Z).
  { intros iv I. apply (in_map fst) in I. eapply Permutation_in in I; [|exact Perm]. apply in_map_iff in I.
    destruct I as [k [<- K]]. apply in_seq in K. lia. }
  destruct (C49_values cv tre name rep s 20 ivs F S N G) as [l [E [Len V]]].
  { apply Forall_forall. intros iv I. specialize (Rng iv I). change (Z.of_nat (Z.to_nat 20)) with 20%Z. lia. }
  change (Z.to_nat 20) with 20%nat in *. exists l. split; [exact E|]. split; [exact Len|]. intros L P H.
  assert (ND : NoDup (List.map fst ivs)).
  { eapply Permutation_NoDup; [apply Permutation_sym; exact Perm|]. apply FinFun.Injective_map_NoDup; [|apply seq_NoDup].
    intros x y. apply Nat2Z.inj. }
  assert (Pyi : forall k, (0 <= k < 20)%Z -> py_index 20 k = Some (Z.to_nat k)).
  { intros k K. unfold py_index. destruct (Z.leb_spec 0 k); [|lia].
    destruct (Z.ltb_spec k (Z.of_nat 20)); [reflexivity | change (Z.of_nat 20) with 20%Z in *; lia]. }
  set (mono := fun k : Z => monomial L P H (nth (Z.to_nat k) rpc00b_exponents (0, 0, 0)%nat)).
  set (h := fun k : Z => (last_at 20 ivs (Z.to_nat k) * mono k)%R).
  assert (A : groups_value ivs L P H = total (List.map h (List.map fst ivs))).
  { unfold groups_value. rewrite map_map. f_equal. apply map_ext_in. intros iv I. unfold h, mono. f_equal.
    unfold last_at. rewrite (find_unique _ (rev ivs) iv); [reflexivity | apply -> in_rev; exact I | |].
    - rewrite (Pyi _ (Rng iv I)). apply Nat.eqb_refl.
    - intros x J T. apply in_rev in J. apply (nodup_fst ivs x iv ND J I). pose proof (Rng iv I). pose proof (Rng x J).
      rewrite (Pyi _ (Rng x J)) in T. apply Nat.eqb_eq in T. lia. }
  rewrite A, (total_permutation _ _ (Permutation_map h Perm)). unfold h, mono. rewrite map_map.
  rewrite (map_ext_in _ (fun k => (nth k l 0 * monomial L P H (nth k rpc00b_exponents (0, 0, 0)%nat))%R)).
  2: { intros k K. apply in_seq in K. rewrite Nat2Z.id. rewrite V by lia. reflexivity. }
  clear - Len. do 20 (destruct l as [|? l]; [discriminate Len|]). destruct l; [|discriminate Len]. reflexivity.
Qed.

(** The pixel of a ground point is the one STDI-0002 gives for the fields of the TRE: the
    normalised longitude, latitude and height, the four polynomials with the coefficients their
    index attributes place, and the line and sample offsets and scales. *)
Theorem C85_rpc : forall cv caught tres minimize m tre lon_off lat_off h_off lon_scale lat_scale h_scale
    line_off samp_off line_scale samp_scale ln ld sn sd g,
  rpc_build cv caught tres = Ok (Some m) -> first_named tres "tre" "RPC00B" tre ->
  number_field cv tre "LONG_OFF" lon_off -> number_field cv tre "LAT_OFF" lat_off -> number_field cv tre "HEIGHT_OFF" h_off ->
  number_field cv tre "LONG_SCALE" lon_scale -> number_field cv tre "LAT_SCALE" lat_scale -> number_field cv tre "HEIGHT_SCALE" h_scale ->
  number_field cv tre "LINE_OFF" line_off -> number_field cv tre "SAMP_OFF" samp_off ->
  number_field cv tre "LINE_SCALE" line_scale -> number_field cv tre "SAMP_SCALE" samp_scale ->
  coefficient_groups cv tre "LINE_NUM_COEFF" ln -> coefficient_groups cv tre "LINE_DEN_COEFF" ld ->
  coefficient_groups cv tre "SAMP_NUM_COEFF" sn -> coefficient_groups cv tre "SAMP_DEN_COEFF" sd ->
  let L := ((longitude g * 180 / PI - lon_off) / lon_scale)%R in
  let P := ((latitude g * 180 / PI - lat_off) / lat_scale)%R in
  let H := ((elevation g - h_off) / h_scale)%R in
  exists i, world_to_image (rpc_sensor minimize m) g = Ok i
  /\ ix i = (samp_off + samp_scale * (groups_value sn L P H / groups_value sd L P H))%R
  /\ iy i = (line_off + line_scale * (groups_value ln L P H / groups_value ld L P H))%R.
Proof.
  intros cv caught tres minimize m tre lon_off lat_off h_off lon_scale lat_scale h_scale line_off samp_off line_scale samp_scale
    ln ld sn sd g B F F1 F2 F3 F4 F5 F6 F7 F8 F9 F10 G1 G2 G3 G4 L P H.
  apply C71_model in B. destruct B as [tre' [F' [_ S]]]. apply find_named_spec in F. apply find_named_spec in F'.
  assert (tre' = tre) by congruence. subst tre'.
  destruct S as [_ [_ [S1 [S2 [S3 [S4 [S5 [S6 [S7 [S8 [S9 [S10 [S11 [S12 [S13 S14]]]]]]]]]]]]]]].
  rewrite <- !float_ok in *.
  assert (E1 : long_off m = lon_off) by congruence. assert (E2 : RpcModel.lat_off m = lat_off) by congruence.
  assert (E3 : height_off m = h_off) by congruence. assert (E4 : long_scale m = lon_scale) by congruence.
  assert (E5 : RpcModel.lat_scale m = lat_scale) by congruence. assert (E6 : height_scale m = h_scale) by congruence.
  assert (E7 : RpcModel.line_off m = line_off) by congruence. assert (E8 : RpcModel.samp_off m = samp_off) by congruence.
  assert (E9 : RpcModel.line_scale m = line_scale) by congruence. assert (E10 : RpcModel.samp_scale m = samp_scale) by congruence.
  destruct (groups_ok _ _ _ _ G1) as [l1 [P1 [N1 V1]]]. destruct (groups_ok _ _ _ _ G2) as [l2 [P2 [N2 V2]]].
  destruct (groups_ok _ _ _ _ G3) as [l3 [P3 [N3 V3]]]. destruct (groups_ok _ _ _ _ G4) as [l4 [P4 [N4 V4]]].
  assert (Q1 : line_num_poly m = l1) by congruence. assert (Q2 : line_den_poly m = l2) by congruence.
  assert (Q3 : samp_num_poly m = l3) by congruence. assert (Q4 : samp_den_poly m = l4) by congruence.
  destruct (C19_world_to_image m g) as [i [W [X Y]]].
  { intros c [<- | [<- | [<- | [<- | []]]]]; congruence. }
  exists i. split; [exact W|]. rewrite E1, E2, E3, E4, E5, E6 in X, Y. rewrite E8, E10, Q3, Q4 in X. rewrite E7, E9, Q1, Q2 in Y.
  rewrite X, Y, V1, V2, V3, V4. split; reflexivity.
Qed.

(** *** RSMIDA, RSMPIA and RSMPCA *)

(** The quadratic of ten coefficients of RSMPIA: 1, X, Y, Z, XX, XY, XZ, YY, YZ, ZZ. *)
Definition quadratic_exponents : list (nat * nat * nat) :=
  [(0,0,0); (1,0,0); (0,1,0); (0,0,1); (2,0,0); (1,1,0); (1,0,1); (0,2,0); (0,1,1); (0,0,2)]%nat.
Definition quadratic (c : list R) (v : Vec) : R :=
  total (List.map (fun t => (fst t * monomial (vx v) (vy v) (vz v) (snd t))%R) (combine c quadratic_exponents)).

(** What RSMPCA, read as [m], says about the ground point [v] of the ground domain: its pixel [i]. *)
Definition section_locates (m : SectionModel) (v : Vec) (i : Image) : Prop :=
  let p := section_poly m in
  let value q := general_polynomial (max_x q) (max_y q) (max_z q) (coefs q)
                   ((vx v - x_off p) / x_scale p) ((vy v - y_off p) / y_scale p) ((vz v - z_off p) / z_scale p) in
  ix i = (column_off p + column_scale p * (value (column_num p) / value (column_den p)))%R
  /\ iy i = (row_off p + row_scale p * (value (row_num p) / value (row_den p)))%R.

(** The RSMPCA [m] of [models] in charge of the pixel [i]: the last one with the section numbers of
    the section of RSMPIA that contains the pixel, counted from MINR and MINC. *)
Definition in_charge (rows cols : Z) (row_size col_size : R) (minr minc : Z) (models : list SectionModel)
    (i : Image) (m : SectionModel) : Prop :=
  exists r c, section_of (IZR minr) row_size rows (iy i) r /\ section_of (IZR minc) col_size cols (ix i) c
  /\ last_with (fun m => section_row m = (r + 1)%Z /\ section_col m = (c + 1)%Z) models m.

Lemma quadratic_ok l v : List.length l = 10%nat -> low_order_evaluate l v = quadratic l v.
Proof.
  intros Len. do 10 (destruct l as [|? l]; [discriminate Len|]). destruct l; [|discriminate Len].
  match goal with |- low_order_evaluate [?a; ?b; ?c; ?d; ?e; ?f; ?g; ?h; ?i; ?j] v = _ =>
    destruct (C22_quadratic a b c d e f g h i j v) as [_ E] end.
  cbv zeta in E. rewrite E. unfold quadratic, total. cbn. ring.
Qed.
Lemma one_section to_geocentric minimize p g :
  world_to_image (rsm_sensor to_geocentric minimize p) g
  = bind (geodetic_to_ground_domain_coordinate to_geocentric (rp_domain p) g) (fun v => Ok (ground_domain_to_image p v)).
Proof. reflexivity. Qed.

(** One RSMPCA: it answers for every ground point. *)
Theorem C85_rsm_one : forall cv to_geocentric to_geodetic caught minimize tres rsmid ground image m b g v,
  first_named tres "tre" "RSMIDA" rsmid -> build_rsm_context cv to_geodetic rsmid = Ok (ground, image) ->
  Forall2 (section_says cv ground) (findall_named tres "tre" "RSMPCA") [m] ->
  rsm_build cv to_geodetic caught tres = Ok (Some b) ->
  geodetic_to_ground_domain_coordinate to_geocentric ground g = Ok v ->
  exists i, world_to_image (rsm_built_sensor to_geocentric minimize b) g = Ok i /\ section_locates m v i.
Proof.
  intros cv tgc tg caught minimize tres rsmid ground image m b g v F C S B V.
  destruct (C50_cases cv tg caught tres) as [_ K]. destruct (K rsmid ground image [m] F C S) as [_ [K1 _]].
  rewrite (K1 m eq_refl) in B. injection B as <-. unfold rsm_built_sensor. rewrite one_section.
  inversion S as [|? ? ? ? S1 _]; subst. destruct S1 as [D _]. rewrite D, V. cbn [bind].
  eexists. split; [reflexivity|]. apply C23_ground_to_image.
Qed.

(** Several: the low order polynomials of RSMPIA choose the section of a ground point, and the
    RSMPCA in charge gives the pixel; a pixel is located by the RSMPCA in charge of it. *)
Theorem C85_rsm_sections : forall cv to_geocentric to_geodetic caught minimize tres s,
  rsm_build cv to_geodetic caught tres = Ok (Some (SectionedPolynomials s)) ->
  exists rsmid rsmpi ground minr minc models rows cols row_size col_size row_poly col_poly,
  first_named tres "tre" "RSMIDA" rsmid /\ first_named tres "tre" "RSMPIA" rsmpi
  /\ build_rsm_ground_domain cv to_geodetic rsmid = Ok ground
  /\ integer_field cv rsmid "MINR" minr /\ integer_field cv rsmid "MINC" minc
  /\ Forall2 (section_says cv ground) (findall_named tres "tre" "RSMPCA") models
  /\ integer_field cv rsmpi "RNIS" rows /\ integer_field cv rsmpi "CNIS" cols
  /\ number_field cv rsmpi "RSSIZ" row_size /\ number_field cv rsmpi "CSSIZ" col_size
  /\ low_order_says cv rsmpi "R" row_poly /\ low_order_says cv rsmpi "C" col_poly
  /\ ((1 <= rows)%Z -> (1 <= cols)%Z -> (0 < row_size)%R -> (0 < col_size)%R ->
      let sensor := rsm_built_sensor to_geocentric minimize (SectionedPolynomials s) in
      (forall i em o, exists m,
         in_charge rows cols row_size col_size minr minc models i m
         /\ image_to_world sensor i em o = rsm_image_to_world to_geocentric minimize (section_poly m) i em o)
      /\ (forall g v, geodetic_to_ground_domain_coordinate to_geocentric ground g = Ok v ->
         exists m i, in_charge rows cols row_size col_size minr minc models
                       (mkImage (quadratic col_poly v) (quadratic row_poly v)) m
         /\ world_to_image sensor g = Ok i /\ section_locates m v i)).
Proof.
  intros cv tgc tg caught minimize tres s B.
  destruct (C50_sections cv tg caught tres s B) as [rsmid [rsmpi [models [F [Fp [C [S [L [Rn [Cn [Rs [Cs [Rp [Cp [Lg K]]]]]]]]]]]]]]].
  apply C50_context in C. destruct C as [Cg Ci]. apply C50_image_domain in Ci. destruct Ci as [Ir [_ [Ic _]]].
  exists rsmid, rsmpi, (ss_ground s), (min_row (ss_image s)), (min_column (ss_image s)), models,
    (ss_rows s), (ss_cols s), (ss_row_size s), (ss_col_size s), (ss_row_poly s), (ss_col_poly s).
  do 12 (split; [assumption|]). intros Hr Hc Sr Sc sensor.
  set (grid := List.map (List.map (rsm_sensor tgc minimize)) (ss_grid s)).
  set (sec := mkSectioned (ss_ground s) (ss_image s) (ss_rows s) (ss_cols s) (ss_row_size s) (ss_col_size s)
                (ss_row_poly s) (ss_col_poly s) grid).
  assert (Sens : sensor = sectioned_sensor tgc sec) by reflexivity.
  assert (Comp : complete_sections sec).
  { unfold complete_sections. cbn [row_sections column_sections section_models sec]. split; [exact Hr|]. split; [exact Hc|].
    split; [unfold grid; rewrite map_length, Lg; lia|]. intros row I. apply In_nth_error in I. destruct I as [k I].
    unfold grid in I. rewrite nth_error_map in I. destruct (nth_error (ss_grid s) k) as [row0|] eqn:N; [|discriminate].
    injection I as <-. rewrite map_length.
    assert (Lk : (k < Z.to_nat (ss_rows s))%nat) by (rewrite <- Lg; apply nth_error_Some; congruence).
    destruct (K (Z.of_nat k + 1)%Z 1%Z) as [row1 [m [N1 [L1 _]]]]; [lia | lia|].
    replace (Z.to_nat (Z.of_nat k + 1 - 1)) with k in N1 by lia. rewrite N in N1. injection N1 as <-. lia. }
  assert (Resp : forall i t, responsible sec i t -> exists m,
     in_charge (ss_rows s) (ss_cols s) (ss_row_size s) (ss_col_size s) (min_row (ss_image s)) (min_column (ss_image s)) models i m
     /\ t = rsm_sensor tgc minimize (section_poly m)).
  { intros i t [r [c [row [A1 [A2 [A3 A4]]]]]]. pose proof A1 as [A1' _]. pose proof A2 as [A2' _].
    cbn [row_sections column_sections sec] in A1', A2'.
    destruct (K (r + 1)%Z (c + 1)%Z) as [row0 [m [N1 [L1 [N2 Lm]]]]]; [lia | lia|].
    exists m. split; [exists r, c; split; [exact A1|]; split; [exact A2 | exact Lm]|].
    replace (r + 1 - 1)%Z with r in N1 by lia. replace (c + 1 - 1)%Z with c in N2 by lia.
    cbn [section_models sec] in A3. unfold grid in A3. rewrite nth_error_map, N1 in A3. injection A3 as <-.
    rewrite nth_error_map, N2 in A4. injection A4 as <-. reflexivity. }
  split.
  - intros i em o. destruct (C24_image_to_world_section sec i em o Comp Sr Sc) as [t [T E]].
    destruct (Resp i t T) as [m [Q ->]]. exists m. split; [exact Q|]. rewrite Sens. exact E.
  - intros g v V. destruct (C24_world_to_image_section tgc sec g v Comp Sr Sc V) as [t [T E]].
    destruct (Resp _ t T) as [m [Q ->]]. cbn [column_polynomial row_polynomial sec] in Q.
    assert (Len : forall prefix l, low_order_says cv rsmpi prefix l -> List.length l = 10%nat).
    { intros prefix l X. apply forall2_len in X. cbn in X. symmetry. exact X. }
    rewrite !quadratic_ok in Q by (eapply Len; eassumption).
    exists m, (ground_domain_to_image (section_poly m) v). split; [exact Q|]. split.
    + rewrite Sens. cbn [world_to_image sectioned_sensor]. rewrite E, one_section.
      assert (D : rp_domain (section_poly m) = ss_ground s).
      { destruct Q as [r [c [_ [_ [before [after [Em _]]]]]]]. clear - S Em.
        assert (I : In m models) by (rewrite Em; apply in_or_app; right; left; reflexivity).
        clear Em. induction S; [destruct I|]. destruct I as [<- | I]; [|auto]. destruct H as [D _]. exact D. }
      rewrite D, V. reflexivity.
    + apply C23_ground_to_image.
Qed.

(** *** Examples *)
Example C29_builder_non_vacuous : forall crs,
  (exists s, affine_build (fun _ => Ok crs) [100; 1; 0; 50; 0; -1]%R (Some "") = Ok (Some s))
  /\ (exists s, affine_build (fun _ => Ok crs) [100; 1; 0; 50; 0; -1]%R (Some "PROJCS") = Ok (Some s))
  /\ affine_build (fun _ => Ok crs) [100; 1; 2; 50; 1; 2]%R None = Err ValueError.
Proof.
  intros crs. destruct (C29_builder_errors (fun _ => Ok crs) 100 1 0 50 0 (-1) [] (Some "")) as [_ A].
  destruct (C29_builder_errors (fun _ => Ok crs) 100 1 0 50 0 (-1) [] (Some "PROJCS")) as [_ B].
  destruct (C29_builder_errors (fun _ => Ok crs) 100 1 2 50 1 2 [] None) as [D _].
  split; [apply A; [lra | tauto]|]. split; [|apply D; lra].
  destruct B as [_ B]; [lra|]. destruct (B "PROJCS" eq_refl ltac:(discriminate)) as [_ E]. apply (E crs). reflexivity.
Qed.

(** Twenty groups written backwards; number is taken from a one-digit string, so 20 is "t". *)
Definition letters : list (string * Z) :=
  List.map (fun k => (String (ascii_of_nat (97 + k)) "", Z.of_nat k)) (seq 0 21).
Definition letter_conv : Conv :=
  let look s := match List.find (fun p => String.eqb (fst p) s) letters with Some p => Some (snd p) | None => None end in
  mkConv look (fun s => match look s with Some z => Some (IZR z) | None => None end).
Definition letter_group (k : nat) : Element :=
  El "group" [("index", String (ascii_of_nat (97 + k)) "")] [El "field" [("value", String (ascii_of_nat (97 + k)) "")] []].
Definition backwards (name : string) : Element :=
  El "repeated" [("name", name); ("number", "u")] (List.map letter_group (rev (seq 0 20))).
Example C85_non_vacuous : exists ivs, coefficient_groups letter_conv (El "tre" [] [backwards "LINE_NUM_COEFF"]) "LINE_NUM_COEFF" ivs
  /\ groups_value ivs 2 1 0 = (1 * 2 + 2 + 4 * 2 + 7 * 4 + 8 + 11 * 8 + 12 * 2 + 14 * 4 + 15)%R.
Proof.
  exists (List.map (fun k => (Z.of_nat k, IZR (Z.of_nat k))) (rev (seq 0 20))). split.
  - split.
    + exists (backwards "LINE_NUM_COEFF"), "u". split; [|split; [reflexivity|split; [reflexivity|]]].
      * exists [], []. split; [reflexivity|]. split; [split; reflexivity | intros x []].
      * cbn -[group_is letter_conv]. repeat (constructor; [unfold group_is; do 4 eexists; repeat split; reflexivity|]). constructor.
    + rewrite map_map. cbn [fst]. apply Permutation_map. apply Permutation_sym, Permutation_rev.
  - unfold groups_value, total. cbn -[nth Z.to_nat]. unfold monomial, Z.to_nat, Pos.to_nat. cbn. lra.
Qed.

(** A whole RPC00B in that alphabet: SUCCESS is 1, all offsets are 3, all scales are 2. *)
Definition letter_rpc : Element := El "tre" [("name", "RPC00B")]
  (field "SUCCESS" "b" :: List.map (fun n => field n "d") ["ERR_BIAS"; "ERR_RAND"; "LINE_OFF"; "SAMP_OFF"; "LAT_OFF"; "LONG_OFF"; "HEIGHT_OFF"]
   ++ List.map (fun n => field n "c") ["LINE_SCALE"; "SAMP_SCALE"; "LAT_SCALE"; "LONG_SCALE"; "HEIGHT_SCALE"]
   ++ List.map backwards ["LINE_NUM_COEFF"; "LINE_DEN_COEFF"; "SAMP_NUM_COEFF"; "SAMP_DEN_COEFF"])%list.
Lemma letter_groups name before after : (forall x, In x before -> ~ is_named "repeated" name x) ->
  coefficient_groups letter_conv (El "tre" [("name", "RPC00B")] (before ++ backwards name :: after)%list) name (List.map (fun k => (Z.of_nat k, IZR (Z.of_nat k))) (rev (seq 0 20))).
Proof.
  intros B. split.
  - exists (backwards name), "u". split; [|split; [reflexivity|split; [reflexivity|]]].
    + exists before, after. split; [reflexivity|]. split; [split; reflexivity | exact B].
    + cbn -[group_is letter_conv]. repeat (constructor; [unfold group_is; do 4 eexists; repeat split; reflexivity|]). constructor.
  - rewrite map_map. cbn [fst]. apply Permutation_map. apply Permutation_sym, Permutation_rev.
Qed.
Ltac not_these := intros x X; repeat (destruct X as [<-|X]; [intros [T N]; discriminate|]); destruct X.
Example C85_rpc_non_vacuous : forall minimize g,
  exists m ivs, rpc_build letter_conv true (El "tres" [] [letter_rpc]) = Ok (Some m) /\
  let L := ((longitude g * 180 / PI - 3) / 2)%R in let P := ((latitude g * 180 / PI - 3) / 2)%R in let H := ((elevation g - 3) / 2)%R in
  exists i, world_to_image (rpc_sensor minimize m) g = Ok i
  /\ ix i = (3 + 2 * (groups_value ivs L P H / groups_value ivs L P H))%R.
Proof.
  intros minimize g. destruct (rpc_build letter_conv true (El "tres" [] [letter_rpc])) as [[m|]|] eqn:E; [|vm_compute in E; discriminate|vm_compute in E; discriminate].
  exists m, (List.map (fun k => (Z.of_nat k, IZR (Z.of_nat k))) (rev (seq 0 20))). split; [reflexivity|]. cbv zeta.
  assert (F : first_named (El "tres" [] [letter_rpc]) "tre" "RPC00B" letter_rpc) by (exists [], []; split; [reflexivity|]; split; [split; reflexivity | intros x []]).
  set (ivs := List.map _ _).
  assert (G1 : coefficient_groups letter_conv letter_rpc "LINE_NUM_COEFF" ivs) by (apply (letter_groups "LINE_NUM_COEFF" (firstn 13 (children_of letter_rpc)) (skipn 14 (children_of letter_rpc))); not_these).
  assert (G2 : coefficient_groups letter_conv letter_rpc "LINE_DEN_COEFF" ivs) by (apply (letter_groups "LINE_DEN_COEFF" (firstn 14 (children_of letter_rpc)) (skipn 15 (children_of letter_rpc))); not_these).
  assert (G3 : coefficient_groups letter_conv letter_rpc "SAMP_NUM_COEFF" ivs) by (apply (letter_groups "SAMP_NUM_COEFF" (firstn 15 (children_of letter_rpc)) (skipn 16 (children_of letter_rpc))); not_these).
  assert (G4 : coefficient_groups letter_conv letter_rpc "SAMP_DEN_COEFF" ivs) by (apply (letter_groups "SAMP_DEN_COEFF" (firstn 16 (children_of letter_rpc)) (skipn 17 (children_of letter_rpc))); not_these).
  destruct (C85_rpc letter_conv true _ minimize m letter_rpc 3 3 3 2 2 2 3 3 2 2 ivs ivs ivs ivs g E F) as (i & A & B & _); try assumption;
    try (apply float_ok; reflexivity).
  exists i. split; [exact A | exact B].
Qed.
(** The sections of [C50_non_vacuous] satisfy the premises of [C85_rsm_sections]. *)
Example C85_rsm_non_vacuous : forall to_geodetic,
  exists s, rsm_build one_char_conv to_geodetic true
     (El "tres" [] [rsmida; rsmpca "1" "2" "22"; rsmpca "1" "1" "10"; rsmpca "1" "1" "11"; rsmpia]) = Ok (Some (SectionedPolynomials s))
  /\ (1 <= ss_rows s)%Z /\ (1 <= ss_cols s)%Z /\ (0 < ss_row_size s)%R /\ (0 < ss_col_size s)%R.
Proof.
  intros tg. eexists. split; [reflexivity|]. cbn. split; [lia|]. split; [lia|]. split; lra.
Qed.

(** One section: the premises of [C85_rsm_one]. *)
Example C85_rsm_one_non_vacuous : forall to_geocentric to_geodetic minimize g, exists b m i,
  let tres := El "tres" [] [rsmida; rsmpca "1" "1" "10"] in
  rsm_build one_char_conv to_geodetic true tres = Ok (Some b) /\
  world_to_image (rsm_built_sensor to_geocentric minimize b) g = Ok i /\ section_locates m (mkVec (longitude g) (latitude g) (elevation g)) i.
Proof.
  intros tc tg minimize g. destruct (rsm_build one_char_conv tg true (El "tres" [] [rsmida; rsmpca "1" "1" "10"])) as [[b|]|] eqn:B; try discriminate.
  destruct (build_rsm_context one_char_conv tg rsmida) as [[ground image]|] eqn:C; [|discriminate].
  destruct (build_rsm_polynomial_sensor_model one_char_conv ground (rsmpca "1" "1" "10")) as [m|] eqn:M; [|discriminate].
  assert (F : gd_form ground = GEODETIC).
  { assert (X : bind (build_rsm_context one_char_conv tg rsmida) (fun r => Ok (gd_form (fst r))) = Ok GEODETIC) by reflexivity. rewrite C in X. cbn [bind fst] in X. injection X as ->. reflexivity. }
  destruct (C85_rsm_one one_char_conv tc tg true minimize (El "tres" [] [rsmida; rsmpca "1" "1" "10"]) rsmida ground image m b g (vec_of g)) as (i & W & L); auto.
  - apply find_named_spec. reflexivity.
  - apply Forall2_cons; [|apply Forall2_nil]. apply C50_section_fields. exact M.
  - unfold geodetic_to_ground_domain_coordinate. rewrite F. reflexivity.
  - exists b, m, i. split; [exact B|]. split; [exact W|exact L].
Qed.

Print Assumptions C29_builder_geographic.
Print Assumptions C29_builder_projected.
Print Assumptions C29_builder_errors.
Print Assumptions C50_image_domain.
Print Assumptions C50_context.
Print Assumptions C85_rpc.
Print Assumptions C85_rsm_one.
Print Assumptions C85_rsm_sections.
