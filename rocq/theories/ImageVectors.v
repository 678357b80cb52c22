(** The project's unit tests of features, image processing and GDAL, run on the model.
    Each theorem restates tests of test/aws/osml/features, test/aws/osml/gdal or
    test/aws/osml/image_processing and cites them.  Mocks of the tests become functions; shapely is any
    library that does what the test relies on. *)
Require Import ZArith Reals String List Lra Lia Bool SpecFloat.
Require Import Verif.Base Verif.BaseFacts Verif.EncodeModel Verif.Text Verif.CoordFloatModel Verif.FloatModel Verif.DmsFloatModel Verif.DisplayModel Verif.DisplayFloatModel
  Verif.TileModel Verif.TileSpec Verif.TileProofs Verif.FloatProofs
  Verif.RsmModel Verif.ConfigModel Verif.FeatureModel Verif.GeolocModel Verif.IndexModel.
Import ListNotations.

(** *** test_gdal_tile_factory.py *)

(** test_gdal_tile_factory.py:408-449 [test_normalize_band_minmax], bit by bit. *)
Theorem T22_normalize_minmax :
  f_normalize_band_minmax (f_of_Z 10) (f_of_Z 60) (map f_of_Z [10; 20; 30; 40; 50; 60]%Z)
    = map Some [0; 42; 85; 127; 170; 212]%Z.
Proof. vm_compute. reflexivity. Qed.
Print Assumptions T22_normalize_minmax.

(** test_gdal_tile_factory.py:451-470 [test_normalize_band_dra], bit by bit. *)
Theorem T23_normalize_dra :
  f_normalize_band_dra (fun _ => Ok (repeat 0%Z 20 ++ repeat 10%Z 216 ++ repeat 0%Z 20)%list) (f_of_Z 20) (f_of_Z 216)
    (map f_of_Z [50; 75; 100; 125; 150; 175]%Z) = Ok (map Some [22; 61; 100; 138; 177; 216]%Z).
Proof. vm_compute. reflexivity. Qed.
Print Assumptions T23_normalize_dra.

(** test_gdal_tile_factory.py:131-167 [test_create_gdal_translate_kwargs]: the rows whose compression is
    one of the enumeration or absent, for a band of bytes. *)
Theorem T24_creation_options :
  let byte := mkBand Byte (Err RuntimeError) (fun _ _ _ => Err RuntimeError) in
  get_type_and_scales [byte] None NoAdjustment = Ok (Byte, [mkScale 0 255 0 255]) /\
  map (fun p => hd_error (creation_options (fst p) (snd p) Byte))
    [(Nitf, Some CNone); (Nitf, Some CJpeg); (Nitf, Some CJ2k); (Nitf, None)]
  = [Some "IC=NC"; Some "IC=C3"; Some "IC=C8"; Some "IC=C8"]%string.
Proof. split; reflexivity. Qed.
Print Assumptions T24_creation_options.

(** *** test_dynamic_range_adjustment.py:7-20 [test_from_counts] with the default percentages, bit by
    bit, with the test's tolerance. *)
Definition test_counts : list Z := (repeat 0 1 ++ repeat 1 98 ++ repeat 0 1 ++ repeat 200 300 ++ repeat 0 622 ++ repeat 1 1 ++ repeat 0 1)%Z%list.
Theorem T25_from_counts :
  List.length test_counts = 1024%nat /\
  exists d, f_from_counts test_counts None None (f_literal 2 100) (f_literal 98 100) (f_literal 2 10) (f_literal 4 10) = Ok d /\
    f_actual_min d = f_of_Z 1 /\ f_actual_max d = f_of_Z 1022 /\
    SFltb (f_of_Z 46) (f_suggested_min d) = true /\ SFltb (f_suggested_min d) (f_of_Z 48) = true /\
    SFltb (f_of_Z 505) (f_suggested_max d) = true /\ SFltb (f_suggested_max d) (f_of_Z 507) = true.
Proof.
  split; [reflexivity|].
  eexists. split; [vm_compute; reflexivity|]. repeat split; vm_compute; reflexivity.
Qed.
Print Assumptions T25_from_counts.

(** *** test_gdal_config.py:14-38 [test_gdal_config_env], whatever was set before. *)
Local Open Scope string_scope.
Theorem T26_config : forall (getenv : string -> option string) (st : Options),
  let g := mkGdal (fun k => k) getenv in
  let key1 := "AWS_SECRET_ACCESS_KEY" in let key2 := "AWS_ACCESS_KEY_ID" in let key3 := "AWS_SESSION_TOKEN" in
  let '(h1, env) := make_env [[("Key", "Value")]] (Some 0%nat) in
  exists h2, with_aws_credentials h1 env
      (Some [("SecretAccessKey", "TEMP_SECRET_ACCESS_KEY"); ("AccessKeyId", "TEMP_ACCESS_KEY_ID"); ("SessionToken", "TEMP_SESSION_TOKEN")]) = Ok h2 /\
    let st0 := set_option g (set_option g (set_option g (set_gdal_default_configuration g st)
      key1 (Some "DEFAULT_AWS_SECRET_ACCESS_KEY")) key2 (Some "DEFAULT_AWS_ACCESS_KEY_ID")) key3 (Some "DEFAULT_AWS_SESSION_TOKEN") in
    let '(old, st1) := enter g (deref h2 (env_options env)) (old_options env) st0 in
    get_option g st1 key1 = Some "TEMP_SECRET_ACCESS_KEY" /\ get_option g st1 key2 = Some "TEMP_ACCESS_KEY_ID" /\
    get_option g st1 key3 = Some "TEMP_SESSION_TOKEN" /\
    let '(st2, raised) := leave g (deref h2 (env_options env)) old st1 in
    raised = None /\ get_option g st2 key1 = Some "DEFAULT_AWS_SECRET_ACCESS_KEY" /\
    get_option g st2 key2 = Some "DEFAULT_AWS_ACCESS_KEY_ID" /\ get_option g st2 key3 = Some "DEFAULT_AWS_SESSION_TOKEN".
Proof.
  intros getenv st g key1 key2 key3.
  assert (E : make_env [[("Key", "Value")]] (Some 0%nat) = ([[("Key", "Value")]; [("Key", "Value")]], mkEnv 1 [])) by reflexivity.
  rewrite E. eexists. split; [reflexivity|]. cbn [env_options old_options].
  match goal with |- context [deref ?h 1] => assert (D : deref h 1 = [("Key", "Value"); ("AWS_SECRET_ACCESS_KEY", "TEMP_SECRET_ACCESS_KEY");
     ("AWS_ACCESS_KEY_ID", "TEMP_ACCESS_KEY_ID"); ("AWS_SESSION_TOKEN", "TEMP_SESSION_TOKEN")]) by reflexivity; rewrite D; clear D end.
  set (st0 := set_gdal_default_configuration g st). clearbody st0. repeat split; reflexivity.
Qed.
Print Assumptions T26_config.

(** *** test_imaged_feature_property_accessor.py *)
Definition test_shell : Json := JArr (map (fun p => JArr [JNum (fst p); JNum (snd p)]) [(1, 0); (1, 1); (0, 1); (0, 0); (1, 0)]%R).
Definition unit_box : Json := JArr [JNum 0; JNum 0; JNum 1; JNum 1].
(** Lines 10-118: where the geometry is found, for any shapely. *)
Theorem T27_find_geometry : forall G (sh : Shapely G) other,
  find_image_geometry sh true [("imageGeometry", JObj [("type", JStr "Point"); ("coordinates", JArr [JNum 5.1; JNum 10.2])])]
    = bind (shape sh (JObj [("type", JStr "Point"); ("coordinates", JArr [JNum 5.1; JNum 10.2])])) (fun g => Ok (Some g)) /\
  find_image_geometry sh true [("imageBBox", unit_box)] = Ok (Some (box sh (0, 0, 1, 1)%R)) /\
  find_image_geometry sh true [("bounds_imcoords", unit_box)] = Ok (Some (box sh (0, 0, 1, 1)%R)) /\
  find_image_geometry sh true [("geom_imcoords", test_shell)] = bind (polygon sh test_shell) (fun g => Ok (Some g)) /\
  find_image_geometry sh true [("detection", JObj [("type", JStr "Polygon"); ("pixelCoordinates", JArr [test_shell])])]
    = bind (shape sh (JObj [("type", JStr "Polygon"); ("coordinates", JArr [test_shell])])) (fun g => Ok (Some g)) /\
  find_image_geometry sh true [("other", other)] = Ok None.
Proof. intros G sh other. repeat split; reflexivity. Qed.
Print Assumptions T27_find_geometry.

(** Lines 120-160 [test_update_all]: the five properties afterwards, for any shapely that knows the
    bounds and the coordinates of a box. *)
Theorem T28_update_all : forall G (sh : Shapely G) ring, let g := box sh (3, 4, 5, 6)%R in
  bounds sh g = (3, 4, 5, 6)%R -> mapping_type sh g = "Polygon" -> mapping_coordinates sh g = Ok (JArr [ring]) -> is_polygon sh g = true ->
  let old := JObj [("type", JStr "Polygon"); ("coordinates", JArr [test_shell])] in
  update_existing_image_geometries sh true
    [("detection", JObj [("type", JStr "Polygon"); ("pixelCoordinates", JArr [test_shell])]); ("geom_imcoords", test_shell);
     ("bounds_imcoords", unit_box); ("imageBBox", unit_box); ("imageGeometry", old)] g
  = ([("detection", JObj [("type", JStr "Polygon"); ("pixelCoordinates", JArr [ring])]); ("geom_imcoords", ring);
      ("bounds_imcoords", JArr [JNum 3; JNum 4; JNum 5; JNum 6]); ("imageBBox", JArr [JNum 3; JNum 4; JNum 5; JNum 6]); ("imageGeometry", geojson sh g)], Ok tt).
Proof.
  intros G sh ring g B T C P old. unfold update_existing_image_geometries, set_image_geometry, set_image_bbox.
  cbn [has_key get String.eqb Ascii.eqb Bool.eqb put update_geom_imcoords]. rewrite B. unfold update_geom_imcoords, has_key.
  cbn [get String.eqb Ascii.eqb Bool.eqb put]. rewrite C, P. cbn [bind item]. unfold update_detection_property, update_detection. 
  cbn. rewrite T, C. cbn. reflexivity.
Qed.
Print Assumptions T28_update_all.

(** *** test_feature_index.py: the nine features, with boxes for geometries, and a query that finds the
    boxes that intersect. *)
Definition index_features : list Feature :=
  flat_map (fun r => map (fun c => mkFeature [] [("imageBBox", JArr [JNum c; JNum r; JNum (c + 5); JNum (r + 5)])]) [0; 10; 20]%R) [0; 10; 20]%R.
Definition box_shapely : Shapely Box :=
  mkShapely _ (fun _ => Err ValueError) (fun _ => Err ValueError) (fun b => b) json_of_box (fun _ => "Polygon") (fun b => Ok (json_of_box b)) (fun _ => true) (fun b => b).
Definition apart (a b : Box) : Prop :=
  let '(x0, y0, x1, y1) := a in let '(u0, v0, u1, v1) := b in (x1 < u0 \/ u1 < x0 \/ y1 < v0 \/ v1 < y0)%R.
(** What STRtree.query with predicate "intersects" promises of boxes. *)
Definition finds_boxes (query : list (option Box) -> Box -> list nat) : Prop :=
  forall tree b, NoDup (query tree b) /\ forall i, In i (query tree b) <-> exists c, nth_error tree i = Some (Some c) /\ ~ apart b c.
Lemma map_res_all {A B} (f : A -> res B) (l : list A) (P : A -> B) : Forall (fun x => f x = Ok (P x)) l -> map_res f l = Ok (map P l).
Proof. induction 1 as [|x l H _ IH]; [reflexivity|]. cbn. rewrite H. cbn. rewrite IH. reflexivity. Qed.

(** Lines 22-28 [test_find_partial_intersects] and [test_find_contains]. *)
Theorem T29_feature_index : forall query, finds_boxes query ->
  exists ix, make_index box_shapely index_features true (Some true) = Ok ix /\
    (exists found, find_intersects query ix (-1, -1, 11, 11)%R = Ok found /\ List.length found = 4%nat) /\
    (exists found, find_intersects query ix (-1, -1, 31, 31)%R = Ok found /\ List.length found = 9%nat).
Proof.
  intros query Q. eexists. split; [reflexivity|].
  assert (S : forall b want, (forall i, In i (query (map (fun f => match get (properties f) "imageBBox" with
                Some v => match box_of box_shapely v with Ok g => Some g | Err _ => None end | None => None end) index_features) b) <-> In i want) -> NoDup want ->
              (forall i, In i want -> (i < 9)%nat) ->
              exists found, find_intersects query (mkIndex true index_features (map (fun f => match get (properties f) "imageBBox" with
                Some v => match box_of box_shapely v with Ok g => Some g | Err _ => None end | None => None end) index_features)) b = Ok found /\ List.length found = List.length want).
  { intros b want E N L. unfold find_intersects, select. cbn [tree features].
    set (l := query _ b) in *. destruct (Q (map (fun f => match get (properties f) "imageBBox" with
                Some v => match box_of box_shapely v with Ok g => Some g | Err _ => None end | None => None end) index_features) b) as [Nd _]. fold l in Nd.
    rewrite (map_res_all _ l (fun i => nth i index_features (mkFeature [] []))).
    - eexists. split; [reflexivity|]. rewrite map_length. apply Nat.le_antisymm; apply NoDup_incl_length; try assumption; intros i I; apply E; exact I.
    - apply Forall_forall. intros i I. apply E, L in I. rewrite (nth_error_nth' index_features (mkFeature [] [])) by exact I. reflexivity. }
  split.
  - refine (S _ [0; 1; 3; 4]%nat _ _ _).
    + intros i. rewrite (proj2 (Q _ _) i). cbn [index_features flat_map map app properties get String.eqb Ascii.eqb Bool.eqb box_of item nth_error bind number].
      split.
      * intros (c & N & A). do 9 (destruct i as [|i]; [cbn in N; injection N as <-; cbn in A; cbn; first [tauto|exfalso; apply A; lra]|]). destruct i; discriminate.
      * intros I. cbn in I. decompose [or] I; subst; try contradiction; (eexists; split; [reflexivity|cbn; lra]).
    + repeat constructor; cbn; lia.
    + cbn. lia.
  - refine (S _ (seq 0 9) _ _ _).
    + intros i. rewrite (proj2 (Q _ _) i). cbn [index_features flat_map map app properties get String.eqb Ascii.eqb Bool.eqb box_of item nth_error bind number].
      split.
      * intros (c & N & A). apply in_seq. do 9 (destruct i as [|i]; [lia|]). destruct i; discriminate.
      * intros I. apply in_seq in I. do 9 (destruct i as [|i]; [eexists; split; [reflexivity|cbn; lra]|]). lia.
    + apply seq_NoDup.
    + intros i I. apply in_seq in I. lia.
Qed.
Print Assumptions T29_feature_index.

(** *** test_geolocation.py: what the tests say of the structure, for any grid *)
(** Lines 41-129 and 185-212: a bounding box leaves the geometry alone; points, lines, rings, polygons,
    multipoints and outlines become geometries of the type the test wants, vertex by vertex. *)
Theorem T30_geolocation : forall (rnd : R -> R) (at_ : Vertex -> Geodetic) a b c d,
  let grid := fun v => Ok (at_ v) in let put v := position rnd (radians_coordinate_to_degrees (at_ v)) in
  geolocate_image_geometry rnd grid (Point (Some a)) = Ok (gj "Point" (put a)) /\
  geolocate_image_geometry rnd grid (LineString [a; b; c]) = Ok (gj "LineString" (JArr [put a; put b; put c])) /\
  geolocate_image_geometry rnd grid (LinearRing [a; b; c; a]) = Ok (gj "LineString" (JArr [put a; put b; put c; put a])) /\
  geolocate_image_geometry rnd grid (Polygon [a; b; c; d; a] []) = Ok (gj "Polygon" (JArr [JArr [put a; put b; put c; put d; put a]])) /\
  geolocate_image_geometry rnd grid (MultiPoint [Some a; Some b]) = Ok (gj "MultiPoint" (JArr [put a; put b])).
Proof. intros. repeat split; reflexivity. Qed.
Print Assumptions T30_geolocation.

(** *** test_sar_complex_imageop.py *)
Local Open Scope R_scope.
(** Lines 66-69 [test_linear_mapping_all_same]. *)
Theorem T31_linear_mapping : linear_mapping (repeat 42 9) = Ok (repeat 0.5 9).
Proof.
  unfold linear_mapping. cbn [repeat np_min np_max bind fold_left]. 
  assert (Mi : Rmin 42 42 = 42) by (apply Rmin_left; lra). assert (Ma : Rmax 42 42 = 42) by (apply Rmax_left; lra). rewrite !Mi, !Ma.
  destruct (Req_EM_T 42 42) as [_|N]; [|now contradiction N]. cbn [map]. replace (1 / 2) with 0.5 by lra. reflexivity.
Qed.
Print Assumptions T31_linear_mapping.
(** Lines 71-80 [test_pixel_lut]: phase 256 of 256 is a full turn. *)
Theorem T32_pixel_lut : forall k, (k < 9)%nat ->
  pixel_to_complex (Some "AMP8I_PHS8I"%string) (Some (map INR (seq 10 9))) (INR k, 256) = Ok (INR (10 + k), 0).
Proof.
  intros k K. unfold pixel_to_complex. cbn [String.eqb Ascii.eqb Bool.eqb orb fst snd].
  rewrite INR_IZR_INZ, Rfloor_IZR, Nat2Z.id. rewrite nth_error_map, (nth_error_nth' _ 0%nat) by (rewrite seq_length; lia).
  rewrite seq_nth by lia. cbn [option_map bind]. replace (2 * PI * (256 / 256)) with (2 * PI) by lra. rewrite cos_2PI, sin_2PI.
  f_equal. f_equal; ring.
Qed.
Print Assumptions T32_pixel_lut.

(** *** test_map_tileset_wmq.py with spherical Mercator for pyproj's EPSG:3857 *)
Lemma exp_squared x lo hi u v : 0 <= lo -> lo <= exp (x / 2) <= hi -> u <= lo * lo -> hi * hi <= v -> u <= exp x <= v.
Proof.
  intros L [A B] U V. replace x with (x / 2 + x / 2) by lra. rewrite exp_plus. split.
  - apply Rle_trans with (1 := U). apply Rmult_le_compat; assumption.
  - apply Rle_trans with (2 := V). apply Rmult_le_compat; try assumption; apply Rlt_le, exp_pos.
Qed.
Lemma exp_small x : 0 <= x < 1 -> 1 + x <= exp x <= / (1 - x).
Proof.
  intros H. split; [apply exp_ineq1_le|]. replace (exp x) with (/ exp (- x)) by (rewrite exp_Ropp; apply Rinv_inv).
  apply Rinv_le_contravar; [lra|]. pose proof (exp_ineq1_le (- x)). lra.
Qed.
Lemma sin_1975 : 0.19621 <= sin 0.1975 <= 0.19622.
Proof.
  destruct (sin_bound 0.1975 0) as [A B]; [lra|pose proof (pi_bounds); lra|].
  unfold sin_approx, sin_term in A, B. cbn [Nat.mul Nat.add sum_f_R0 fact pow INR] in A, B. split; lra.
Qed.
Lemma cos_1975 : 0.98049 <= cos 0.1975 <= 0.98057.
Proof.
  destruct (cos_bound 0.1975 0) as [A B]; [pose proof pi_bounds; lra|pose proof (pi_bounds); lra|].
  unfold cos_approx, cos_term in A, B. cbn [Nat.mul Nat.add sum_f_R0 fact pow INR] in A, B. split; lra.
Qed.
Lemma exp_66 : (14987667/10000000) <= exp (66 * PI / 512) <= (14997929/10000000).
Proof.
  pose proof pi_bounds as P.
  assert (E8 : (10015819/10000000) <= exp (66 * PI / 512 / 256) <= (10015845/10000000)).
  { destruct (exp_small (66 * PI / 512 / 256)) as [A B]; [lra|]. split; [lra|]. apply Rle_trans with (1 := B).
    apply Rle_trans with (/ (1 - 66 * (3141593/1000000) / 512 / 256)); [apply Rinv_le_contravar; lra|lra]. }
  assert (E7 : (10031663/10000000) <= exp (66 * PI / 512 / 128) <= (10031716/10000000)).
  { apply (exp_squared _ (10015819/10000000) (10015845/10000000)); [lra| |lra|lra]. replace (66 * PI / 512 / 128 / 2) with (66 * PI / 512 / 256) by lra; exact E8. }
  assert (E6 : (10063426/10000000) <= exp (66 * PI / 512 / 64) <= (10063533/10000000)).
  { apply (exp_squared _ (10031663/10000000) (10031716/10000000)); [lra| |lra|lra]. replace (66 * PI / 512 / 64 / 2) with (66 * PI / 512 / 128) by lra; exact E7. }
  assert (E5 : (10127254/10000000) <= exp (66 * PI / 512 / 32) <= (10127470/10000000)).
  { apply (exp_squared _ (10063426/10000000) (10063533/10000000)); [lra| |lra|lra]. replace (66 * PI / 512 / 32 / 2) with (66 * PI / 512 / 64) by lra; exact E6. }
  assert (E4 : (10256127/10000000) <= exp (66 * PI / 512 / 16) <= (10256565/10000000)).
  { apply (exp_squared _ (10127254/10000000) (10127470/10000000)); [lra| |lra|lra]. replace (66 * PI / 512 / 16 / 2) with (66 * PI / 512 / 32) by lra; exact E5. }
  assert (E3 : (10518814/10000000) <= exp (66 * PI / 512 / 8) <= (10519713/10000000)).
  { apply (exp_squared _ (10256127/10000000) (10256565/10000000)); [lra| |lra|lra]. replace (66 * PI / 512 / 8 / 2) with (66 * PI / 512 / 16) by lra; exact E4. }
  assert (E2 : (11064544/10000000) <= exp (66 * PI / 512 / 4) <= (11066437/10000000)).
  { apply (exp_squared _ (10518814/10000000) (10519713/10000000)); [lra| |lra|lra]. replace (66 * PI / 512 / 4 / 2) with (66 * PI / 512 / 8) by lra; exact E3. }
  assert (E1 : (12242413/10000000) <= exp (66 * PI / 512 / 2) <= (12246603/10000000)).
  { apply (exp_squared _ (11064544/10000000) (11066437/10000000)); [lra| |lra|lra]. replace (66 * PI / 512 / 2 / 2) with (66 * PI / 512 / 4) by lra; exact E2. }
  assert (E0 : (14987667/10000000) <= exp (66 * PI / 512) <= (14997929/10000000)).
  { apply (exp_squared _ (12242413/10000000) (12246603/10000000)); [lra|exact E1|lra|lra]. }
  exact E0.
Qed.
Lemma exp_67 : (15079321/10000000) <= exp (67 * PI / 512) <= (15090044/10000000).
Proof.
  pose proof pi_bounds as P.
  assert (E8 : (10016058/10000000) <= exp (67 * PI / 512 / 256) <= (10016085/10000000)).
  { destruct (exp_small (67 * PI / 512 / 256)) as [A B]; [lra|]. split; [lra|]. apply Rle_trans with (1 := B).
    apply Rle_trans with (/ (1 - 67 * (3141593/1000000) / 512 / 256)); [apply Rinv_le_contravar; lra|lra]. }
  assert (E7 : (10032141/10000000) <= exp (67 * PI / 512 / 128) <= (10032196/10000000)).
  { apply (exp_squared _ (10016058/10000000) (10016085/10000000)); [lra| |lra|lra]. replace (67 * PI / 512 / 128 / 2) with (67 * PI / 512 / 256) by lra; exact E8. }
  assert (E6 : (10064385/10000000) <= exp (67 * PI / 512 / 64) <= (10064496/10000000)).
  { apply (exp_squared _ (10032141/10000000) (10032196/10000000)); [lra| |lra|lra]. replace (67 * PI / 512 / 64 / 2) with (67 * PI / 512 / 128) by lra; exact E7. }
  assert (E5 : (10129184/10000000) <= exp (67 * PI / 512 / 32) <= (10129408/10000000)).
  { apply (exp_squared _ (10064385/10000000) (10064496/10000000)); [lra| |lra|lra]. replace (67 * PI / 512 / 32 / 2) with (67 * PI / 512 / 64) by lra; exact E6. }
  assert (E4 : (10260036/10000000) <= exp (67 * PI / 512 / 16) <= (10260491/10000000)).
  { apply (exp_squared _ (10129184/10000000) (10129408/10000000)); [lra| |lra|lra]. replace (67 * PI / 512 / 16 / 2) with (67 * PI / 512 / 32) by lra; exact E5. }
  assert (E3 : (10526833/10000000) <= exp (67 * PI / 512 / 8) <= (10527768/10000000)).
  { apply (exp_squared _ (10260036/10000000) (10260491/10000000)); [lra| |lra|lra]. replace (67 * PI / 512 / 8 / 2) with (67 * PI / 512 / 16) by lra; exact E4. }
  assert (E2 : (11081421/10000000) <= exp (67 * PI / 512 / 4) <= (11083390/10000000)).
  { apply (exp_squared _ (10526833/10000000) (10527768/10000000)); [lra| |lra|lra]. replace (67 * PI / 512 / 4 / 2) with (67 * PI / 512 / 8) by lra; exact E3. }
  assert (E1 : (12279789/10000000) <= exp (67 * PI / 512 / 2) <= (12284154/10000000)).
  { apply (exp_squared _ (11081421/10000000) (11083390/10000000)); [lra| |lra|lra]. replace (67 * PI / 512 / 2 / 2) with (67 * PI / 512 / 4) by lra; exact E2. }
  assert (E0 : (15079321/10000000) <= exp (67 * PI / 512) <= (15090044/10000000)).
  { apply (exp_squared _ (12279789/10000000) (12284154/10000000)); [lra|exact E1|lra|lra]. }
  exact E0.
Qed.

Lemma tan_half : 1.5002 <= tan (PI / 4 + 0.395 / 2) <= 1.5005.
Proof.
  pose proof sin_1975 as S. pose proof cos_1975 as C. pose proof pi_bounds as P.
  assert (C4 : cos (PI / 4) <> 0) by (rewrite cos_PI4; pose proof sqrt_lt_R0 2 ltac:(lra); apply Rgt_not_eq; apply Rlt_gt, Rdiv_lt_0_compat; lra).
  replace (0.395 / 2) with 0.1975 by lra.
  assert (T : 0.20009 <= tan 0.1975 <= 0.20013).
  { unfold tan. split; [apply Rmult_le_reg_r with (cos 0.1975)|apply Rmult_le_reg_r with (cos 0.1975)]; try lra;
      unfold Rdiv; rewrite Rmult_assoc, Rinv_l, Rmult_1_r by lra; nra. }
  rewrite tan_plus; try (rewrite ?tan_PI4; lra).
  - rewrite tan_PI4. split; [apply Rmult_le_reg_r with (1 - 1 * tan 0.1975)|apply Rmult_le_reg_r with (1 - 1 * tan 0.1975)]; try lra;
      unfold Rdiv; rewrite Rmult_assoc, Rinv_l, Rmult_1_r by lra; lra.
  - apply Rgt_not_eq, cos_gt_0; lra.
Qed.

(** Lines 47-55 [test_get_tile_for_location]. *)
Theorem T33_tile_for_location : forall id size, In (id, size) [("WebMercatorQuad", 256%Z); ("WebMercatorQuadx2", 512%Z)]%string ->
  let a := 6378137 in exists ts, get_for_id a id = Some ts /\
  mt_id (get_tile_for_location (mercator a) (inverse_mercator a) ts (mkGeo 2.113 0.395 0) 10) = mkTileId 10 578 856 /\
  mt_size (get_tile_for_location (mercator a) (inverse_mercator a) ts (mkGeo 2.113 0.395 0) 10) = (size, size).
Proof.
  intros id size I a. exists (make_tile_set a size id). split; [cbn in I; decompose [or] I; try contradiction; injection H as <- <- || injection H0 as <- <-; reflexivity|].
  assert (Sz : (0 < size)%Z) by (cbn in I; decompose [or] I; try contradiction; injection H as <- <- || injection H0 as <- <-; lia).
  pose proof (tile_for_location_strips a (mercator a) (inverse_mercator a) size id (mkGeo 2.113 0.395 0) 10 _ _ ltac:(unfold a; lra) Sz eq_refl) as (M & X & Y).
  pose proof pi_bounds as P. pose proof exp_66 as E66. pose proof exp_67 as E67. pose proof tan_half as T.
  set (t := get_tile_for_location _ _ _ _ _) in *. split.
  - assert (W : powerRZ 2 10 = 1024) by (rewrite pow2_Z by lia; reflexivity).
    assert (Xs : in_strip a 10 856 (a * 2.113)) by (unfold in_strip, grid_line, tile_side, a; rewrite W; cbn [Z.add Pos.add Pos.succ]; split; lra).
    assert (L : 66 * PI / 512 < ln (tan (PI / 4 + 0.395 / 2)) <= 67 * PI / 512).
    { split.
      - rewrite <- (ln_exp (66 * PI / 512)). apply ln_increasing; [apply exp_pos|lra].
      - rewrite <- (ln_exp (67 * PI / 512)). apply Rlt_le, ln_increasing; lra. }
    assert (Ys : in_strip a 10 578 (a * ln (tan (PI / 4 + 0.395 / 2)))) by (unfold in_strip, grid_line, tile_side, a; rewrite W; cbn [Z.add Pos.add Pos.succ]; split; lra).
    cbn [fst snd mercator latitude longitude] in X, Y.
    destruct (mt_id t) as [z r c]. cbn [tile_matrix tile_row tile_col] in *. subst z. f_equal.
    + apply (in_strip_unique a 10 r 578 _ ltac:(unfold a; lra) Y Ys).
    + apply (in_strip_unique a 10 c 856 _ ltac:(unfold a; lra) X Xs).
  - unfold t. rewrite tile_for_location_is_get_tile. reflexivity.
Qed.
Print Assumptions T33_tile_for_location.
