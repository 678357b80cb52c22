(** The project's own unit tests, run on the model.
    Each theorem restates tests of test/aws/osml/photogrammetry and cites them.  The tests compare
    binary64 results with a tolerance where the model has exact reals; the theorems give the exact
    value where the test's expectation is exact, and the test's tolerance otherwise.  Mocks of the
    tests become functions; whatever a test leaves to a library (str of a float, np.linalg.lstsq,
    scipy's minimize) is any function that meets the stated contract. *)
Require Import ZArith Reals String List Lra Lia SpecFloat.
Require Import Verif.Base Verif.Vec Verif.Text Verif.CoordSpec Verif.CoordProofs Verif.SensorBase Verif.RpcModel Verif.RsmModel
  Verif.TransformModel.
Require Verif.DemModel Verif.CoordFloatModel Verif.DmsFloatModel.
Import ListNotations.
Local Open Scope R_scope.

(** *** test_coordinates.py *)

(** The binary64 number nearest to num / den, for the decimal literals of the tests. *)
Definition literal (num den : Z) : spec_float := CoordFloatModel.f_div (CoordFloatModel.f_of_Z num) (CoordFloatModel.f_of_Z den).
Definition degrees_literal (num den : Z) : spec_float := CoordFloatModel.f_radians (literal num den).

(** test_coordinates.py:124-130 [test_geodeticworldcoordinate_to_dms_string], bit by bit. *)
Theorem T01_dms_string :
  DmsFloatModel.f_to_dms_string DmsFloatModel.f_numpy_round6 (degrees_literal (-1215125) 10000) (degrees_literal (-105125) 10000)
    = Ok "103045S1213045W"%string /\
  DmsFloatModel.f_to_dms_string DmsFloatModel.f_numpy_round6 (degrees_literal 15125 10000) (degrees_literal 15125 10000)
    = Ok "013045N0013045E"%string.
Proof. split; vm_compute; reflexivity. Qed.
Print Assumptions T01_dms_string.

Lemma split_fields angle D M S : (0 <= D)%Z -> (0 <= M < 60)%Z -> (0 <= S < 60)%Z -> written_fields M S = (M, S) ->
  Rabs (degrees angle) = dms_value D M S ->
  dms_d (split_dms angle) = D /\ dms_m (split_dms angle) = M /\ dms_s (split_dms angle) = S.
Proof.
  intros HD HM HS W E. rewrite degrees_in in E. destruct (whole_seconds angle D M S HD HM HS E) as [A B].
  rewrite W in B. apply pair_equal_spec in B. tauto.
Qed.

Lemma append_empty s : (s ++ "")%string = s.
Proof. induction s as [|a s IH]; [reflexivity|]. cbn. now rewrite IH. Qed.

(** test_coordinates.py:132-141 [test_geodeticworldcoordinate_format]; "show" is str of a float. *)
Theorem T02_format :
  forall (show : R -> string) (w := mkGeo (radians 115.25) (radians (-45.5)) 3),
  format_coord show w "%ld%lm%ls%lH %od%om%os%oH %E" = ("453000S 1151500E " ++ show 3)%string /\
  format_coord show w "%ld %lm %ls %lh %od %om %os %oh %E" = ("45 30 00 s 115 15 00 e " ++ show 3)%string /\
  format_coord show w "%l %o %E" = (show 45.5 ++ " " ++ show 115.25 ++ " " ++ show 3)%string /\
  format_coord show w "%L %O %E" = (show (radians (-45.5)) ++ " " ++ show (radians 115.25) ++ " " ++ show 3)%string /\
  format_coord show w "" = ("453000S 1151500E " ++ show 3)%string /\
  format_coord show w "100%% unexpected usage: %X" = "100% unexpected usage: "%string.
Proof.
  intros show w.
  destruct (split_fields (latitude w) 45 30 0) as (A1 & A2 & A3); try lia; try reflexivity.
  { unfold w. cbn [latitude]. rewrite degrees_radians. unfold dms_value. rewrite Rabs_left; lra. }
  destruct (split_fields (longitude w) 115 15 0) as (B1 & B2 & B3); try lia; try reflexivity.
  { unfold w. cbn [longitude]. rewrite degrees_radians. unfold dms_value. rewrite Rabs_right; lra. }
  assert (A4 : dms_neg (split_dms (latitude w)) = true).
  { apply split_neg. unfold w. cbn [latitude]. rewrite degrees_radians. lra. }
  assert (B4 : dms_neg (split_dms (longitude w)) = false).
  { destruct (dms_neg (split_dms (longitude w))) eqn:E; [|reflexivity]. apply split_neg in E. unfold w in E. cbn [longitude] in E.
    rewrite degrees_radians in E. lra. }
  assert (A5 : dms_abs (split_dms (latitude w)) = 45.5).
  { rewrite split_abs. unfold w. cbn [latitude]. rewrite degrees_radians. rewrite Rabs_left; lra. }
  assert (B5 : dms_abs (split_dms (longitude w)) = 115.25).
  { rewrite split_abs. unfold w. cbn [longitude]. rewrite degrees_radians. rewrite Rabs_right; lra. }
  assert (E : elevation w = 3) by reflexivity.
  assert (LA : latitude w = radians (-45.5)) by reflexivity. assert (LO : longitude w = radians 115.25) by reflexivity.
  clearbody w.
  unfold format_coord, default_spec, format_loop. cbn -[fmt0 split_dms]. unfold lat_part, lon_part, part_text. cbn -[fmt0 split_dms].
  rewrite A1, A2, A3, A4, A5, B1, B2, B3, B4, B5, E.
  change (fmt0 2 45) with "45"%string. change (fmt0 2 30) with "30"%string. change (fmt0 2 0) with "00"%string.
  change (fmt0 3 115) with "115"%string. change (fmt0 2 15) with "15"%string.
  rewrite LA, LO. rewrite !append_empty. repeat split.
Qed.
Print Assumptions T02_format.

(** *** test_generic_dem_tile_set.py and test_srtm_dem_tile_set.py *)

Lemma cell_of k x : IZR k <= x < IZR k + 1 -> in_cell k (radians x).
Proof. intros H. unfold in_cell. now rewrite <- degrees_in, degrees_radians. Qed.

(** test_generic_dem_tile_set.py:8-24. *)
Theorem T03_generic_tile_ids :
  forall show : R -> string,
  generic_find_tile_id show generic_default (mkGeo (radians 142) (radians 3) 0) = Some "142e/03n.dt2"%string /\
  generic_find_tile_id show (mkGeneric "dted/%oh%od/%lh%ld.dt2" (-90) 90 (-180) 180)
    (mkGeo (radians (-43.648601)) (radians (-22.999056)) 42) = Some "dted/w044/s23.dt2"%string.
Proof.
  intros show. split.
  - rewrite (generic_default_id show (mkGeo (radians 142) (radians 3) 0) 142 3); try lia; [reflexivity| |]; apply cell_of; cbn; lra.
  - unfold generic_find_tile_id. cbn [longitude latitude].
    rewrite (proj1 (cell_floor (-44) (radians (-43.648601)))) by (apply cell_of; lra).
    rewrite (proj1 (cell_floor (-23) (radians (-22.999056)))) by (apply cell_of; lra).
    cbn [g_max_lat g_min_lat g_max_lon g_min_lon g_format].
    destruct (Rlt_dec 90 (-23)); [lra|]. destruct (Rlt_dec (-23) (-90)); [lra|].
    destruct (Rlt_dec 180 (-44)); [lra|]. destruct (Rlt_dec (-44) (-180)); [lra|].
    f_equal. pose proof (split_whole (-44)) as A. pose proof (split_whole (-23)) as B. cbv zeta in A, B.
    set (w := mkGeo (radians (IZR (-44))) (radians (IZR (-23))) 0).
    change (radians (IZR (-44))) with (longitude w) in A. change (radians (IZR (-23))) with (latitude w) in B. clearbody w.
    unfold format_coord, format_loop. cbn -[fmt0 split_dms]. unfold lat_part, lon_part, part_text. cbn -[fmt0 split_dms].
    destruct A as (A1 & A2), B as (B1 & B2). rewrite A1, A2, B1, B2. reflexivity.
Qed.
Print Assumptions T03_generic_tile_ids.

(** test_srtm_dem_tile_set.py:8-33. *)
Theorem T04_srtm_tile_ids :
  srtm_find_tile_id (mkSrtm "" "1arc_v3" ".tif") (mkGeo (radians 142) (radians 3) 0) = Some "n03_e142_1arc_v3.tif"%string /\
  srtm_find_tile_id (mkSrtm "" "1arc_v3" ".tif") (mkGeo (radians (-2)) (radians (-11)) 0) = Some "s11_w002_1arc_v3.tif"%string /\
  srtm_find_tile_id (mkSrtm "CustomPrefix_" "?" ".foo") (mkGeo (radians 0) (radians 0) 0) = Some "CustomPrefix_n00_e000_?.foo"%string.
Proof.
  assert (C : forall k, in_cell k (radians (IZR k))) by (intros k; apply cell_of; lra).
  split; [rewrite (srtm_id _ _ 142 3); [reflexivity|apply (C 142%Z)|apply (C 3%Z)]|].
  split; [rewrite (srtm_id _ _ (-2) (-11)); [reflexivity|apply (C (-2)%Z)|apply (C (-11)%Z)]|].
  rewrite (srtm_id _ _ 0 0); [reflexivity|apply (C 0%Z)|apply (C 0%Z)].
Qed.
Print Assumptions T04_srtm_tile_ids.

(** *** test_digital_elevation_model.py and test_elevation_model.py *)

Definition test_elevation_data : DemModel.raster := [[0; 1; 4]; [1; 2; 3]; [2; 3; 4]].
Definition test_summary : DemModel.Summary := DemModel.mkSummary 0 4 (Some (-1)) 30.

Lemma floor_is v k : IZR k <= v < IZR k + 1 -> Rfloor v = k.
Proof. intros H. unfold Rfloor. rewrite <- (tech_up v (k + 1)); rewrite ?plus_IZR; lra || lia. Qed.
Lemma cell3 v : 0 <= v < 1 -> DemModel.cell 3 v = 0%nat.
Proof.
  intros H. unfold DemModel.cell, DemModel.clamp. cbn [Nat.sub INR]. rewrite Rmin_left by lra. rewrite Rmax_right by lra.
  rewrite (floor_is v 0) by lra. reflexivity.
Qed.
Lemma cell3' v : 1 <= v < 2 -> DemModel.cell 3 v = 1%nat.
Proof.
  intros H. unfold DemModel.cell, DemModel.clamp. cbn [Nat.sub INR]. rewrite Rmin_left by lra. rewrite Rmax_right by lra.
  rewrite (floor_is v 1) by lra. reflexivity.
Qed.
Lemma cell3_low v : v < 0 -> DemModel.cell 3 v = 0%nat.
Proof.
  intros H. unfold DemModel.cell, DemModel.clamp. cbn [Nat.sub INR]. rewrite Rmin_left by lra. rewrite Rmax_left by lra.
  rewrite (floor_is 0 0) by lra. reflexivity.
Qed.
Lemma cell3_high v : 2 <= v -> DemModel.cell 3 v = 1%nat.
Proof.
  intros H. unfold DemModel.cell, DemModel.clamp. cbn [Nat.sub INR]. rewrite Rmin_right by lra. rewrite Rmax_right by lra.
  rewrite (floor_is (1 + 1) 2) by lra. reflexivity.
Qed.
Lemma clamp3 v : 0 <= v <= 2 -> DemModel.clamp 3 v = v.
Proof. intros H. unfold DemModel.clamp. cbn [Nat.sub INR]. rewrite Rmin_left by lra. now rewrite Rmax_right by lra. Qed.
Lemma clamp3_low v : v < 0 -> DemModel.clamp 3 v = 0.
Proof. intros H. unfold DemModel.clamp. cbn [Nat.sub INR]. rewrite Rmin_left by lra. now rewrite Rmax_left by lra. Qed.
Lemma clamp3_high v : 2 <= v -> DemModel.clamp 3 v = 2.
Proof. intros H. unfold DemModel.clamp. cbn [Nat.sub INR]. rewrite Rmin_right by lra. rewrite Rmax_right by lra. lra. Qed.

Ltac at3 := unfold DemModel.bilinear, test_elevation_data;
  rewrite ?cell3_low, ?cell3_high, ?cell3', ?cell3, ?clamp3, ?clamp3_low, ?clamp3_high by lra; cbn; lra.

(** test_digital_elevation_model.py:11-66 [test_dem_interpolation]: the nine values. *)
Theorem T05_dem_interpolation :
  let f := DemModel.bilinear test_elevation_data 3 3 in
  f (-1) (-1) = 0 /\ f 0.5 0.5 = 1 /\ f 1 0.5 = 1.5 /\ f 1 1.5 = 2.5 /\ f 1.5 0 = 2.5 /\ f 1.5 1.5 = 3 /\ f 2.5 2.5 = 4 /\
  f 0 0 = 0 /\ f 2 2 = 4.
Proof. cbv zeta. repeat split; at3. Qed.
Print Assumptions T05_dem_interpolation.

(** test_digital_elevation_model.py:60-66: longitude and latitude stay, and nine calls load the tile
    once; the mocked sensor model may be any function. *)
Theorem T06_dem_cache :
  forall (sensor : DemModel.sensor) (ws : list Geodetic) (w : Geodetic),
  let find := fun _ : Geodetic => Some "MockN00E000V0.tif"%string in
  let get := fun (_ : nat) (_ : string) => Ok (DemModel.mkLoaded (Some test_elevation_data) (Some sensor) (Some test_summary)) in
  let r := DemModel.run find get (DemModel.new_cache 10) (map DemModel.SetElevation (w :: ws)) in
  DemModel.loads (fst r) = ["MockN00E000V0.tif"%string] /\
  snd r = map (fun w => DemModel.Located (Ok (mkGeo (longitude w) (latitude w)
                 (DemModel.bilinear test_elevation_data 3 3 (fst (sensor w)) (snd (sensor w)))))) (w :: ws).
Proof.
  intros sensor ws w find get r.
  set (g := DemModel.mkGrid (Some (DemModel.bilinear test_elevation_data 3 3)) (Some sensor) (Some test_summary)).
  set (c := DemModel.mkCache 10 [("MockN00E000V0.tif"%string, g)] ["MockN00E000V0.tif"%string]).
  assert (S : forall w, DemModel.step find get c (DemModel.SetElevation w)
    = (c, DemModel.Located (Ok (mkGeo (longitude w) (latitude w) (DemModel.bilinear test_elevation_data 3 3 (fst (sensor w)) (snd (sensor w))))))).
  { intros v. cbn. now destruct (sensor v). }
  assert (L : forall l, DemModel.run find get c (map DemModel.SetElevation l)
    = (c, map (fun w => DemModel.Located (Ok (mkGeo (longitude w) (latitude w)
                 (DemModel.bilinear test_elevation_data 3 3 (fst (sensor w)) (snd (sensor w)))))) l)).
  { induction l as [|v l IH]; [reflexivity|]. cbn [map DemModel.run]. rewrite S, IH. reflexivity. }
  unfold r. cbn [map DemModel.run].
  replace (DemModel.step find get (DemModel.new_cache 10) (DemModel.SetElevation w)) with
    (c, DemModel.Located (Ok (mkGeo (longitude w) (latitude w) (DemModel.bilinear test_elevation_data 3 3 (fst (sensor w)) (snd (sensor w)))))).
  2: { cbn. now destruct (sensor w). }
  rewrite L. split; reflexivity.
Qed.
Print Assumptions T06_dem_cache.

(** test_digital_elevation_model.py:68-86 and 88-107: no tile known, no tile loaded. *)
Theorem T07_dem_no_tile :
  forall (get : nat -> string -> res DemModel.Tile) (w : Geodetic),
  DemModel.set_elevation (fun _ => None) get (DemModel.new_cache 10) w = (DemModel.new_cache 10, Ok w) /\
  let r := DemModel.set_elevation (fun _ => Some "MockN00E000V0.tif"%string)
             (fun _ _ => Ok (DemModel.mkLoaded None None None)) (DemModel.new_cache 10) w in
  snd r = Ok w /\ List.length (DemModel.loads (fst r)) = 1%nat.
Proof. intros get w. split; [reflexivity|]. split; reflexivity. Qed.
Print Assumptions T07_dem_no_tile.

(** test_elevation_model.py:7-19. *)
Theorem T08_constant_elevation : constant_elevation 10 (mkGeo 1 2 0) = mkGeo 1 2 10.
Proof. reflexivity. Qed.

(** *** test_math_utils.py:9-17; np.allclose has relative tolerance 1e-5 and absolute tolerance 1e-8. *)
Definition allclose (x y : R) : Prop := Rabs (x - y) <= 1 / 100000000 + Rabs y / 100000.
Theorem T09_equilateral_triangle :
  Forall2 (fun p q => allclose (fst p) (fst q) /\ allclose (snd p) (snd q)) (equilateral_triangle (10, 10) 5)
    [(10, 12.886751345948129); (7.5, 8.556624327025936); (12.5, 8.556624327025936)].
Proof.
  assert (S : 1.7320508 <= sqrt 3 <= 1.7320509).
  { split; [rewrite <- (sqrt_square 1.7320508) by lra | rewrite <- (sqrt_square 1.7320509) by lra]; apply sqrt_le_1_alt; lra. }
  unfold equilateral_triangle, allclose. cbn [map fst snd].
  apply Forall2_cons; [|apply Forall2_cons; [|apply Forall2_cons; [|apply Forall2_nil]]]; cbn [fst snd]; split; apply Rabs_le;
    rewrite ?(Rabs_right 12.886751345948129), ?(Rabs_right 8.556624327025936), ?(Rabs_right 10), ?(Rabs_right 7.5), ?(Rabs_right 12.5) by lra; lra.
Qed.
Print Assumptions T09_equilateral_triangle.
