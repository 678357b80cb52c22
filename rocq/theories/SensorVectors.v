(** The project's own unit tests of the optical sensor models, run on the model (see TestVectors).
    Source: test/aws/osml/photogrammetry.  Tolerances are those of the tests. *)
Require Import ZArith Reals String List Lra Lia.
Require Import Verif.Base Verif.Vec Verif.SensorBase Verif.RpcModel Verif.RsmModel Verif.TransformModel.
Require Import Verif.CoordProofs Verif.TransformSpec Verif.TransformProps.
Import ListNotations.
Local Open Scope R_scope.

(** *** test_gdal_sensor_model.py *)

Lemma affine_axes g0 a g3 e : a <> 0 -> e <> 0 ->
  exists m, make_affine [g0; a; 0; g3; 0; e] None = Ok m /\
    (forall i em o, affine_image_to_world m i em o
       = let g := mkGeo (radians (a * ix i + g0)) (radians (e * iy i + g3)) 0 in Ok (match em with None => g | Some f => f g end)) /\
    (forall g, affine_world_to_image m g = Ok (mkImage ((degrees (longitude g) - g0) / a) ((degrees (latitude g) - g3) / e))).
Proof.
  intros A E. unfold make_affine, mat_inv.
  set (m := mkMat (mkVec a 0 g0) (mkVec 0 e g3) (mkVec 0 0 1)).
  assert (D : det m = a * e). { unfold det, vdot, vcross, m. cbn [row1 row2 row3 vx vy vz]. ring. }
  destruct (Req_EM_T (det m) 0) as [Z|Z].
  - rewrite D in Z. apply Rmult_integral in Z. tauto.
  - eexists. split; [reflexivity|]. split.
    + intros i em o. unfold affine_image_to_world, mulv, vdot, m. cbn [image_to_wgs84 transform vx vy vz row1 row2 row3].
      replace (a * ix i + 0 * iy i + g0 * 1) with (a * ix i + g0) by ring.
      replace (0 * ix i + e * iy i + g3 * 1) with (e * iy i + g3) by ring. reflexivity.
    + intros g. unfold affine_world_to_image. cbn [image_to_wgs84 inv_transform]. rewrite D. f_equal.
      unfold mulv, vscale, adjugate, vdot, vcross, m. cbn [vx vy vz row1 row2 row3]. f_equal; field; auto.
Qed.

(** Lines 12-23 [test_gdal_sensor_model]. *)
Theorem T10_affine :
  exists m, make_affine [0; 0.002; 0; 0; 0; 0.003] None = Ok m /\
    forall o, affine_image_to_world m (mkImage 200 300) (Some (constant_elevation 42)) o = Ok (mkGeo (radians 0.4) (radians 0.9) 42) /\
    affine_world_to_image m (mkGeo (radians 0.4) (radians 0.9) 42) = Ok (mkImage 200 300).
Proof.
  destruct (affine_axes 0 0.002 0 0.003) as (m & E & F & G); try lra. exists m. split; [exact E|]. intros o. rewrite F, G.
  cbn [ix iy longitude latitude]. rewrite !degrees_radians. cbv zeta. unfold constant_elevation. cbn [longitude latitude].
  split; f_equal; f_equal; try (f_equal; lra); lra.
Qed.
Print Assumptions T10_affine.

(** Lines 25-65 [test_gdal_sensor_model_real_example] within the tolerance 1e-6, and lines 67-81
    [test_gdal_non_invertable_transform]. *)
Theorem T11_affine_real_example :
  make_affine [-43.681640625; 0; 0; -22.939453125; 0; 0] None = Err ValueError /\
  exists m, make_affine [-43.681640625; 4.487879136029412e-06; 0; -22.939453125; 0; -4.487879136029412e-06] None = Ok m /\
    affine_image_to_world m (mkImage 0 0) None None = Ok (mkGeo (radians (-43.681640625)) (radians (-22.939453125)) 0) /\
    affine_world_to_image m (mkGeo (radians (-43.681640625)) (radians (-22.939453125)) 0) = Ok (mkImage 0 0) /\
    (exists x, affine_image_to_world m (mkImage 19584 0) None None = Ok (mkGeo (radians x) (radians (-22.939453125)) 0) /\
       Rabs (x - -43.59375) <= 1 / 1000000) /\
    (exists x, affine_world_to_image m (mkGeo (radians (-43.59375)) (radians (-22.939453125)) 0) = Ok (mkImage x 0) /\
       Rabs (x - 19584) <= 1 / 1000000).
Proof.
  split.
  - unfold make_affine, mat_inv. match goal with |- context [Req_EM_T ?d 0] => destruct (Req_EM_T d 0) as [D|D] end; [reflexivity|].
    exfalso. apply D. unfold det, vdot, vcross. cbn [vx vy vz row1 row2 row3]. ring.
  - destruct (affine_axes (-43.681640625) 4.487879136029412e-06 (-22.939453125) (-4.487879136029412e-06)) as (m & E & F & G); try lra.
    exists m. split; [exact E|]. rewrite !F, !G. cbv zeta. cbn [ix iy longitude latitude]. rewrite !degrees_radians. repeat split.
    + f_equal. f_equal; f_equal; lra.
    + f_equal. f_equal; lra.
    + exists (4.487879136029412e-06 * 19584 + -43.681640625). split; [|apply Rabs_le; lra]. f_equal. f_equal. f_equal. lra.
    + exists ((-43.59375 - -43.681640625) / 4.487879136029412e-06). split; [|apply Rabs_le; lra]. f_equal. f_equal. lra.
Qed.
Print Assumptions T11_affine_real_example.

(** *** test_projective_sensor_model.py, test_chipped_image_sensor_model.py and
    test_composite_sensor_model.py; np.linalg.lstsq is any solver that delivers a least squares
    solution. *)

Definition corners (w e s n : R) : list Geodetic :=
  [mkGeo (radians w) (radians s) 0; mkGeo (radians w) (radians n) 0; mkGeo (radians e) (radians n) 0; mkGeo (radians e) (radians s) 0].

Lemma radians_lt x y : x < y -> radians x < radians y.
Proof. intros H. unfold radians. pose proof PI_RGT_0. apply Rmult_lt_compat_r; [lra|]. apply Rmult_lt_compat_r; lra. Qed.

(** test_projective_sensor_model.py:8-42 [test_projective_sensor_model]. *)
Theorem T12_projective :
  forall lstsq t, least_squares lstsq ->
  make_projective_sensor lstsq (corners 10 20 10 30) [mkImage 0 200; mkImage 0 0; mkImage 100 0; mkImage 100 200] = Ok t ->
  forall o,
  projective_image_to_world t (mkImage 50 0) (Some (constant_elevation 42)) o = Ok (mkGeo (radians 15) (radians 30) 42) /\
  projective_image_to_world t (mkImage 50 0) None o = Ok (mkGeo (radians 15) (radians 30) 0) /\
  projective_world_to_image t (mkGeo (radians 15) (radians 30) 0) = Ok (mkImage 50 0) /\
  projective_image_to_world t (mkImage 50 100) None o = Ok (mkGeo (radians 15) (radians 20) 0).
Proof.
  intros lstsq t LS E o. pose proof PI_RGT_0 as P.
  assert (T : t = mkProjective (-100) (1800 / PI) 0 300 0 (-1800 / PI) 0 0).
  { apply (C28_recovers_transform lstsq _ _ _ _ (radians 10, radians 10) (radians 10, radians 30) (radians 20, radians 30) (radians 20, radians 10)
             (0, 200) (0, 0) (100, 0) (100, 200) LS) with (2 := E).
    - repeat (apply Forall2_cons || apply Forall2_nil); unfold takes, denominator, radians; cbn; repeat split; try lra; field; lra.
    - left; reflexivity.
    - right; left; reflexivity.
    - right; right; left; reflexivity.
    - right; right; right; left; reflexivity.
    - assert (radians 10 < radians 20 < radians 30) as [A B] by (split; apply radians_lt; lra).
      unfold general_position, collinear; cbn [fst snd]; repeat split; intros C; nra.
    - unfold general_position, collinear; cbn [fst snd]; repeat split; lra. }
  subst t. unfold projective_image_to_world, projective_world_to_image, inverse1, forward1, constant_elevation.
  cbn [a0 a1 a2 b0 b1 b2 c0 c1 ix iy fst snd longitude latitude]. unfold radians.
  repeat split; f_equal; f_equal; field; lra.
Qed.
Print Assumptions T12_projective.

(** test_chipped_image_sensor_model.py:13-29 [FakeSensorModel]. *)
Definition fake_sensor : Sensor :=
  mkSensor (fun i em _ => let w := mkGeo (ix i) (iy i) 0 in Ok (match em with None => w | Some f => f w end))
           (fun g => Ok (mkImage (longitude g) (latitude g))).

(** test_chipped_image_sensor_model.py:33-61 [test_chipped_image_sensor_model]. *)
Theorem T13_chipped :
  forall lstsq m, least_squares lstsq ->
  make_chipped lstsq [mkImage 10 10; mkImage 10 20; mkImage 20 20; mkImage 20 10] [mkImage 0 0; mkImage 0 5; mkImage 5 5; mkImage 5 0] fake_sensor = Ok m ->
  forall o,
  chipped_image_to_world m (mkImage 2 2) (Some (constant_elevation 42)) o = Ok (mkGeo 14 14 42) /\
  chipped_image_to_world m (mkImage 2 2) None o = Ok (mkGeo 14 14 0) /\
  chipped_world_to_image m (mkGeo 14 14 0) = Ok (mkImage 2 2).
Proof.
  intros lstsq m LS E o. unfold make_chipped in E. destruct (estimate _ _ _) as [t|] eqn:T; [|discriminate]. injection E as <-.
  assert (H : t = mkProjective (-5) (1 / 2) 0 (-5) 0 (1 / 2) 0 0).
  { apply (C28_recovers_transform lstsq _ _ _ _ (10, 10) (10, 20) (20, 20) (20, 10) (0, 0) (0, 5) (5, 5) (5, 0) LS) with (2 := T).
    - repeat (apply Forall2_cons || apply Forall2_nil); unfold takes, denominator; cbn; repeat split; lra.
    - left; reflexivity.
    - right; left; reflexivity.
    - right; right; left; reflexivity.
    - right; right; right; left; reflexivity.
    - unfold general_position, collinear; cbn [fst snd]; repeat split; lra.
    - unfold general_position, collinear; cbn [fst snd]; repeat split; lra. }
  subst t. unfold chipped_image_to_world, chipped_world_to_image, inverse1, forward1, fake_sensor, constant_elevation.
  cbn [a0 a1 a2 b0 b1 b2 c0 c1 ix iy fst snd longitude latitude full_sensor full_to_chip image_to_world world_to_image bind].
  repeat split; f_equal; f_equal; lra.
Qed.
Print Assumptions T13_chipped.

(** test_composite_sensor_model.py:13-56: the answers are those of the precise model.  That each
    model is asked once is read off [composite_run]; the mocks take any argument. *)
Definition mock_sensor (g : Geodetic) (i : Image) : Sensor := mkSensor (fun _ _ _ => Ok g) (fun _ => Ok i).
Theorem T14_composite :
  let m := mkComposite (mock_sensor (mkGeo 0.1 0.2 0.3) (mkImage 10 11)) (mock_sensor (mkGeo 0.11 0.21 0.31) (mkImage 10.1 11.1)) in
  composite_image_to_world m (mkImage 1 2) None None = Ok (mkGeo 0.11 0.21 0.31) /\
  composite_world_to_image m (mkGeo 0.1 0.2 0.3) = Ok (mkImage 10.1 11.1).
Proof. split; reflexivity. Qed.
Print Assumptions T14_composite.

(** *** test_rpc_sensor_model.py *)

(** Lines 17-47 [test_rpc_polynomial_eval]. *)
Theorem T15_rpc_polynomial :
  rpc_evaluate [42; 1; 2; 3; 0; 0; 0; 0; 0; 0; 0; 0; 100; 0; 0; 0; 0; 0; 0; 0] 10 20 30 = Ok (42 + 10 + 40 + 90 + 100 * 10 * 20 * 20).
Proof. unfold rpc_evaluate. cbn [List.length Nat.ltb Nat.leb nth]. f_equal. lra. Qed.
Print Assumptions T15_rpc_polynomial.

Definition unit_coefficient (k : nat) : list R := map (fun i => if Nat.eqb i k then 1 else 0) (seq 0 20).

(** Lines 49-57 and 81-205 [test_rpc_sensor_model]: world to image. *)
Theorem T16_rpc_identity :
  rpc_world_to_image (mkRPC 0 0 0 0 0 1 1 1 1 1 (unit_coefficient 2) (unit_coefficient 0) (unit_coefficient 1) (unit_coefficient 0))
    (mkGeo (radians 5) (radians 3) 42) = Ok (mkImage 5 3).
Proof.
  unfold rpc_world_to_image, rpc_evaluate, unit_coefficient.
  cbn [map seq Nat.eqb List.length Nat.ltb Nat.leb nth bind line_off samp_off lat_off long_off height_off line_scale samp_scale lat_scale long_scale
       height_scale line_num_poly line_den_poly samp_num_poly samp_den_poly longitude latitude elevation].
  rewrite !degrees_radians. f_equal. f_equal; field.
Qed.
Print Assumptions T16_rpc_identity.

(** Lines 70-79 and 207-330 [test_rpc_sensor_model_realworld]: world to image within a pixel. *)
Definition realworld_rpc : RPC :=
  mkRPC 6927 6163 27.2197 56.3653 (-9) 6927 6164 0.0716 0.0727 3234
    [1.705526e7; 4.409292e6; -9.999999e8; 6.029603e7; 1.088467e7; -4.977649e5; 4.250149e6; -3.148845e5; 3.036354e7; -4.262737e5; -4.712155e4;
     2.661822e3; -2.302774e5; -2.449691e3; 6.146575e4; -3.203005e5; -5.104847e3; 2.006485e4; -1.298168e4; 1.209481e3]
    [8.729689e8; -9.618288e6; -2.651987e7; -1.550378e7; 2.022340e5; 1.237328e5; 3.224245e5; -4.625686e4; 2.798973e5; 8.154434e4; -1.103364e3;
     -2.370318e1; 6.489792e1; -4.167367e2; -3.597079e1; 8.761778e1; -1.010529e3; 2.035283e2; -1.575816e3; -1.471550e2]
    [-2.204284e7; 9.999999e8; 6.250255e6; -1.342506e8; -3.107754e7; -1.101236e7; 5.563589e6; -1.101821e7; -1.698152e5; 1.657516e6; 1.773720e5;
     -5.277249e4; 3.404038e5; 1.492974e4; 2.384937e5; 1.576174e3; -3.092346e4; 8.307716e4; -8.854074e4; -4.077669e3]
    [8.560069e8; -9.431402e6; -2.600458e7; -1.520253e7; 1.983045e5; 1.213286e5; 3.161597e5; -4.535808e4; 2.744588e5; 7.995991e4; -1.081926e3;
     -2.324262e1; 6.363693e1; -4.086394e2; -3.527186e1; 8.591534e1; -9.908944e2; 1.995737e2; -1.545197e3; -1.442957e2].
Theorem T17_rpc_realworld :
  exists i, rpc_world_to_image realworld_rpc (mkGeo (radians 56.305048278781925) (radians 27.15809908265984) (-9)) = Ok i /\
    Rabs (ix i - 0) <= 1 /\ Rabs (iy i - 13854) <= 1.
Proof.
  unfold rpc_world_to_image, rpc_evaluate, realworld_rpc.
  cbn [List.length Nat.ltb Nat.leb nth bind line_off samp_off lat_off long_off height_off line_scale samp_scale lat_scale long_scale
       height_scale line_num_poly line_den_poly samp_num_poly samp_den_poly longitude latitude elevation].
  rewrite !degrees_radians. eexists. split; [reflexivity|]. cbn [ix iy].
  split; apply Rabs_le; lra.
Qed.
Print Assumptions T17_rpc_realworld.

(** *** test_replacement_sensor_model.py *)

(** Lines 67-92 and 211-234 [test_rsmpolynomial_eval], [test_invalid_rsmpolynomial_exception]. *)
Theorem T18_rsm_polynomial :
  (exists p, make_poly 2 1 1 [1; 1; 0; 2; 0; 0; 3; 0; 0; 0; 0; 1] = Ok p /\
     poly_evaluate p (mkVec 10 20 30) = 1 + 10 + 40 + 90 + 100 * 20 * 30) /\
  make_poly 2 1 1 [1; 1; 0; 2; 0; 0; 3; 0; 0; 0; 0] = Err ValueError.
Proof.
  split; [|reflexivity]. eexists. split; [reflexivity|]. unfold poly_evaluate, term.
  cbn [max_x max_y max_z coefs Nat.add seq fold_left fst snd nth vx vy vz]. ring.
Qed.
Print Assumptions T18_rsm_polynomial.

(** Lines 94-114 and 192-209 [test_rsmloworderpolynomial_eval], [test_invalid_rsmloworderpolynomial_exception]. *)
Theorem T19_rsm_low_order :
  (exists c, make_low_order [42; 1; 1; 1; 0; 0; 2; 0; 0; 3] = Ok c /\ low_order_evaluate c (mkVec 1 2 3) = 42 + 1 + 2 + 3 + 6 + 27) /\
  make_low_order [42; 1; 1; 1; 0; 0; 2; 0; 0] = Err ValueError.
Proof.
  split; [|reflexivity]. eexists. split; [reflexivity|]. unfold low_order_evaluate. cbn [nth vx vy vz]. ring.
Qed.
Print Assumptions T19_rsm_low_order.

(** Lines 240-262 [build_geodetic_ground_domain]. *)
Definition test_vertices : list Vec :=
  [mkVec (radians 0) (radians 10) (-100); mkVec (radians 0) (radians 0) (-100); mkVec (radians 10) (radians 10) (-100);
   mkVec (radians 10) (radians 0) (-100); mkVec (radians 0) (radians 10) 100; mkVec (radians 0) (radians 0) 100;
   mkVec (radians 10) (radians 10) 100; mkVec (radians 10) (radians 0) 100].

(** Lines 28-51, 147-164 and 166-190: the domain, its coordinates and the two refusals. *)
Theorem T20_rsm_ground_domain :
  forall (to_geocentric : Geodetic -> Vec) (to_geodetic : Vec -> Geodetic) (origin : option Vec) (vertices : list Vec),
  (exists d, make_ground_domain to_geodetic GEODETIC test_vertices None None (Some (mkVec (radians 5) (radians 5) 0)) = Ok d /\
     List.length (gd_vertices d) = 8%nat /\ gd_default_elevation d = 0 /\
     gd_bbox d = Some (TileModel.mkBounds (radians 0) (radians 0) (radians 10) (radians 10)) /\
     geodetic_to_ground_domain_coordinate to_geocentric d (mkGeo (radians 5) (radians 5) 50) = Ok (mkVec (radians 5) (radians 5) 50) /\
     ground_domain_coordinate_to_geodetic to_geodetic d (mkVec (radians 5) (radians 5) 50) = Ok (mkGeo (radians 5) (radians 5) 50)) /\
  make_ground_domain to_geodetic GEODETIC (tl test_vertices) None None None = Err ValueError /\
  (List.length vertices = 8%nat -> make_ground_domain to_geodetic RECTANGULAR vertices origin None None = Err ValueError).
Proof.
  intros to_geocentric to_geodetic origin vertices. split; [|split; [reflexivity|]].
  2: { intros L. unfold make_ground_domain. rewrite L. cbn. now destruct origin. }
  assert (A : radians 0 < radians 10) by (apply radians_lt; lra).
  eexists. split; [reflexivity|]. cbn [gd_vertices gd_default_elevation gd_bbox].
  split; [reflexivity|]. split; [reflexivity|]. split; [|split; reflexivity].
  unfold geo_of. cbn [fold_left extend_bbox TileModel.b_min_x TileModel.b_min_y TileModel.b_max_x TileModel.b_max_y longitude latitude vx vy].
  set (x := radians 0) in *. set (y := radians 10) in *. clearbody x y.
  assert (M1 : Rmin x x = x) by (apply Rmin_left; lra). assert (M2 : Rmin x y = x) by (apply Rmin_left; lra).
  assert (M3 : Rmin y x = x) by (apply Rmin_right; lra). assert (M4 : Rmax x x = x) by (apply Rmax_left; lra).
  assert (M5 : Rmax x y = y) by (apply Rmax_right; lra). assert (M6 : Rmax y x = y) by (apply Rmax_left; lra).
  assert (M7 : Rmax y y = y) by (apply Rmax_left; lra).
  repeat rewrite ?M1, ?M2, ?M3, ?M4, ?M5, ?M6, ?M7.
  reflexivity.
Qed.
Print Assumptions T20_rsm_ground_domain.

(** Lines 290-304 [build_polynomial_sensor_model] with the given scale of the two numerators. *)
Definition test_rsm (d : GroundDomain) (k : R) : RsmPoly :=
  mkRsmPoly d 0 0 0 0 0 1 1 1 1 1
    (mkPoly 1 1 1 [0; 0; k; 0; 0; 0; 0; 0]) (mkPoly 0 0 0 [1]) (mkPoly 1 1 1 [0; k; 0; 0; 0; 0; 0; 0]) (mkPoly 0 0 0 [1]).
Lemma test_rsm_pixel to_geocentric d k g : gd_form d = GEODETIC ->
  rsm_world_to_image to_geocentric (test_rsm d k) g = Ok (mkImage (k * longitude g) (k * latitude g)).
Proof.
  intros F. unfold rsm_world_to_image, geodetic_to_ground_domain_coordinate, test_rsm. cbn [rp_domain]. rewrite F. cbn [bind].
  unfold ground_domain_to_image, normalize_world_coordinate, denormalize_image_coordinate, normalize, denormalize, poly_evaluate, term, vec_of.
  cbn [max_x max_y max_z coefs Nat.add seq fold_left fst snd nth vx vy vz row_off column_off x_off y_off z_off row_scale column_scale
       x_scale y_scale z_scale row_num row_den column_num column_den ix iy].
  f_equal. f_equal; field.
Qed.

(** Lines 116-121 [test_polynomial_sensor_model] and 134-142, 306-346
    [test_segmented_polynomial_sensor_model]: world to image. *)
Theorem T21_rsm_sensors :
  forall to_geocentric to_geodetic minimize d,
  make_ground_domain to_geodetic GEODETIC test_vertices None None (Some (mkVec (radians 5) (radians 5) 0)) = Ok d ->
  rsm_world_to_image to_geocentric (test_rsm d 100) (mkGeo (radians 5) (radians 5) 0) = Ok (mkImage (100 * radians 5) (100 * radians 5)) /\
  sectioned_world_to_image to_geocentric
    (mkSectioned d (mkImageDomain 0 2048 10 2038) 2 1 1024 1024 [0; 0; 1; 0; 0; 0; 0; 0; 0; 0] [0; 1; 0; 0; 0; 0; 0; 0; 0; 0]
       [[rsm_sensor to_geocentric minimize (test_rsm d 1)]; [rsm_sensor to_geocentric minimize (test_rsm d 1)]])
    (mkGeo (radians 5) (radians 5) 42) = Ok (mkImage (radians 5) (radians 5)).
Proof.
  intros to_geocentric to_geodetic minimize d E. assert (F : gd_form d = GEODETIC) by (injection E as <-; reflexivity).
  split; [now rewrite test_rsm_pixel|].
  unfold sectioned_world_to_image, geodetic_to_ground_domain_coordinate. cbn [sc_domain]. rewrite F. cbn [bind].
  unfold low_order_evaluate, vec_of, get_section_index, section_at.
  cbn [row_polynomial column_polynomial nth vx vy vz ix iy sc_image min_row min_column row_section_size column_section_size column_sections row_sections
       section_models fst snd longitude latitude].
  pose proof PI_RGT_0. pose proof PI_4. assert (0 <= radians 5 <= 1) by (unfold radians; lra).
  match goal with |- context [clamp_index (Rfloor ?x) 1] => assert (X : Rfloor x = (-1)%Z) end.
  { unfold Rfloor. rewrite <- (tech_up _ 0); [reflexivity| |]; lra. }
  rewrite X.
  match goal with |- context [clamp_index (Rfloor ?x) 2] => assert (Y : Rfloor x = 0%Z) end.
  { unfold Rfloor. rewrite <- (tech_up _ 1); [reflexivity| |]; lra. }
  rewrite Y. change (clamp_index (-1) 1) with 0%Z. change (clamp_index 0 2) with 0%Z.
  unfold py_nth. cbn [List.length Z.of_nat Z.ltb Z.compare Z.to_nat nth_error bind rsm_sensor world_to_image].
  rewrite test_rsm_pixel by exact F. cbn [longitude latitude]. f_equal. f_equal; ring.
Qed.
Print Assumptions T21_rsm_sensors.
