(** The project's integration tests of the sensor model factory, run on the model with the metadata
    files of test/data (ExampleTres.v).
    Decimals are read exactly.  np.linalg.lstsq is any function that succeeds; pyproj's transformation
    is any function that gives what it gives for the one point of the test. *)
Require Import ZArith Reals String List Lra Lia Bool QArith Qreals.
Require Import Verif.Base Verif.Vec Verif.CoordProofs Verif.SensorBase Verif.RpcModel Verif.RsmModel Verif.TransformModel Verif.SchemaCheck
  Verif.TreModel Verif.BuilderModel Verif.ExampleTres.
Import ListNotations.
Local Open Scope string_scope.

(** int() and float() of the texts in the files; [num] is the value of a decimal. *)
Definition int_text (s : string) : option Z :=
  match read_decimal s with Some (m, 0%Z) => Some m | _ => None end.
Definition conv (num : Decimal -> R) : Conv := mkConv int_text (fun s => option_map num (read_decimal s)).

(** *** test_xmltre_utils.py *)
Definition tre_of (tres : Element) (n : string) : Element :=
  match find_named tres "tre" n with Some e => e | None => El "" [] [] end.
(** Lines 21-30 and 63-70. *)
Theorem T34_tre_fields : forall num, let tre := tre_of tres_ms_rpc00b "PIAIMC" in
  get_tre_field_value tre "SENSMODE" to_str = Ok "PUSHBROOM" /\
  get_tre_field_value tre "GENERATION" (to_int (conv num)) = Ok 1%Z /\
  get_tre_field_value tre "MEANGSD" (to_float (conv num)) = Ok (num (861, -1)%Z) /\
  get_tre_field_value tre "SENSMODE_IN" (to_int (conv num)) = Err ValueError.
Proof. intros num tre. repeat split; vm_compute; reflexivity. Qed.
Print Assumptions T34_tre_fields.
(** Lines 32-61 and 81-87. *)
Theorem T35_rpc_coefficients : forall num, let tre := tre_of tres_ms_rpc00b "RPC00B" in
  parse_rpc_coefficients (conv num) tre "LINE_NUM_COEFF" = Ok (map num
    [(-1219784, -8); (-1779120, -7); (-1197441, -6); (-1962294, -8); (-2400754, -9); (-1266875, -10); (-2864113, -10); (-9364538, -10);
     (9023196, -9); (-6372315, -12); (-3353148, -12); (-9192860, -12); (1114250, -12); (-9605230, -12); (-4486697, -11); (-2875052, -10);
     (-6413221, -11); (-1735976, -12); (-2999621, -14); (-1049317, -12)])%Z /\
  parse_rpc_coefficients (conv num) tre "LINE_NUM_COEFF_INVALID" = Err ValueError.
Proof. intros num tre. split; vm_compute; reflexivity. Qed.
Print Assumptions T35_rpc_coefficients.

(** *** test_sensor_model_factory.py *)
(** What the factory builds, with the parts that the tests look at. *)
Inductive Built :=
| Affine | Projected (p : Projective) | Rpc (m : RPC) | Rsm (m : RsmBuilt) | Sar
| Chipped (full chip : list Image) (m : Built) | Composite (approximate precision : Built).
Section Factory.
Variable num : Decimal -> R.
Variable to_geodetic : Vec -> Geodetic.
(** The eight numbers that np.linalg.lstsq finds. *)
Variable solution : list (list R) -> list R -> nat -> R.
Definition lstsq (a : list (list R)) (b : list R) : res (list R) := Ok (map (solution a b) [0; 1; 2; 3; 4; 5; 6; 7]%nat).
Definition builders : Builders Built :=
  mkBuilders Built (fun _ _ => Ok (Some Affine)) (fun l => bind (gcp_build lstsq l) (fun o => Ok (option_map Projected o)))
    (fun e => bind (rsm_build (conv num) to_geodetic true e) (fun o => Ok (option_map Rsm o)))
    (fun e => bind (rpc_build (conv num) true e) (fun o => Ok (option_map Rpc o)))
    (fun e w h => bind (projective_build (conv num) lstsq e (IZR w) (IZR h)) (fun o => Ok (option_map Projected o)))
    (fun _ => Some Sar) (fun _ => Some Sar) (fun full chip m => Ok (Chipped full chip m)) Composite.
Definition build (width height : Z) (tres : option Element) (gcps : option (list Gcp)) (types : option (list SensorType)) : res (option Built) :=
  factory_build Built builders (conv num) (fun _ => Err ValueError) (fun _ => "")
    (mkMetadata width height tres None None None gcps types).
(** The RPC model of a file. *)
Definition rpc_of (tres : Element) : RPC :=
  match rpc_build (conv num) true tres with Ok (Some m) => m | _ => mkRPC 0 0 0 0 0 0 0 0 0 0 [] [] [] [] end.
(** The RSM model of a file. *)
Definition rsm_of (tres : Element) : option RsmPoly :=
  match rsm_build (conv num) to_geodetic true tres with Ok (Some (OnePolynomial m)) => Some m | _ => None end.


(** Lines 25-40, 61-77, 79-98, 142-150 and 152-168: what is built from the files and from four control points. *)
Theorem T36_factory :
  match build 2048 2048 (Some tres_ms_rpc00b) None None with
  | Ok (Some (Composite (Projected _) (Rpc m))) => m = rpc_of tres_ms_rpc00b
  | _ => False
  end /\
  match build 2048 2048 (Some tres_ms_rpc00b) None (Some [TAFFINE; TPROJECTIVE]) with
  | Ok (Some (Projected _)) => True
  | _ => False
  end /\
  match build 512 512 (Some tres_rpc00b_ichipb) None (Some [TPROJECTIVE; TRPC]) with
  | Ok (Some (Chipped full chip (Rpc m))) => m = rpc_of tres_rpc00b_ichipb /\
      full = map (fun p => mkImage (num (fst p)) (num (snd p))) [((14336500, -3), (14336500, -3)); ((14847500, -3), (14336500, -3));
                                                                ((14336500, -3), (14847500, -3)); ((14847500, -3), (14847500, -3))]%Z /\
      chip = map (fun p => mkImage (num (fst p)) (num (snd p))) [((500, -3), (500, -3)); ((511500, -3), (500, -3));
                                                                ((500, -3), (511500, -3)); ((511500, -3), (511500, -3))]%Z
  | _ => False
  end /\
  match build 2048 2048 (Some tres_cscrna) None None with
  | Ok (Some (Projected _)) => True
  | _ => False
  end /\
  (forall a b c d, exists p, build 2048 2048 None (Some [a; b; c; d]) None = Ok (Some (Projected p))).
Proof.
  split; [vm_compute; reflexivity|]. split; [vm_compute; exact I|]. split; [vm_compute; repeat split|].
  split; [vm_compute; exact I|]. intros a b c d. eexists. reflexivity.
Qed.

(** The unit vectors of the RSM file. *)
Definition rsm_units : Mat :=
  mkMat (mkVec (num (890233155120443, -15)%Z) (num (-455502457571841, -15)%Z) (num (-156226448294838, -17)%Z))
        (mkVec (num (250327118321895, -15)%Z) (num (486367706250322, -15)%Z) (num (837127701219746, -15)%Z))
        (mkVec (num (-380553890213932, -15)%Z) (num (-745629911861651, -15)%Z) (num (547005275276417, -15)%Z)).
Definition rsm_origin : Vec := mkVec (num (-242965895449297, -8)%Z) (num (-476049894293300, -8)%Z) (num (346898407315533, -8)%Z).
Lemma rsm_ground : det rsm_units <> 0%R ->
  exists g, build_rsm_ground_domain (conv num) to_geodetic (tre_of tres_rsm "RSMIDA") = Ok g /\
    gd_form g = RECTANGULAR /\ gd_origin g = Some rsm_origin /\ option_map fst (gd_units g) = Some rsm_units.
Proof.
  intros N. unfold build_rsm_ground_domain.
  replace (get_tre_field_value (tre_of tres_rsm "RSMIDA") "GRNDD" to_str) with (@Ok string "R") by (vm_compute; reflexivity).
  cbn [bind]. change (domain_form "R") with (Ok RECTANGULAR). cbn [bind].
  match goal with |- context [RsmModel.map_res ?f vertex_numbers] => set (V := RsmModel.map_res f vertex_numbers);
    let t := eval vm_compute in V in assert (E : V = t) by (vm_compute; reflexivity) end.
  rewrite E. cbn [bind]. clear E V.
  repeat match goal with |- context [vec_fields ?c ?t ?x ?y ?z] =>
    let v := eval vm_compute in (vec_fields c t x y z) in
    replace (vec_fields c t x y z) with v by (vm_compute; reflexivity); cbn [bind fst snd] end.
  replace (reference_point (conv num) (tre_of tres_rsm "RSMIDA")) with (@Ok (option Vec) None) by (vm_compute; reflexivity).
  cbn [bind]. unfold make_ground_domain. cbn [List.length Nat.eqb negb]. unfold mat_inv.
  change (det _) with (det rsm_units) at 1. destruct (Req_EM_T (det rsm_units) 0) as [C|C]; [contradiction|].
  cbn [bind RsmModel.map_res from_ground_domain]. eexists. split; [reflexivity|]. repeat split.
Qed.
(** Lines 100-115: the model of the RSM file: its polynomials, and of its ground domain what world_to_image reads. *)
Definition rsm_poly (ground : GroundDomain) : option RsmPoly :=
  match build_rsm_polynomial_sensor_model (conv num) ground (tre_of tres_rsm "RSMPCA") with Ok m => Some (section_poly m) | Err _ => None end.
Theorem T37_rsm_factory : det rsm_units <> 0%R ->
  match build 2048 2048 (Some tres_rsm) None (Some [TRSM]) with
  | Ok (Some (Rsm (OnePolynomial m))) => rsm_of tres_rsm = Some m /\ rsm_poly (rp_domain m) = Some m /\
      gd_form (rp_domain m) = RECTANGULAR /\
      gd_origin (rp_domain m) = Some rsm_origin /\
      option_map fst (gd_units (rp_domain m)) = Some rsm_units
  | _ => False
  end.
Proof.
  intros N. destruct (rsm_ground N) as [g [G [F [O U]]]].
  assert (I : build_rsm_image_domain (conv num) (tre_of tres_rsm "RSMIDA") = Ok (mkImageDomain 0 9292 0 9122)) by (vm_compute; reflexivity).
  destruct (rsm_poly g) as [m|] eqn:P.
  2: { exfalso. cbv -[IZR] in P. discriminate P. }
  assert (D : rp_domain m = g) by (vm_compute in P; injection P as <-; reflexivity).
  assert (E : rsm_build (conv num) to_geodetic true tres_rsm = Ok (Some (OnePolynomial m))).
  { unfold rsm_build. change (find_named tres_rsm "tre" "RSMIDA") with (Some (tre_of tres_rsm "RSMIDA")).
    change (findall_named tres_rsm "tre" "RSMPCA") with [tre_of tres_rsm "RSMPCA"].
    unfold build_rsm_context. rewrite G, I. cbn [bind fst RsmModel.map_res]. revert P. unfold rsm_poly.
    destruct (build_rsm_polynomial_sensor_model _ _ _) as [x|]; [|discriminate]. intros [= <-]. reflexivity. }
  assert (B : build 2048 2048 (Some tres_rsm) None (Some [TRSM]) = Ok (Some (Rsm (OnePolynomial m)))).
  { unfold build, factory_build, models_from_tres. cbn -[rsm_build tres_rsm]. rewrite E. reflexivity. }
  rewrite B. unfold rsm_of. rewrite E, D, P. auto.
Qed.
End Factory.
Print Assumptions T36_factory.
Print Assumptions T37_rsm_factory.

(** The exact value of a decimal. *)
Definition dec (d : Decimal) : R := if (snd d <? 0)%Z then (IZR (fst d) / IZR (10 ^ (- snd d)))%R else IZR (fst d * 10 ^ snd d).
Ltac decimals := repeat match goal with |- context [dec (?m, ?e)] =>
  let v := eval vm_compute in (if (e <? 0)%Z then true else false) in
  match v with
  | true => let k := eval vm_compute in (10 ^ (- e))%Z in change (dec (m, e)) with (IZR m / IZR k)%R
  | false => let k := eval vm_compute in (m * 10 ^ e)%Z in change (dec (m, e)) with (IZR k)
  end end.
Definition ms_rpc (num : Decimal -> R) : RPC := Eval vm_compute in rpc_of num tres_ms_rpc00b.
Lemma ms_rpc_file num : rpc_of num tres_ms_rpc00b = ms_rpc num.
Proof. vm_compute. reflexivity. Qed.
Definition chip_rpc (num : Decimal -> R) : RPC := Eval vm_compute in rpc_of num tres_rpc00b_ichipb.
Lemma chip_rpc_file num : rpc_of num tres_rpc00b_ichipb = chip_rpc num.
Proof. vm_compute. reflexivity. Qed.
Definition rsm_file (num : Decimal -> R) (ground : GroundDomain) : RsmPoly :=
  Eval vm_compute in match rsm_poly num ground with Some m => m | None => mkRsmPoly ground R0 R0 R0 R0 R0 R0 R0 R0 R0 R0 (mkPoly 0 0 0 []) (mkPoly 0 0 0 []) (mkPoly 0 0 0 []) (mkPoly 0 0 0 []) end.
Lemma rsm_file_poly num ground : rsm_poly num ground = Some (rsm_file num ground).
Proof. vm_compute. reflexivity. Qed.

(** Closed rational expressions over the reals, computed in Q. *)
Local Open Scope R_scope.
Inductive Rat := Num (z : Z) | Plus (a b : Rat) | Minus (a b : Rat) | Times (a b : Rat) | Over (a b : Rat) | Neg (a : Rat).
Fixpoint real (e : Rat) : R :=
  match e with
  | Num z => IZR z | Plus a b => real a + real b | Minus a b => real a - real b | Times a b => real a * real b
  | Over a b => real a / real b | Neg a => - real a
  end.
(** [None]: a division by zero. *)
Fixpoint rational (e : Rat) : option Q :=
  match e with
  | Num z => Some (inject_Z z)
  | Plus a b => match rational a, rational b with Some p, Some q => Some (Qred (p + q)) | _, _ => None end
  | Minus a b => match rational a, rational b with Some p, Some q => Some (Qred (p - q)) | _, _ => None end
  | Times a b => match rational a, rational b with Some p, Some q => Some (Qred (p * q)) | _, _ => None end
  | Over a b => match rational a, rational b with
                | Some p, Some q => if Qeq_bool q 0 then None else Some (Qred (p / q))
                | _, _ => None
                end
  | Neg a => match rational a with Some p => Some (Qred (- p)) | None => None end
  end.
Lemma Q2R_red q : Q2R (Qred q) = Q2R q.
Proof. apply Qeq_eqR, Qred_correct. Qed.
Lemma some_inj (p q : Q) : Some p = Some q -> p = q.
Proof. intros E. now injection E. Qed.
Lemma rational_real e : forall q, rational e = Some q -> real e = Q2R q.
Proof.
  induction e as [z|a IHa b IHb|a IHa b IHb|a IHa b IHb|a IHa b IHb|a IHa]; intros q; cbn [rational real].
  - intros [= <-]. unfold Q2R, inject_Z. cbn. field.
  - destruct (rational a) as [p|], (rational b) as [r|]; try discriminate. intros E; apply some_inj in E; subst q. rewrite Q2R_red, Q2R_plus, (IHa p), (IHb r); auto.
  - destruct (rational a) as [p|], (rational b) as [r|]; try discriminate. intros E; apply some_inj in E; subst q. rewrite Q2R_red, Q2R_minus, (IHa p), (IHb r); auto.
  - destruct (rational a) as [p|], (rational b) as [r|]; try discriminate. intros E; apply some_inj in E; subst q. rewrite Q2R_red, Q2R_mult, (IHa p), (IHb r); auto.
  - destruct (rational a) as [p|], (rational b) as [r|]; try discriminate. destruct (Qeq_bool r 0) eqn:Z; [discriminate|].
    intros E; apply some_inj in E; subst q. rewrite Q2R_red, Q2R_div, (IHa p), (IHb r); auto. now apply Qeq_bool_neq.
  - destruct (rational a) as [p|]; try discriminate. intros E; apply some_inj in E; subst q. rewrite Q2R_red, Q2R_opp, (IHa p); auto.
Qed.
Definition rational_le (a b : Rat) : bool :=
  match rational a, rational b with Some p, Some q => Qle_bool p q | _, _ => false end.
Lemma rational_le_real a b : rational_le a b = true -> real a <= real b.
Proof.
  unfold rational_le. destruct (rational a) as [p|] eqn:A, (rational b) as [q|] eqn:B; try discriminate.
  intros L. rewrite (rational_real _ _ A), (rational_real _ _ B). apply Qle_Rle. now apply Qle_bool_iff.
Qed.
Ltac reify e :=
  lazymatch e with
  | ?a + ?b => let p := reify a in let q := reify b in constr:(Plus p q)
  | ?a - ?b => let p := reify a in let q := reify b in constr:(Minus p q)
  | ?a * ?b => let p := reify a in let q := reify b in constr:(Times p q)
  | ?a / ?b => let p := reify a in let q := reify b in constr:(Over p q)
  | - ?a => let p := reify a in constr:(Neg p)
  | IZR ?z => constr:(Num z)
  | Q2R (?n # ?d) => constr:(Over (Num n) (Num (Zpos d)))
  end.
Ltac rationals := lazymatch goal with |- ?a <= ?b =>
  let p := reify a in let q := reify b in apply (rational_le_real p q); vm_compute; reflexivity end.
Ltac pixel := unfold rpc_world_to_image, rpc_evaluate, ms_rpc, chip_rpc;
  cbn [List.length Nat.ltb Nat.leb nth bind line_off samp_off lat_off long_off height_off line_scale samp_scale lat_scale long_scale
       height_scale line_num_poly line_den_poly samp_num_poly samp_den_poly longitude latitude elevation];
  rewrite !degrees_radians; decimals; eexists; split; [reflexivity|]; cbn [ix iy]; split; apply Rabs_le; split; rationals.
Definition near (i : res Image) (x y tolerance : R) : Prop :=
  exists p, i = Ok p /\ Rabs (ix p - x) <= tolerance /\ Rabs (iy p - y) <= tolerance.
(** Lines 42-59: the corners of the CSCRNA extension, through the RPC model of the same file. *)
Theorem T38_rpc_corners : let pixel lon lat h := rpc_world_to_image (rpc_of dec tres_ms_rpc00b) (mkGeo (radians lon) (radians lat) h) in
  near (pixel 121.48749 25.02860 27.1) 0 0 1 /\ near (pixel 121.68566 25.01 234.7) 8819 0 1 /\
  near (pixel 121.68595 24.91148 403.1) 8819 5211 1 /\ near (pixel 121.48975 24.92772 431.4) 0 5211 1.
Proof. intros pix. subst pix. cbv beta. rewrite ms_rpc_file. repeat split; pixel. Qed.
Print Assumptions T38_rpc_corners.

(** Lines 99-113: the pixel of the fixed point in the chip.  [chip_shift] is the transform that takes the four points of the full image to the
    points of the chip exactly. *)
Definition chip_shift : Projective := mkProjective (-14336) 1 0 (-14336) 0 1 0 0.
Theorem T39_chip_pixel : forall to_world,
  forward chip_shift [(14336.5, 14336.5); (14847.5, 14336.5); (14336.5, 14847.5); (14847.5, 14847.5)] =
    [(0.5, 0.5); (511.5, 0.5); (0.5, 511.5); (511.5, 511.5)] /\
  near (chipped_world_to_image (mkChipped (mkSensor to_world (rpc_world_to_image (rpc_of dec tres_rpc00b_ichipb))) chip_shift)
          (mkGeo (radians 44.35267) (radians 33.36305) 31)) 263 280 3.
Proof.
  intros to_world. split.
  - unfold forward, forward1, chip_shift. cbn [List.map fst snd a0 a1 a2 b0 b1 b2 c0 c1].
    repeat (apply (f_equal2 cons); [apply (f_equal2 pair); lra|]). reflexivity.
  - assert (N : near (rpc_world_to_image (chip_rpc dec) (mkGeo (radians 44.35267) (radians 33.36305) 31)) 14599 14616 3) by pixel.
    destruct N as [p [E [X Y]]]. unfold chipped_world_to_image, full_sensor, world_to_image. rewrite chip_rpc_file, E. cbn [bind].
    eexists. split; [reflexivity|]. unfold forward1, chip_shift. cbn.
    replace (1 + 0 * ix p + 0 * iy p) with 1 by ring. revert X Y. unfold Rabs. do 2 destruct Rcase_abs; intros X Y; split; destruct Rcase_abs; lra.
Qed.
Print Assumptions T39_chip_pixel.

Lemma poly_111 k0 k1 k2 k3 k4 k5 k6 k7 v : poly_evaluate (mkPoly 1 1 1 [k0; k1; k2; k3; k4; k5; k6; k7]) v =
  k0 + k1 * vx v + k2 * vy v + k3 * (vx v * vy v) + k4 * vz v + k5 * (vx v * vz v) + k6 * (vy v * vz v) + k7 * (vx v * vy v * vz v).
Proof.
  unfold poly_evaluate, term. cbn [max_x max_y max_z coefs Nat.add seq fold_left fst snd nth]. ring.
Qed.
(** Lines 117-121: the pixel of the origin of the ground domain.  [to_geocentric] is any function that gives its geocentric coordinates, here
    rounded to a millimetre. *)
Theorem T40_rsm_pixel : forall to_geodetic (to_geocentric : Geodetic -> Vec) m g,
  to_geocentric g = mkVec (-2429658.572) (-4760499.078) 3468984.244 ->
  rsm_of dec to_geodetic tres_rsm = Some m -> near (rsm_world_to_image to_geocentric m g) 0.5 0.5 1.
Proof.
  intros to_geodetic to_geocentric m g G E.
  assert (N : det (rsm_units dec) <> 0).
  { unfold det, rsm_units, vdot, vcross. cbn [row1 row2 row3 vx vy vz]. decimals. lra. }
  pose proof (T37_rsm_factory dec to_geodetic (fun _ _ _ => 0) N) as T. destruct (build _ _ _ _ _ _ _) as [[[| | |[m'|]| | |]|]|]; try contradiction.
  destruct T as [E' [P [F [O U]]]]. rewrite E in E'. injection E' as <-.
  unfold rsm_world_to_image, geodetic_to_ground_domain_coordinate. rewrite F, O. destruct (gd_units (rp_domain m)) as [[u inv]|]; [|discriminate].
  injection U as ->. cbn [bind]. rewrite G. rewrite rsm_file_poly in P. injection P as <-.
  eexists. split; [reflexivity|].
  unfold ground_domain_to_image, rsm_file. set (v := normalize_world_coordinate _ _).
  cbn [row_num row_den column_num column_den]. rewrite !poly_111.
  assert (X : vx v = (vdot (row1 (rsm_units dec)) (vsub (mkVec (-2429658.572) (-4760499.078) 3468984.244) (rsm_origin dec)) - dec (265571142640788, -11)%Z) / dec (311793659470231, -11)%Z) by reflexivity.
  assert (Y : vy v = (vdot (row2 (rsm_units dec)) (vsub (mkVec (-2429658.572) (-4760499.078) 3468984.244) (rsm_origin dec)) - dec (240732324869712, -11)%Z) / dec (296084811268529, -11)%Z) by reflexivity.
  assert (Z : vz v = (vdot (row3 (rsm_units dec)) (vsub (mkVec (-2429658.572) (-4760499.078) 3468984.244) (rsm_origin dec)) - dec (-233161661728923, -14)%Z) / dec (100233148808220, -11)%Z) by reflexivity.
  unfold denormalize_image_coordinate, denormalize. cbn [row_off column_off row_scale column_scale ix iy].
  clear - X Y Z. clearbody v. destruct v as [x y z]. cbn [vx vy vz] in X, Y, Z |- *. subst x y z.
  unfold rsm_units, rsm_origin, vsub, vdot. cbn [row1 row2 row3 vx vy vz]. decimals. split; apply Rabs_le; split; rationals.
Qed.
Print Assumptions T40_rsm_pixel.
