(** Property theorems for the RPC and RSM sensor models: C19 - C26, C66, C67. *)
Require Import ZArith Reals String List Lra Lia Bool.
Require Import Verif.Base Verif.BaseFacts Verif.Vec Verif.VecFacts.
Require Import Verif.RpcModel Verif.RsmModel Verif.PolySpec Verif.PolyProofs.
Import ListNotations.
Local Open Scope R_scope.

(** ** C19: RPC term order *)
Theorem C19_world_to_image :
  forall (m : RPC) (g : Geodetic),
  (forall c, In c [line_num_poly m; line_den_poly m; samp_num_poly m; samp_den_poly m] -> List.length c = 20%nat) ->
  let L := (longitude g * 180 / PI - long_off m) / long_scale m in
  let P := (latitude g * 180 / PI - lat_off m) / lat_scale m in
  let H := (elevation g - height_off m) / height_scale m in
  exists i, rpc_world_to_image m g = Ok i /\
    ix i = samp_off m + samp_scale m * (rpc00b (samp_num_poly m) L P H / rpc00b (samp_den_poly m) L P H) /\
    iy i = line_off m + line_scale m * (rpc00b (line_num_poly m) L P H / rpc00b (line_den_poly m) L P H).
Proof.
  intros m g Hc L P H. unfold rpc_world_to_image. cbv zeta.
  change ((degrees (longitude g) - long_off m) / long_scale m) with L.
  change ((degrees (latitude g) - lat_off m) / lat_scale m) with P.
  change ((elevation g - height_off m) / height_scale m) with H.
  rewrite !rpc_evaluate_spec by (apply Hc; cbn; tauto). cbn [bind].
  eexists. split; [reflexivity|]. cbn. split; ring.
Qed.
Print Assumptions C19_world_to_image.

(** Too few coefficients are an IndexError, whatever the coordinate. *)
Theorem C19_short_polynomial :
  forall (c : list R) (l p h : R), (List.length c < 20)%nat -> rpc_evaluate c l p h = Err IndexError.
Proof. intros c l p h H. unfold rpc_evaluate. apply Nat.ltb_lt in H. now rewrite H. Qed.
Print Assumptions C19_short_polynomial.

(** Numerator LPP (13th term) alone, denominator 1. *)
Definition unit_poly (n : nat) : list R := repeat 0 n ++ [1] ++ repeat 0 (19 - n).
Definition demo_rpc : RPC := mkRPC 100 200 0 0 50 10 20 1 1 1 (unit_poly 12) (unit_poly 0) (unit_poly 1) (unit_poly 0).
Example C19_non_vacuous :
  exists i, rpc_world_to_image demo_rpc (mkGeo (2 * PI / 180) (3 * PI / 180) 50) = Ok i /\
    ix i = 200 + 20 * 2 /\ iy i = 100 + 10 * (2 * 3 * 3).
Proof.
  destruct (C19_world_to_image demo_rpc (mkGeo (2 * PI / 180) (3 * PI / 180) 50)) as [i [E [X Y]]].
  - cbn. intros c H. repeat (destruct H as [<-|H]; [reflexivity|]). contradiction.
  - exists i. split; [exact E|]. rewrite X, Y. unfold rpc00b, total, monomial. cbn.
    pose proof PI_RGT_0. split; field; lra.
Qed.

(** ** C20: RPC image_to_world stays on the surface *)

(** Whatever the optimiser answers, the result is on the surface: with no elevation model its
    height is the height offset; with one, it is what that model makes of the height offset. *)
Theorem C20_on_surface :
  forall (minimize : (R * R -> res R) -> R * R -> list (R * R) -> res (R * R))
         (m : RPC) (i : Image) (em : option emodel) (o : option dict) (w : Geodetic),
  (forall f, em = Some f -> forall w, longitude (f w) = longitude w /\ latitude (f w) = latitude w) ->
  rpc_image_to_world minimize m i em o = Ok w ->
  w = match em with
      | None => mkGeo (longitude w) (latitude w) (height_off m)
      | Some f => f (mkGeo (longitude w) (latitude w) (height_off m))
      end.
Proof.
  intros minimize m i em o w Hem. unfold rpc_image_to_world.
  destruct (initial_guess _ o) as [guess|]; cbn [bind]; [|discriminate].
  destruct (search_distance _ o) as [d|]; cbn [bind]; [|discriminate].
  destruct (minimize _ _ _) as [x|]; cbn [bind]; [|discriminate]. intros [= <-].
  destruct (surface_point_location (height_off m) em x Hem) as [A [B C]].
  rewrite A, B. exact C.
Qed.
Print Assumptions C20_on_surface.

(** The accuracy of the result is the accuracy of the optimiser: if it returns a point where the
    objective is at most [eps], then the location projects to within [eps] pixels of the pixel
    asked for. *)
Theorem C20_residual_is_objective :
  forall (minimize : (R * R -> res R) -> R * R -> list (R * R) -> res (R * R))
         (m : RPC) (i : Image) (em : option emodel) (o : option dict) (w : Geodetic) (eps : R),
  (forall f x0 s x, minimize f x0 s = Ok x -> exists d, f x = Ok d /\ d <= eps) ->
  rpc_image_to_world minimize m i em o = Ok w ->
  exists i', rpc_world_to_image m w = Ok i' /\ sqrt ((ix i - ix i') ^ 2 + (iy i - iy i') ^ 2) <= eps.
Proof.
  intros minimize m i em o w eps Hmin. unfold rpc_image_to_world.
  destruct (initial_guess _ o) as [guess|]; cbn [bind]; [|discriminate].
  destruct (search_distance _ o) as [d|]; cbn [bind]; [|discriminate].
  destruct (minimize _ _ _) as [x|] eqn:E; cbn [bind]; [|discriminate]. intros [= <-].
  destruct (Hmin _ _ _ _ E) as [dd [Hd Hle]]. unfold rpc_objective in Hd.
  destruct (rpc_world_to_image m _) as [i'|]; cbn in Hd; [|discriminate].
  injection Hd as <-. exists i'. split; [reflexivity | exact Hle].
Qed.
Print Assumptions C20_residual_is_objective.

(** Without options the search starts at the offsets of the model with a triangle of half a
    degree; options replace either. *)
Theorem C20_search_start :
  forall (minimize : (R * R -> res R) -> R * R -> list (R * R) -> res (R * R))
         (m : RPC) (i : Image) (em : option emodel) (o : option dict) (guess : R * R) (d : R),
  match option_get INITIAL_GUESS o with
  | VNone => guess = (long_off m * PI / 180, lat_off m * PI / 180)
  | VList [x; y] => guess = (x, y)
  | _ => False
  end ->
  match option_get INITIAL_SEARCH_DISTANCE o with VNone => d = 1 / 2 * PI / 180 | VNum r => d = r | _ => False end ->
  rpc_image_to_world minimize m i em o =
  bind (minimize (rpc_objective m i em) guess (equilateral_triangle guess d))
    (fun x => Ok (surface_point (constant_elevation (height_off m)) em x)).
Proof.
  intros minimize m i em o guess d Hg Hd. unfold rpc_image_to_world, initial_guess, search_distance.
  destruct (option_get INITIAL_GUESS o) as [| |[|x [|y [|]]]|]; try contradiction; subst guess; cbn [bind];
  destruct (option_get INITIAL_SEARCH_DISTANCE o); try contradiction; subst d; reflexivity.
Qed.
Print Assumptions C20_search_start.

(** The options are found under these names; what cannot be used is an error, never a search from
    somewhere else. *)
Theorem C20_option_names :
  forall (minimize : (R * R -> res R) -> R * R -> list (R * R) -> res (R * R))
         (m : RPC) (i : Image) (em : option emodel) (x y d : R) (v : value) (rest : dict),
  rpc_image_to_world minimize m i em
    (Some (("initial_guess"%string, VList [x; y]) :: ("initial_search_distance"%string, VNum d) :: rest)) =
  bind (minimize (rpc_objective m i em) (x, y) (equilateral_triangle (x, y) d))
    (fun p => Ok (surface_point (constant_elevation (height_off m)) em p)) /\
  (match v with VNone | VNum _ => False | _ => True end ->
   rpc_image_to_world minimize m i em
     (Some (("initial_guess"%string, VList [x; y]) :: ("initial_search_distance"%string, v) :: rest)) = Err TypeError) /\
  (match v with VNone | VList [_; _] => False | _ => True end ->
   rpc_image_to_world minimize m i em (Some (("initial_guess"%string, v) :: rest)) = Err OtherError).
Proof.
  intros minimize m i em x y d v rest. split; [reflexivity|].
  split; destruct v as [| |[|a [|b [|c l]]]|]; cbn; try contradiction; reflexivity.
Qed.
Print Assumptions C20_option_names.

(** An optimiser that answers the starting point, over flat terrain at 70 m. *)
Example C20_non_vacuous :
  rpc_image_to_world (fun _ x0 _ => Ok x0) demo_rpc (mkImage 1 2) (Some (constant_elevation 70))
    (Some [(INITIAL_GUESS, VList [0.1; 0.2])])
  = Ok (mkGeo 0.1 0.2 70) /\
  rpc_image_to_world (fun _ x0 _ => Ok x0) demo_rpc (mkImage 1 2) None
    (Some [(INITIAL_GUESS, VList [0.1; 0.2])])
  = Ok (mkGeo 0.1 0.2 50).
Proof. split; reflexivity. Qed.

(** An optimiser that answers its starting point if that is good enough, and else gives up, asked
    for the pixel of 2 degrees east and 3 degrees north. *)
Definition careful (eps : R) (f : R * R -> res R) (x0 : R * R) : res (R * R) :=
  bind (f x0) (fun d => if Rle_dec d eps then Ok x0 else Err RuntimeError).
Lemma careful_good eps f x0 x : careful eps f x0 = Ok x -> exists d, f x = Ok d /\ d <= eps.
Proof.
  unfold careful. destruct (f x0) as [d|e] eqn:E; cbn; [|discriminate]. destruct (Rle_dec d eps); [|discriminate].
  intros [= <-]. exists d. auto.
Qed.
Example C20_accuracy_non_vacuous :
  let minimize := fun f x0 (_ : list (R * R)) => careful (1 / 100) f x0 in
  (forall f x0 s x, minimize f x0 s = Ok x -> exists d, f x = Ok d /\ d <= 1 / 100) /\
  rpc_image_to_world minimize demo_rpc (mkImage 240 280) None (Some [(INITIAL_GUESS, VList [2 * PI / 180; 3 * PI / 180])])
  = Ok (mkGeo (2 * PI / 180) (3 * PI / 180) 50).
Proof.
  intros minimize. split; [intros f x0 s x; apply careful_good|].
  rewrite (C20_search_start minimize demo_rpc (mkImage 240 280) None _ (2 * PI / 180, 3 * PI / 180) (1 / 2 * PI / 180)) by reflexivity.
  unfold minimize, careful, rpc_objective. destruct C19_non_vacuous as (i & E & X & Y).
  change (surface_point (constant_elevation (height_off demo_rpc)) None (2 * PI / 180, 3 * PI / 180)) with (mkGeo (2 * PI / 180) (3 * PI / 180) 50).
  rewrite E. cbn [bind]. unfold image_distance. rewrite X, Y. cbn [ix iy].
  replace ((240 - (200 + 20 * 2)) ^ 2 + (280 - (100 + 10 * (2 * 3 * 3))) ^ 2) with 0 by ring. rewrite sqrt_0.
  destruct (Rle_dec 0 (1 / 100)); [reflexivity|lra].
Qed.

(** ** C66: the starting triangle *)
Definition dist2 (p q : R * R) : R := (fst p - fst q) ^ 2 + (snd p - snd q) ^ 2.
Theorem C66_equilateral :
  forall (c : R * R) (size : R), exists p q r, equilateral_triangle c size = [p; q; r] /\
  dist2 p q = size ^ 2 /\ dist2 q r = size ^ 2 /\ dist2 r p = size ^ 2 /\
  fst p + fst q + fst r = 3 * fst c /\ snd p + snd q + snd r = 3 * snd c /\
  fst p = fst c /\ snd q = snd r.
Proof.
  intros [a b] size. eexists _, _, _. split; [reflexivity|]. unfold dist2. cbn [fst snd].
  assert (S : sqrt 3 * sqrt 3 = 3) by (apply sqrt_sqrt; lra). set (s := sqrt 3) in *.
  repeat split; try (field_simplify; try replace (s ^ 2) with 3 by (cbn; lra); field); nra.
Qed.
Print Assumptions C66_equilateral.

(** ** C21: RSM polynomials *)
Theorem C21_every_term_once :
  forall (px py pz : nat) (c : list R) (p : Poly) (v : Vec),
  make_poly px py pz c = Ok p ->
  poly_evaluate p v = general_polynomial px py pz c (vx v) (vy v) (vz v).
Proof.
  intros px py pz c p v. unfold make_poly. destruct (Nat.eqb _ _); [|discriminate]. intros [= <-].
  apply poly_evaluate_spec.
Qed.
Print Assumptions C21_every_term_once.

Theorem C21_coefficient_count :
  forall (px py pz : nat) (c : list R),
  (List.length c = (px + 1) * (py + 1) * (pz + 1))%nat /\ (exists p, make_poly px py pz c = Ok p) \/
  (List.length c <> (px + 1) * (py + 1) * (pz + 1))%nat /\ make_poly px py pz c = Err ValueError.
Proof.
  intros px py pz c. unfold make_poly. destruct (Nat.eqb_spec (List.length c) ((px + 1) * (py + 1) * (pz + 1))).
  - left. split; [assumption | eauto].
  - right. now split.
Qed.
Print Assumptions C21_coefficient_count.

(** The documented order C, X, Y, XY, Z, XZ, YZ, XYZ for powers up to one. *)
Example C21_non_vacuous : forall x y z, exists p, make_poly 1 1 1 [1; 2; 3; 4; 5; 6; 7; 8] = Ok p /\
  poly_evaluate p (mkVec x y z)
  = 1 + 2 * x + 3 * y + 4 * (x * y) + 5 * z + 6 * (x * z) + 7 * (y * z) + 8 * (x * y * z).
Proof. intros. eexists. split; [reflexivity|]. rewrite poly_evaluate_spec. cbn. ring. Qed.

(** ** C22: low order polynomials *)
Theorem C22_quadratic :
  forall (c0 c1 c2 c3 c4 c5 c6 c7 c8 c9 : R) (v : Vec),
  let c := [c0; c1; c2; c3; c4; c5; c6; c7; c8; c9] in
  make_low_order c = Ok c /\
  let x := vx v in let y := vy v in let z := vz v in
  low_order_evaluate c v =
  c0 + c1 * x + c2 * y + c3 * z + c4 * x ^ 2 + c5 * (x * y) + c6 * (x * z) + c7 * y ^ 2 + c8 * (y * z) + c9 * z ^ 2.
Proof. intros. split; [reflexivity|]. unfold low_order_evaluate. cbn. ring. Qed.
Print Assumptions C22_quadratic.

Theorem C22_needs_ten_coefficients :
  forall (c : list R), List.length c <> 10%nat -> make_low_order c = Err ValueError.
Proof. intros c H. unfold make_low_order. now destruct (Nat.eqb_spec (List.length c) 10). Qed.
Print Assumptions C22_needs_ten_coefficients.

(** The same polynomial as a general polynomial with maximum powers two. *)
Theorem C22_special_case_of_general :
  forall (c0 c1 c2 c3 c4 c5 c6 c7 c8 c9 : R) (v : Vec),
  let full := [ c0; c1; c4;  c2; c5; 0;  c7; 0; 0;
                c3; c6; 0;   c8; 0; 0;   0; 0; 0;
                c9; 0; 0;    0; 0; 0;    0; 0; 0 ] in
  exists p, make_poly 2 2 2 full = Ok p /\
  poly_evaluate p v = low_order_evaluate [c0; c1; c2; c3; c4; c5; c6; c7; c8; c9] v.
Proof.
  intros. eexists. split; [reflexivity|]. rewrite poly_evaluate_spec. unfold low_order_evaluate. cbn. ring.
Qed.
Print Assumptions C22_special_case_of_general.

Example C22_non_vacuous : low_order_evaluate [1; 2; 3; 4; 5; 6; 7; 8; 9; 10] (mkVec 1 2 3) = 1+2+6+12+5+12+21+32+54+90.
Proof. unfold low_order_evaluate. cbn. ring. Qed.

(** ** C23: normalisation *)
Theorem C23_world_round_trip :
  forall (m : RsmPoly) (v : Vec), x_scale m <> 0 -> y_scale m <> 0 -> z_scale m <> 0 ->
  denormalize_world_coordinate m (normalize_world_coordinate m v) = v /\
  normalize_world_coordinate m (denormalize_world_coordinate m v) = v.
Proof.
  intros m v Hx Hy Hz. split; apply vec_eq; cbn; unfold normalize, denormalize; field; assumption.
Qed.
Print Assumptions C23_world_round_trip.

Theorem C23_image_round_trip :
  forall (m : RsmPoly) (i : Image), row_scale m <> 0 -> column_scale m <> 0 ->
  denormalize_image_coordinate m (normalize_image_coordinate m i) = i /\
  normalize_image_coordinate m (denormalize_image_coordinate m i) = i.
Proof.
  intros m [x y] Hr Hc. unfold denormalize_image_coordinate, normalize_image_coordinate, normalize, denormalize. cbn.
  split; f_equal; field; assumption.
Qed.
Print Assumptions C23_image_round_trip.

(** The ground to image function in one formula: the column uses the column scale, offset and
    polynomials, the row those of the row, at the normalised ground point. *)
Theorem C23_ground_to_image :
  forall (m : RsmPoly) (v : Vec),
  let n := ((vx v - x_off m) / x_scale m, (vy v - y_off m) / y_scale m, (vz v - z_off m) / z_scale m) in
  let value p := let '(x, y, z) := n in general_polynomial (max_x p) (max_y p) (max_z p) (coefs p) x y z in
  ix (ground_domain_to_image m v) = column_off m + column_scale m * (value (column_num m) / value (column_den m)) /\
  iy (ground_domain_to_image m v) = row_off m + row_scale m * (value (row_num m) / value (row_den m)).
Proof.
  intros m v n value. unfold ground_domain_to_image, denormalize_image_coordinate, denormalize. cbn.
  rewrite !poly_evaluate_spec. unfold value, n. cbn. unfold normalize. split; ring.
Qed.
Print Assumptions C23_ground_to_image.

(** Offsets and scales of a real size. *)
Example C23_non_vacuous :
  let one := mkPoly 0 0 0 [1] in
  let m := mkRsmPoly (mkGroundDomain GEODETIC [] None None [] None 0) 1500 2000 1.2 0.6 300 1500 2000 0.01 0.02 400
             (mkPoly 0 1 0 [0; 1]) one (mkPoly 1 0 0 [0; 1]) one in
  denormalize_world_coordinate m (normalize_world_coordinate m (mkVec 1.21 0.59 100)) = mkVec 1.21 0.59 100 /\
  normalize_world_coordinate m (mkVec 1.21 0.59 100) = mkVec 1 (-1 / 2) (-1 / 2) /\
  denormalize_image_coordinate m (normalize_image_coordinate m (mkImage 17 42)) = mkImage 17 42 /\
  ground_domain_to_image m (mkVec 1.21 0.59 100) = mkImage 4000 750.
Proof.
  intros one m. split; [apply C23_world_round_trip; cbn; lra|]. split; [unfold normalize_world_coordinate, normalize; cbn|split]; [|apply C23_image_round_trip; cbn; lra|].
  { match goal with |- mkVec ?a ?b ?c = mkVec ?d ?e ?f => replace a with d by lra; replace b with e by lra; replace c with f by lra; reflexivity end. }
  destruct (C23_ground_to_image m (mkVec 1.21 0.59 100)) as [X Y]. destruct (ground_domain_to_image _ _) as [a b]. cbn in X, Y.
  f_equal; [rewrite X|rewrite Y]; lra.
Qed.

(** ** C24: RSM section selection *)
(** The grid of sections is as large as announced. *)
Definition complete_sections (m : Sectioned) : Prop :=
  (1 <= row_sections m)%Z /\ (1 <= column_sections m)%Z /\
  Z.of_nat (List.length (section_models m)) = row_sections m /\
  forall row, In row (section_models m) -> Z.of_nat (List.length row) = column_sections m.

(** The section model that should answer for an image location. *)
Definition responsible (m : Sectioned) (i : Image) (s : Sensor) : Prop :=
  exists r c row,
    section_of (IZR (min_row (sc_image m))) (row_section_size m) (row_sections m) (iy i) r /\
    section_of (IZR (min_column (sc_image m))) (column_section_size m) (column_sections m) (ix i) c /\
    nth_error (section_models m) (Z.to_nat r) = Some row /\ nth_error row (Z.to_nat c) = Some s.

Lemma section_at_responsible m i : complete_sections m -> 0 < row_section_size m -> 0 < column_section_size m ->
  exists s, section_at m (get_section_index m i) = Ok s /\ responsible m i s.
Proof.
  intros [Hr [Hc [Hlr Hlc]]] Sr Sc. unfold section_at, get_section_index. cbn [fst snd].
  pose proof (clamp_section (IZR (min_row (sc_image m))) _ _ (iy i) Sr Hr) as A.
  pose proof (clamp_section (IZR (min_column (sc_image m))) _ _ (ix i) Sc Hc) as B.
  set (r := clamp_index _ (row_sections m)) in *. set (c := clamp_index _ (column_sections m)) in *.
  pose proof A as [A1 _]. pose proof B as [B1 _].
  destruct (py_nth_ok (section_models m) r) as [row [N1 P1]]; [lia|]. rewrite P1. cbn [bind].
  destruct (py_nth_ok row c) as [s [N2 P2]]; [rewrite (Hlc row); [lia | eapply nth_error_In, N1]|].
  exists s. split; [exact P2|]. exists r, c, row. exact (conj A (conj B (conj N1 N2))).
Qed.

Theorem C24_image_to_world_section :
  forall (m : Sectioned) (i : Image) (em : option emodel) (o : option dict),
  complete_sections m -> 0 < row_section_size m -> 0 < column_section_size m ->
  exists s, responsible m i s /\ sectioned_image_to_world m i em o = image_to_world s i em o.
Proof.
  intros m i em o H Sr Sc. destruct (section_at_responsible m i H Sr Sc) as [s [E Rs]].
  exists s. split; [exact Rs|]. unfold sectioned_image_to_world. now rewrite E.
Qed.
Print Assumptions C24_image_to_world_section.

Theorem C24_world_to_image_section :
  forall (to_geocentric : Geodetic -> Vec) (m : Sectioned) (g : Geodetic) (v : Vec),
  complete_sections m -> 0 < row_section_size m -> 0 < column_section_size m ->
  geodetic_to_ground_domain_coordinate to_geocentric (sc_domain m) g = Ok v ->
  exists s, responsible m (mkImage (low_order_evaluate (column_polynomial m) v) (low_order_evaluate (row_polynomial m) v)) s /\
            sectioned_world_to_image to_geocentric m g = world_to_image s g.
Proof.
  intros tg m g v H Sr Sc E. unfold sectioned_world_to_image. rewrite E. cbn [bind].
  destruct (section_at_responsible m (mkImage (low_order_evaluate (column_polynomial m) v) (low_order_evaluate (row_polynomial m) v)) H Sr Sc)
    as [s [E' Rs]].
  exists s. split; [exact Rs|]. now rewrite E'.
Qed.
Print Assumptions C24_world_to_image_section.

(** The responsible section is unique, so the theorems above determine the answer. *)
Theorem C24_responsible_unique :
  forall (m : Sectioned) (i : Image) (s s' : Sensor), 0 < row_section_size m -> 0 < column_section_size m ->
  responsible m i s -> responsible m i s' -> s = s'.
Proof.
  intros m i s s' Sr Sc (r & c & row & A & B & C & D) (r' & c' & row' & A' & B' & C' & D').
  pose proof (section_unique _ _ _ _ _ _ Sr A A').
  pose proof (section_unique _ _ _ _ _ _ Sc B B'). subst. congruence.
Qed.
Print Assumptions C24_responsible_unique.

(** A grid of sections that is smaller than announced fails with IndexError outside of it. *)
Theorem C24_missing_section :
  forall (m : Sectioned) (r c : Z), (0 <= r)%Z -> (0 <= c)%Z ->
  (Z.of_nat (List.length (section_models m)) <= r)%Z \/
  (exists row, nth_error (section_models m) (Z.to_nat r) = Some row /\ (Z.of_nat (List.length row) <= c)%Z) ->
  section_at m (c, r) = Err IndexError.
Proof.
  assert (O : forall {A} (l : list A) k, (0 <= k)%Z -> (Z.of_nat (List.length l) <= k)%Z -> py_nth l k = Err IndexError).
  { intros A l k K L. unfold py_nth. destruct (Z.ltb_spec k 0); [lia|]. destruct (Z.ltb_spec k 0); [lia|].
    assert (N : nth_error l (Z.to_nat k) = None) by (apply nth_error_None; lia). now rewrite N. }
  intros m r c Hr Hc [L|(row & E & L)]; unfold section_at; cbn [fst snd].
  - now rewrite (O _ _ _ Hr L).
  - assert (P : py_nth (section_models m) r = Ok row).
    { unfold py_nth. destruct (Z.ltb_spec r 0); [lia|]. destruct (Z.ltb_spec r 0); [lia|]. now rewrite E. }
    rewrite P. cbn [bind]. now apply O.
Qed.
Print Assumptions C24_missing_section.

Definition demo_section (n : R) : Sensor := mkSensor (fun _ _ _ => Ok (mkGeo n 0 0)) (fun _ => Ok (mkImage n 0)).
Definition demo_domain : GroundDomain :=
  mkGroundDomain GEODETIC [] None None [] None 0.
Definition demo_sectioned : Sectioned :=
  mkSectioned demo_domain (mkImageDomain 100 299 0 299) 2 3 100 100 (repeat 0 10) (repeat 0 10)
    [[demo_section 1; demo_section 2; demo_section 3]; [demo_section 4; demo_section 5; demo_section 6]].
Example C24_non_vacuous :
  complete_sections demo_sectioned /\ responsible demo_sectioned (mkImage 150 250) (demo_section 5) /\
  responsible demo_sectioned (mkImage 1000 (-5)) (demo_section 3).
Proof.
  split; [|split].
  - unfold complete_sections; cbn. repeat split; try lia. intros row [<-|[<-|[]]]; reflexivity.
  - exists 1%Z, 1%Z, [demo_section 4; demo_section 5; demo_section 6].
    unfold section_of; cbn. repeat split; try lia; right; lra.
  - exists 0%Z, 2%Z, [demo_section 1; demo_section 2; demo_section 3].
    unfold section_of; cbn. repeat split; try lia; lra || (right; lra) || now left.
Qed.

(** ** C25: ground domain round trips *)
Theorem C25_rectangular_round_trip :
  forall (to_geocentric : Geodetic -> Vec) (to_geodetic : Vec -> Geodetic)
         (vertices : list Vec) (origin : Vec) (units : Mat) (reference : option Vec) (d : GroundDomain),
  make_ground_domain to_geodetic RECTANGULAR vertices (Some origin) (Some units) reference = Ok d ->
  (forall g, to_geodetic (to_geocentric g) = g ->
     bind (geodetic_to_ground_domain_coordinate to_geocentric d g) (ground_domain_coordinate_to_geodetic to_geodetic d) = Ok g) /\
  (forall v, (forall e, to_geocentric (to_geodetic e) = e) ->
     bind (ground_domain_coordinate_to_geodetic to_geodetic d v) (geodetic_to_ground_domain_coordinate to_geocentric d) = Ok v) /\
  (forall g, geodetic_to_ground_domain_coordinate to_geocentric d g = Ok (mulv units (vsub (to_geocentric g) origin))).
Proof.
  intros tg td vertices origin units reference d. unfold make_ground_domain.
  destruct (negb _); [discriminate|]. destruct (mat_inv units) as [inv|] eqn:Ei; cbn [bind]; [|discriminate].
  destruct (map_res _ vertices) as [gv|]; cbn [bind]; [|discriminate].
  destruct (match reference with Some _ => _ | None => _ end) as [e|]; cbn [bind]; [|discriminate].
  intros [= <-]. unfold geodetic_to_ground_domain_coordinate, ground_domain_coordinate_to_geodetic. cbn. repeat split.
  - intros g Hg. rewrite (mat_inv_l _ _ _ Ei), vadd_vsub, Hg. reflexivity.
  - intros v Hv. rewrite Hv, vsub_vadd, (mat_inv_r _ _ _ Ei). reflexivity.
Qed.
Print Assumptions C25_rectangular_round_trip.

Theorem C25_geodetic_identity :
  forall (to_geocentric : Geodetic -> Vec) (to_geodetic : Vec -> Geodetic) (d : GroundDomain) (g : Geodetic),
  gd_form d = GEODETIC ->
  geodetic_to_ground_domain_coordinate to_geocentric d g = Ok (mkVec (longitude g) (latitude g) (elevation g)) /\
  bind (geodetic_to_ground_domain_coordinate to_geocentric d g) (ground_domain_coordinate_to_geodetic to_geodetic d) = Ok g.
Proof.
  intros tg td d g E. unfold geodetic_to_ground_domain_coordinate, ground_domain_coordinate_to_geodetic. rewrite E.
  cbn. destruct g; now split.
Qed.
Print Assumptions C25_geodetic_identity.

(** The 0..2pi domain: the longitude is reduced into [0, 2pi) by whole turns; nothing else
    changes. *)
Theorem C25_two_pi_domain :
  forall (to_geocentric : Geodetic -> Vec) (d : GroundDomain) (g : Geodetic),
  gd_form d = GEODETIC_2PI ->
  exists lon k, geodetic_to_ground_domain_coordinate to_geocentric d g = Ok (mkVec lon (latitude g) (elevation g)) /\
  0 <= lon < 2 * PI /\ lon = longitude g + IZR k * (2 * PI).
Proof.
  intros tg d g E. unfold geodetic_to_ground_domain_coordinate. rewrite E.
  assert (0 < 2 * PI) by (pose proof PI_RGT_0; lra).
  destruct (fmod_spec (longitude g + 2 * PI) (2 * PI) H) as [A [k B]].
  exists (fmod (longitude g + 2 * PI) (2 * PI)), (k + 1)%Z. split; [reflexivity|]. split; [exact A|].
  rewrite B, plus_IZR. ring.
Qed.
Print Assumptions C25_two_pi_domain.

(** Eastern longitudes come back unchanged, western ones come back a full turn further east. *)
Theorem C25_two_pi_round_trip :
  forall (to_geocentric : Geodetic -> Vec) (to_geodetic : Vec -> Geodetic) (d : GroundDomain) (g : Geodetic),
  gd_form d = GEODETIC_2PI -> - PI <= longitude g < 2 * PI ->
  bind (geodetic_to_ground_domain_coordinate to_geocentric d g) (ground_domain_coordinate_to_geodetic to_geodetic d)
  = Ok (mkGeo (if Rlt_dec (longitude g) 0 then longitude g + 2 * PI else longitude g) (latitude g) (elevation g)).
Proof.
  intros tg td d g E H. unfold geodetic_to_ground_domain_coordinate, ground_domain_coordinate_to_geodetic. rewrite E.
  cbn. unfold geo_of. cbn. f_equal. f_equal. pose proof PI_RGT_0.
  destruct (Rlt_dec (longitude g) 0).
  - apply (fmod_unique _ _ _ 0); lra.
  - apply (fmod_unique _ _ _ (-1)); lra.
Qed.
Print Assumptions C25_two_pi_round_trip.

(** Every ground domain coordinate with a longitude in the domain comes back unchanged. *)
Theorem C25_two_pi_ground_round_trip :
  forall (to_geocentric : Geodetic -> Vec) (to_geodetic : Vec -> Geodetic) (d : GroundDomain) (v : Vec),
  gd_form d = GEODETIC_2PI -> 0 <= vx v < 2 * PI ->
  bind (ground_domain_coordinate_to_geodetic to_geodetic d v) (geodetic_to_ground_domain_coordinate to_geocentric d) = Ok v.
Proof.
  intros tg td d v E H. unfold geodetic_to_ground_domain_coordinate, ground_domain_coordinate_to_geodetic. rewrite E.
  cbn. unfold geo_of. cbn. destruct v as [x y z]. cbn in *. do 2 f_equal. apply (fmod_unique _ _ _ (-1)); lra.
Qed.
Print Assumptions C25_two_pi_ground_round_trip.

Theorem C25_two_pi_identity_refuted :
  exists (to_geocentric : Geodetic -> Vec) (to_geodetic : Vec -> Geodetic) (d : GroundDomain) (g : Geodetic),
  gd_form d = GEODETIC_2PI /\ - PI <= longitude g <= PI /\
  bind (geodetic_to_ground_domain_coordinate to_geocentric d g) (ground_domain_coordinate_to_geodetic to_geodetic d) <> Ok g.
Proof.
  exists (fun _ => vzero), (fun _ => mkGeo 0 0 0), (mkGroundDomain GEODETIC_2PI [] None None [] None 0), (mkGeo (-1) 0 0).
  pose proof PI_RGT_0. pose proof PI2_3_2. unfold PI2 in *.
  split; [reflexivity|]. split; [cbn; lra|].
  rewrite C25_two_pi_round_trip by (cbn; try reflexivity; lra). cbn. destruct (Rlt_dec (-1) 0); [|lra].
  intros C. injection C. lra.
Qed.
Print Assumptions C25_two_pi_identity_refuted.

(** A rotated frame meets the hypotheses. *)
Example C25_non_vacuous :
  let units := mkMat (mkVec 0 1 0) (mkVec (-1) 0 0) (mkVec 0 0 1) in
  exists d, make_ground_domain (fun v => mkGeo (vx v) (vy v) (vz v)) RECTANGULAR (repeat vzero 8) (Some (mkVec 1 2 3)) (Some units) None = Ok d.
Proof.
  cbn. unfold make_ground_domain, mat_inv. cbn. destruct (Req_EM_T _ _) as [e|n].
  - exfalso. revert e. unfold det, vdot, vcross. cbn. lra.
  - cbn. eexists. reflexivity.
Qed.

(** ** C26: ground domain construction *)
Definition accepts (form : DomainForm) (vertices : list Vec) (origin : option Vec) (units : option Mat) : Prop :=
  List.length vertices = 8%nat /\ (form = RECTANGULAR -> origin <> None /\ units <> None).

(** Exactly the documented requirements, except that unit vectors that do not span space are a
    LinAlgError instead of a ValueError. *)
Theorem C26_accepted_inputs :
  forall (to_geodetic : Vec -> Geodetic) form vertices origin units reference,
  (~ accepts form vertices origin units -> make_ground_domain to_geodetic form vertices origin units reference = Err ValueError) /\
  (accepts form vertices origin units ->
     (forall m, units = Some m -> det m <> 0) ->
     exists d, make_ground_domain to_geodetic form vertices origin units reference = Ok d) /\
  (accepts form vertices origin units -> forall m, units = Some m -> det m = 0 ->
     make_ground_domain to_geodetic form vertices origin units reference = Err LinAlgError).
Proof.
  intros td form vertices origin units reference. unfold accepts, make_ground_domain.
  destruct (Nat.eqb_spec (List.length vertices) 8) as [L|L]; cbn [negb]; [|split; [reflexivity | split; tauto]].
  assert (Hok : (form = RECTANGULAR -> origin <> None /\ units <> None) ->
    forall us, (units = None -> us = None) -> (units <> None -> us <> None) ->
    exists d, bind (map_res (from_ground_domain td form origin us) vertices) (fun gv =>
      bind (match reference with
            | Some p => bind (from_ground_domain td form origin us p) (fun g => Ok (elevation g))
            | None => Ok (sum_elevations gv / INR (List.length gv))
            end) (fun e => Ok (mkGroundDomain form vertices origin us gv (fold_left extend_bbox gv None) e))) = Ok d).
  { intros Hr us H1 H2.
    assert (K : forall v, exists g, from_ground_domain td form origin us v = Ok g).
    { intros v. apply from_ground_domain_ok. intros E. destruct (Hr E). auto. }
    destruct (map_res_ok (from_ground_domain td form origin us) vertices (fun v _ => K v)) as [gv [E _]].
    rewrite E. cbn [bind]. destruct reference as [p|].
    - destruct (K p) as [g Eg]. rewrite Eg. cbn. eauto.
    - cbn. eauto. }
  split; [|split].
  - intros N. destruct form; try (exfalso; apply N; split; [assumption | discriminate]).
    destruct origin as [o|]; [|reflexivity]. destruct units as [m|]; [|reflexivity].
    exfalso. apply N. split; [assumption|]. intros _. split; discriminate.
  - intros [_ Hr] Hd.
    assert (G : exists d, bind (match units with None => Ok None | Some m => bind (mat_inv m) (fun i => Ok (Some (m, i))) end)
        (fun us => bind (map_res (from_ground_domain td form origin us) vertices) (fun gv =>
      bind (match reference with
            | Some p => bind (from_ground_domain td form origin us p) (fun g => Ok (elevation g))
            | None => Ok (sum_elevations gv / INR (List.length gv))
            end) (fun e => Ok (mkGroundDomain form vertices origin us gv (fold_left extend_bbox gv None) e)))) = Ok d).
    { destruct units as [m|].
      - destruct (mat_inv_ok m (Hd m eq_refl)) as [i Ei]. rewrite Ei. cbn [bind]. apply Hok; [exact Hr | congruence | congruence].
      - cbn [bind]. apply Hok; [exact Hr | reflexivity | congruence]. }
    destruct form; try exact G. destruct (Hr eq_refl). destruct origin, units; try congruence.
  - intros [_ Hr] m -> Hd. rewrite (mat_inv_err m Hd). cbn.
    destruct form; try reflexivity. destruct (Hr eq_refl). destruct origin; [reflexivity | congruence].
Qed.
Print Assumptions C26_accepted_inputs.

(** The bounding box encloses the geodetic vertices and is tight, and the default height is that
    of the reference point, or the mean height of the eight vertices. *)
Theorem C26_derived_values :
  forall (to_geodetic : Vec -> Geodetic) form vertices origin units reference d,
  make_ground_domain to_geodetic form vertices origin units reference = Ok d ->
  let vs := gd_geodetic_vertices d in
  Forall2 (fun v g => ground_domain_coordinate_to_geodetic to_geodetic d v = Ok g) vertices vs /\
  (exists b, gd_bbox d = Some b /\ (forall g, In g vs -> inside b g) /\ touched b vs) /\
  match reference with
  | Some p => exists g, ground_domain_coordinate_to_geodetic to_geodetic d p = Ok g /\ gd_default_elevation d = elevation g
  | None => gd_default_elevation d = total (List.map elevation vs) / 8
  end.
Proof.
  intros td form vertices origin units reference d.
  assert (G : (if negb (Nat.eqb (List.length vertices) 8) then Err ValueError else
     bind (match units with None => Ok None | Some m => bind (mat_inv m) (fun i => Ok (Some (m, i))) end)
        (fun us => bind (map_res (from_ground_domain td form origin us) vertices) (fun gv =>
      bind (match reference with
            | Some p => bind (from_ground_domain td form origin us p) (fun g => Ok (elevation g))
            | None => Ok (sum_elevations gv / INR (List.length gv))
            end) (fun e => Ok (mkGroundDomain form vertices origin us gv (fold_left extend_bbox gv None) e))))) = Ok d ->
    let vs := gd_geodetic_vertices d in
    Forall2 (fun v g => ground_domain_coordinate_to_geodetic td d v = Ok g) vertices vs /\
    (exists b, gd_bbox d = Some b /\ (forall g, In g vs -> inside b g) /\ touched b vs) /\
    match reference with
    | Some p => exists g, ground_domain_coordinate_to_geodetic td d p = Ok g /\ gd_default_elevation d = elevation g
    | None => gd_default_elevation d = total (List.map elevation vs) / 8
    end).
  { destruct (Nat.eqb_spec (List.length vertices) 8) as [L|L]; cbn [negb]; [|discriminate].
    destruct (match units with None => _ | Some _ => _ end) as [us|]; cbn [bind]; [|discriminate].
    destruct (map_res _ vertices) as [gv|] eqn:Eg; cbn [bind]; [|discriminate].
    pose proof (map_res_forall2 _ _ _ Eg) as F.
    assert (L' : List.length gv = 8%nat) by (rewrite <- (Forall2_same_length _ _ _ F); exact L).
    destruct (match reference with Some _ => _ | None => _ end) as [e|] eqn:Er; cbn [bind]; [|discriminate].
    intros [= <-]. cbn. split; [exact F|]. split.
    - apply bbox_spec. intros ->. discriminate.
    - destruct reference as [p|].
      + unfold ground_domain_coordinate_to_geodetic; cbn.
        destruct (from_ground_domain td form origin us p) as [g|]; cbn in Er; [|discriminate].
        injection Er as <-. eauto.
      + injection Er as <-. rewrite sum_elevations_total, L'. f_equal. cbn. ring. }
  intros H. apply G. revert H. unfold make_ground_domain. destruct (negb _); [discriminate|].
  destruct form; try (intros H; exact H). destruct origin; [|discriminate]. destruct units; [|discriminate]. intros H; exact H.
Qed.
Print Assumptions C26_derived_values.

Definition cube : list Vec :=
  [mkVec 0 0 0; mkVec 1 0 0; mkVec 0 1 0; mkVec 1 1 0; mkVec 0 0 8; mkVec 1 0 8; mkVec 0 1 8; mkVec 1 1 8].
Example C26_non_vacuous :
  exists d, make_ground_domain (fun _ => mkGeo 0 0 0) GEODETIC cube None None None = Ok d /\
            gd_default_elevation d = 4.
Proof. eexists. split; [reflexivity|]. cbn. unfold sum_elevations. cbn. lra. Qed.

(** ** C67: RSM image_to_world *)
Theorem C67_on_surface :
  forall (to_geocentric : Geodetic -> Vec)
         (minimize : (R * R -> res R) -> R * R -> option Bounds -> list (R * R) -> res (R * R))
         (m : RsmPoly) (i : Image) (em : option emodel) (o : option dict) (w : Geodetic),
  (forall f, em = Some f -> forall w, longitude (f w) = longitude w /\ latitude (f w) = latitude w) ->
  rsm_image_to_world to_geocentric minimize m i em o = Ok w ->
  w = match em with
      | None => mkGeo (longitude w) (latitude w) (gd_default_elevation (rp_domain m))
      | Some f => f (mkGeo (longitude w) (latitude w) (gd_default_elevation (rp_domain m)))
      end.
Proof.
  intros tg minimize m i em o w Hem. unfold rsm_image_to_world.
  destruct (nth_error _ 0); [|discriminate]. destruct (nth_error _ 3); [|discriminate].
  destruct (initial_guess _ o) as [guess|]; cbn [bind]; [|discriminate].
  destruct (search_distance _ o) as [d|]; cbn [bind]; [|discriminate].
  destruct (minimize _ _ _ _) as [x|]; cbn [bind]; [|discriminate]. intros [= <-].
  destruct (surface_point_location (gd_default_elevation (rp_domain m)) em x Hem) as [A [B C]].
  rewrite A, B. exact C.
Qed.
Print Assumptions C67_on_surface.

Theorem C67_residual_is_objective :
  forall (to_geocentric : Geodetic -> Vec)
         (minimize : (R * R -> res R) -> R * R -> option Bounds -> list (R * R) -> res (R * R))
         (m : RsmPoly) (i : Image) (em : option emodel) (o : option dict) (w : Geodetic) (eps : R),
  (forall f x0 b s x, minimize f x0 b s = Ok x -> exists d, f x = Ok d /\ d <= eps) ->
  rsm_image_to_world to_geocentric minimize m i em o = Ok w ->
  exists i', rsm_world_to_image to_geocentric m w = Ok i' /\ sqrt ((ix i - ix i') ^ 2 + (iy i - iy i') ^ 2) <= eps.
Proof.
  intros tg minimize m i em o w eps Hmin. unfold rsm_image_to_world.
  destruct (nth_error _ 0); [|discriminate]. destruct (nth_error _ 3); [|discriminate].
  destruct (initial_guess _ o) as [guess|]; cbn [bind]; [|discriminate].
  destruct (search_distance _ o) as [d|]; cbn [bind]; [|discriminate].
  destruct (minimize _ _ _ _) as [x|] eqn:E; cbn [bind]; [|discriminate]. intros [= <-].
  destruct (Hmin _ _ _ _ _ E) as [dd [Hd Hle]]. unfold rsm_objective in Hd.
  destruct (rsm_world_to_image tg m _) as [i'|]; cbn in Hd; [|discriminate].
  injection Hd as <-. exists i'. split; [reflexivity | exact Hle].
Qed.
Print Assumptions C67_residual_is_objective.

(** If the optimiser respects its bounds, the location is inside the longitude and latitude range
    of the ground domain's vertices. *)
Theorem C67_inside_ground_domain :
  forall (to_geocentric : Geodetic -> Vec) (to_geodetic : Vec -> Geodetic)
         (minimize : (R * R -> res R) -> R * R -> option Bounds -> list (R * R) -> res (R * R))
         form vertices origin units reference
         (m : RsmPoly) (i : Image) (em : option emodel) (o : option dict) (w : Geodetic),
  make_ground_domain to_geodetic form vertices origin units reference = Ok (rp_domain m) ->
  (forall f, em = Some f -> forall w, longitude (f w) = longitude w /\ latitude (f w) = latitude w) ->
  (forall f x0 b s x, minimize f x0 (Some b) s = Ok x -> b_min_x b <= fst x <= b_max_x b /\ b_min_y b <= snd x <= b_max_y b) ->
  rsm_image_to_world to_geocentric minimize m i em o = Ok w ->
  exists b, gd_bbox (rp_domain m) = Some b /\ inside b w.
Proof.
  intros tg td minimize form vertices origin units reference m i em o w Hd Hem Hmin.
  destruct (C26_derived_values _ _ _ _ _ _ _ Hd) as [_ [[b [Eb _]] _]].
  unfold rsm_image_to_world.
  destruct (nth_error _ 0); [|discriminate]. destruct (nth_error _ 3); [|discriminate].
  destruct (initial_guess _ o) as [guess|]; cbn [bind]; [|discriminate].
  destruct (search_distance _ o) as [d|]; cbn [bind]; [|discriminate]. rewrite Eb.
  destruct (minimize _ _ _ _) as [x|] eqn:E; cbn [bind]; [|discriminate]. intros [= <-].
  exists b. split; [reflexivity|]. apply Hmin in E.
  destruct (surface_point_location (gd_default_elevation (rp_domain m)) em x Hem) as [A [B _]].
  unfold inside. rewrite A, B. exact E.
Qed.
Print Assumptions C67_inside_ground_domain.

Definition demo_gd : GroundDomain := mkGroundDomain GEODETIC cube None None (List.map geo_of cube) (Some (mkBounds 0 0 1 1)) 4.
Definition constant_poly : Poly := mkPoly 0 0 0 [1].
Definition demo_rsm : RsmPoly :=
  mkRsmPoly demo_gd 0 0 0 0 0 1 1 1 1 1 (mkPoly 0 1 0 [0; 1]) constant_poly (mkPoly 1 0 0 [0; 1]) constant_poly.
Example C67_non_vacuous :
  make_ground_domain geo_of GEODETIC cube None None None = Ok (mkGroundDomain GEODETIC cube None None (List.map geo_of cube)
     (fold_left extend_bbox (List.map geo_of cube) None) (sum_elevations (List.map geo_of cube) / INR 8)) /\
  rsm_image_to_world (fun g => vec_of g) (fun _ x0 _ _ => Ok x0) demo_rsm (mkImage (1/2) (1/2)) None None = Ok (mkGeo ((0 + 1) / 2) ((0 + 1) / 2) 4) /\
  rsm_world_to_image (fun g => vec_of g) demo_rsm (mkGeo (1/2) (1/4) 4) = Ok (mkImage (1/2) (1/4)).
Proof.
  split; [reflexivity|]. split; [reflexivity|].
  unfold rsm_world_to_image. cbn [demo_rsm rp_domain geodetic_to_ground_domain_coordinate demo_gd gd_form bind].
  f_equal. destruct (C23_ground_to_image demo_rsm (vec_of (mkGeo (1/2) (1/4) 4))) as [X Y].
  destruct (ground_domain_to_image _ _) as [a b]. cbn in X, Y. f_equal; [rewrite X | rewrite Y]; field.
Qed.

(** The optimiser of C20, also giving up outside the bounds. *)
Example C67_accuracy_non_vacuous :
  let minimize := fun f x0 (b : option Bounds) (_ : list (R * R)) =>
    match b with
    | Some b => if Rle_dec (b_min_x b) (fst x0) then if Rle_dec (fst x0) (b_max_x b) then if Rle_dec (b_min_y b) (snd x0) then if Rle_dec (snd x0) (b_max_y b)
                then careful (1 / 100) f x0 else Err RuntimeError else Err RuntimeError else Err RuntimeError else Err RuntimeError
    | None => careful (1 / 100) f x0
    end in
  (forall f x0 b s x, minimize f x0 b s = Ok x -> exists d, f x = Ok d /\ d <= 1 / 100) /\
  (forall f x0 b s x, minimize f x0 (Some b) s = Ok x -> b_min_x b <= fst x <= b_max_x b /\ b_min_y b <= snd x <= b_max_y b) /\
  rsm_image_to_world (fun g => vec_of g) minimize demo_rsm (mkImage (1 / 2) (1 / 2)) None None = Ok (mkGeo ((0 + 1) / 2) ((0 + 1) / 2) 4).
Proof.
  intros minimize. split; [|split].
  - intros f x0 [b|] s x; cbn; [|apply careful_good]. repeat (destruct (Rle_dec _ _); [|discriminate]). apply careful_good.
  - intros f x0 b s x. cbn. destruct (Rle_dec _ _); [|discriminate]. destruct (Rle_dec _ _); [|discriminate].
    destruct (Rle_dec _ _); [|discriminate]. destruct (Rle_dec _ _); [|discriminate].
    unfold careful. destruct (f x0); cbn; [|discriminate]. destruct (Rle_dec a (1 / 100)); [|discriminate]. intros [= <-]. auto.
  - unfold rsm_image_to_world. cbn [bind initial_guess search_distance option_get].
    unfold minimize. cbn -[rsm_objective careful Rle_dec Rdiv].
    repeat (destruct (Rle_dec _ _); [|lra]). unfold careful.
    assert (E : rsm_objective (fun g => vec_of g) demo_rsm (mkImage (1 / 2) (1 / 2)) None ((0 + 1) / 2, (0 + 1) / 2) = Ok 0).
    { unfold rsm_objective, rsm_world_to_image. cbn [demo_rsm rp_domain geodetic_to_ground_domain_coordinate demo_gd gd_form bind].
      f_equal. unfold image_distance. match goal with |- context [ground_domain_to_image ?m ?v] => destruct (C23_ground_to_image m v) as [X Y] end.
      rewrite X, Y. cbn.
      match goal with |- sqrt ?a = _ => replace a with 0 by field end. apply sqrt_0. }
    rewrite E. cbn. destruct (Rle_dec 0 (1 / 100)); [reflexivity|lra].
Qed.
