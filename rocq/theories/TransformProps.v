(** Property theorems for projective, affine, chipped and composite sensor models: C27 - C31. *)
Require Import ZArith Reals String List Lra Lia Bool.
Require Import Verif.Base Verif.BaseFacts Verif.Vec Verif.VecFacts Verif.RpcModel.
Require Import Verif.TransformModel Verif.PolySpec Verif.TransformSpec Verif.TransformProofs.
Import ListNotations.
Local Open Scope R_scope.

(** ** C27: projective transforms invert *)
Theorem C27_inverse_of_forward :
  forall (t : Projective) (ps : list (R * R)),
  determinant t <> 0 -> (forall p, In p ps -> denominator t p <> 0) -> inverse t (forward t ps) = ps.
Proof.
  intros t ps N H. unfold inverse, forward. rewrite map_map. rewrite <- (map_id ps) at 2. apply map_ext_in.
  intros p Hp. apply inverse_forward; auto.
Qed.
Print Assumptions C27_inverse_of_forward.

Theorem C27_forward_of_inverse :
  forall (t : Projective) (qs : list (R * R)),
  determinant t <> 0 ->
  (forall q, In q qs -> a1 t * b2 t - a2 t * b1 t + (b1 t * c1 t - b2 t * c0 t) * fst q + (a2 t * c0 t - a1 t * c1 t) * snd q <> 0) ->
  forward t (inverse t qs) = qs.
Proof.
  intros t qs N H. unfold inverse, forward. rewrite map_map. rewrite <- (map_id qs) at 2. apply map_ext_in.
  intros p Hp. apply forward_inverse; auto. exact (H p Hp).
Qed.
Print Assumptions C27_forward_of_inverse.

(** forward is the map of the English statement. *)
Theorem C27_forward_takes :
  forall (t : Projective) (s : R * R), denominator t s <> 0 -> takes t s (forward1 t s).
Proof. intros t s H. split; [exact H|]. split; reflexivity. Qed.
Print Assumptions C27_forward_takes.

(** The sensor model: a pixel maps to a location and back to the same pixel, for any elevation
    model that leaves longitude and latitude alone. *)
Theorem C27_sensor_round_trip :
  forall (t : Projective) (i : Image) (em : option emodel) (o : option dict),
  (forall f, em = Some f -> forall w, longitude (f w) = longitude w /\ latitude (f w) = latitude w) ->
  determinant t <> 0 ->
  a1 t * b2 t - a2 t * b1 t + (b1 t * c1 t - b2 t * c0 t) * ix i + (a2 t * c0 t - a1 t * c1 t) * iy i <> 0 ->
  bind (projective_image_to_world t i em o) (projective_world_to_image t) = Ok i.
Proof.
  intros t [x y] em o Hem N D. unfold projective_image_to_world, projective_world_to_image. cbn [bind].
  set (w := inverse1 t (ix (mkImage x y), iy (mkImage x y))).
  assert (E : forward1 t w = (x, y)) by (apply forward_inverse; [exact N | exact D]).
  assert (P : (longitude (match em with None => mkGeo (fst w) (snd w) 0 | Some f => f (mkGeo (fst w) (snd w) 0) end),
               latitude (match em with None => mkGeo (fst w) (snd w) 0 | Some f => f (mkGeo (fst w) (snd w) 0) end)) = w).
  { destruct em as [f|]; [destruct (Hem f eq_refl (mkGeo (fst w) (snd w) 0)) as [A B]; rewrite A, B|]; cbn [longitude latitude]; now rewrite <- surjective_pairing. }
  rewrite P, E. reflexivity.
Qed.
Print Assumptions C27_sensor_round_trip.

Theorem C27_world_round_trip :
  forall (t : Projective) (g : Geodetic) (o : option dict),
  determinant t <> 0 -> denominator t (longitude g, latitude g) <> 0 ->
  bind (projective_world_to_image t g) (fun i => projective_image_to_world t i None o)
  = Ok (mkGeo (longitude g) (latitude g) 0).
Proof.
  intros t g o N D. unfold projective_image_to_world, projective_world_to_image. cbn [bind ix iy].
  rewrite <- surjective_pairing, inverse_forward by assumption. reflexivity.
Qed.
Print Assumptions C27_world_round_trip.

Definition demo_projective : Projective := mkProjective 1 2 0 3 0 4 (1/2) 0.
Example C27_non_vacuous :
  determinant demo_projective <> 0 /\ denominator demo_projective (2, 5) <> 0 /\
  forward1 demo_projective (2, 5) = (5/2, 23/2) /\ inverse1 demo_projective (5/2, 23/2) = (2, 5).
Proof.
  unfold determinant, denominator, forward1, inverse1. cbn. split; [lra|]. split; [lra|].
  split; f_equal; field.
Qed.

(** Lists of points, and the sensor model with an elevation model, both ways. *)
Example C27_round_trips_non_vacuous :
  inverse demo_projective (forward demo_projective [(2, 5); (0, 1)]) = [(2, 5); (0, 1)] /\
  forward demo_projective (inverse demo_projective [(5/2, 23/2); (1, 2)]) = [(5/2, 23/2); (1, 2)] /\
  takes demo_projective (2, 5) (forward1 demo_projective (2, 5)) /\
  bind (projective_image_to_world demo_projective (mkImage (5/2) (23/2)) (Some (fun w => mkGeo (longitude w) (latitude w) 30)) None)
       (projective_world_to_image demo_projective) = Ok (mkImage (5/2) (23/2)) /\
  bind (projective_world_to_image demo_projective (mkGeo 2 5 100)) (fun i => projective_image_to_world demo_projective i None None) = Ok (mkGeo 2 5 0).
Proof.
  assert (D : determinant demo_projective <> 0) by (unfold determinant; cbn; lra).
  split; [|split; [|split; [|split]]].
  - apply C27_inverse_of_forward; [exact D|]. intros p [<-|[<-|[]]]; unfold denominator; cbn; lra.
  - apply C27_forward_of_inverse; [exact D|]. intros p [<-|[<-|[]]]; cbn; lra.
  - apply C27_forward_takes. unfold denominator; cbn; lra.
  - apply C27_sensor_round_trip; [intros f [= <-] w; cbn; auto | exact D | cbn; lra].
  - rewrite C27_world_round_trip; [reflexivity | exact D | unfold denominator; cbn; lra].
Qed.

(** ** C28: projective estimation *)

(** The estimated transform has the least total algebraic error of all transforms, provided
    np.linalg.lstsq keeps its promise. *)
Theorem C28_least_error :
  forall lstsq (src dst : list (R * R)) (t : Projective),
  least_squares lstsq -> List.length src = List.length dst -> estimate lstsq src dst = Ok t ->
  forall t', total_error t src dst <= total_error t' src dst.
Proof. intros. now apply (estimate_minimises lstsq). Qed.
Print Assumptions C28_least_error.

(** If some projective transform takes each source point to its destination, so does the
    estimate wherever it is defined. *)
Theorem C28_exact_fit :
  forall lstsq (src dst : list (R * R)) (t t0 : Projective),
  least_squares lstsq -> Forall2 (takes t0) src dst -> estimate lstsq src dst = Ok t ->
  forall s d, In (s, d) (combine src dst) -> denominator t s <> 0 -> forward1 t s = d.
Proof. intros lstsq src dst t t0 LS F E s d H N. apply fits_forward; [|exact N]. now apply (estimate_fits lstsq src dst t t0). Qed.
Print Assumptions C28_exact_fit.

(** With four correspondences in general position among them, the estimate is that transform. *)
Theorem C28_recovers_transform :
  forall lstsq (src dst : list (R * R)) (t t0 : Projective) p1 p2 p3 p4 q1 q2 q3 q4,
  least_squares lstsq -> Forall2 (takes t0) src dst -> estimate lstsq src dst = Ok t ->
  In (p1, q1) (combine src dst) -> In (p2, q2) (combine src dst) ->
  In (p3, q3) (combine src dst) -> In (p4, q4) (combine src dst) ->
  general_position p1 p2 p3 p4 -> general_position q1 q2 q3 q4 ->
  t = t0.
Proof.
  intros lstsq src dst t t0 p1 p2 p3 p4 q1 q2 q3 q4 LS F E I1 I2 I3 I4 GP GQ.
  pose proof (estimate_fits lstsq src dst t t0 LS F E) as FT.
  assert (G : forall s d, In (s, d) (combine src dst) -> fits t0 s d).
  { clear - F. induction F; cbn; intros s d H'; [contradiction|]. destruct H' as [[= <- <-]|H']; [now apply takes_fits | auto]. }
  apply (fits_unique t t0 p1 p2 p3 p4 q1 q2 q3 q4); auto.
Qed.
Print Assumptions C28_recovers_transform.

(** Lists of different lengths are rejected, except that a single destination stands for all. *)
Theorem C28_mismatched_lengths :
  forall lstsq (src dst : list (R * R)),
  List.length dst <> List.length src -> List.length dst <> 1%nat -> estimate lstsq src dst = Err ValueError.
Proof.
  intros lstsq src dst N N1. unfold estimate. destruct src as [|s src]; [reflexivity|]. unfold broadcast.
  destruct (Nat.eqb_spec (List.length dst) (List.length (s :: src))); [contradiction|].
  destruct dst as [|d [|]]; try reflexivity. now contradiction N1.
Qed.
Print Assumptions C28_mismatched_lengths.

(** No points at all, or a solver that does not deliver eight parameters, are rejected. *)
Theorem C28_rejected :
  forall lstsq (src dst : list (R * R)) (world : list Geodetic) (image : list Image) (full : Sensor),
  estimate lstsq [] dst = Err ValueError /\
  make_projective_sensor lstsq world [] = Err ValueError /\ make_projective_sensor lstsq [] image = Err ValueError /\
  make_chipped lstsq image [] full = Err ValueError /\ make_chipped lstsq [] image full = Err ValueError /\
  ((forall a b m, lstsq a b = Ok m -> List.length m <> 8%nat) -> List.length dst = List.length src -> src <> [] ->
   (exists a b m, lstsq a b = Ok m /\ estimate lstsq src dst = Err ValueError) \/
   (exists a b e, lstsq a b = Err e /\ estimate lstsq src dst = Err e)).
Proof.
  intros lstsq src dst world image full. split; [reflexivity|]. split; [reflexivity|]. split; [destruct image; reflexivity|].
  split; [reflexivity|]. split; [destruct image; reflexivity|].
  intros L8 L N. unfold estimate. destruct src as [|s src]; [contradiction|]. rewrite broadcast_same by (now symmetry). cbn [bind]. cbv zeta.
  set (a := (_ ++ _)%list). set (b := (_ ++ _)%list). destruct (lstsq a b) as [m|e] eqn:E; cbn [bind].
  - left. exists a, b, m. split; [exact E|]. specialize (L8 _ _ _ E).
    destruct m as [|m0 [|m1 [|m2 [|m3 [|m4 [|m5 [|m6 [|m7 [|m8 m]]]]]]]]]; try reflexivity. now contradiction L8.
  - right. exists a, b, e. now split.
Qed.
Print Assumptions C28_rejected.

(** A least squares solver that knows one answer, and is therefore right whenever it answers. *)
Definition knowing (t : Projective) : list (list R) -> list R -> res (list R) :=
  fun a b => if Req_EM_T (residual a b (params t)) 0 then Ok (params t) else Err LinAlgError.
Lemma knowing_least_squares t : least_squares (knowing t).
Proof.
  intros a b m. unfold knowing. destruct (Req_EM_T (residual a b (params t)) 0) as [e|]; [|discriminate]. intros [= <-].
  split; [reflexivity|]. intros m' _. rewrite e. unfold residual. apply total_nonneg. intros x Hx.
  apply in_map_iff in Hx. destruct Hx as [p [<- _]]. apply pow2_ge_0.
Qed.
Lemma knowing_estimate t src dst : src <> [] -> Forall2 (takes t) src dst -> estimate (knowing t) src dst = Ok t.
Proof.
  intros N F. unfold estimate. destruct src as [|s0 src0] eqn:Es; [contradiction|]. rewrite <- Es in *.
  rewrite (broadcast_same _ _ (forall2_length _ _ _ F)). cbn [bind]. unfold knowing.
  rewrite residual_is_total_error by (exact (forall2_length _ _ _ F)). rewrite (takes_total_error _ _ _ F).
  destruct (Req_EM_T 0 0); [destruct t; reflexivity | congruence].
Qed.
Lemma takes_affine e k f l s d : fst d = e + k * fst s -> snd d = f + l * snd s -> takes (mkProjective e k 0 f 0 l 0 0) s d.
Proof.
  intros X Y. unfold takes, denominator. cbn. replace (1 + 0 * fst s + 0 * snd s) with 1 by ring.
  rewrite X, Y. repeat split; try lra; field.
Qed.

(** The corners of a rectangle. *)
Definition corners (x y w h : R) : list (R * R) := [(x, y); (x + w, y); (x + w, y + h); (x, y + h)].
Example C28_non_vacuous :
  general_position (10, 20) (110, 20) (110, 70) (10, 70) /\ general_position (0, 0) (100, 0) (100, 50) (0, 50) /\
  Forall2 (takes (mkProjective (-10) 1 0 (-20) 0 1 0 0)) (corners 10 20 100 50) (corners 0 0 100 50) /\
  exists lstsq t, least_squares lstsq /\ estimate lstsq (corners 10 20 100 50) (corners 0 0 100 50) = Ok t.
Proof.
  split; [unfold general_position, collinear; cbn; repeat split; lra|].
  split; [unfold general_position, collinear; cbn; repeat split; lra|].
  assert (F : Forall2 (takes (mkProjective (-10) 1 0 (-20) 0 1 0 0)) (corners 10 20 100 50) (corners 0 0 100 50)).
  { repeat (apply Forall2_cons; [apply takes_affine; cbn; lra|]). apply Forall2_nil. }
  split; [exact F|]. exists (knowing (mkProjective (-10) 1 0 (-20) 0 1 0 0)). eexists. split; [apply knowing_least_squares|].
  apply knowing_estimate; [discriminate | exact F].
Qed.

(** The estimate from those corners, and what it does to a corner and to other transforms. *)
Example C28_estimate_non_vacuous :
  exists lstsq t, least_squares lstsq /\ estimate lstsq (corners 10 20 100 50) (corners 0 0 100 50) = Ok t /\
  t = mkProjective (-10) 1 0 (-20) 0 1 0 0 /\ forward1 t (110, 70) = (100, 50) /\
  total_error t (corners 10 20 100 50) (corners 0 0 100 50) <= total_error demo_projective (corners 10 20 100 50) (corners 0 0 100 50) /\
  estimate lstsq (corners 10 20 100 50) [(0, 0); (100, 0)] = Err ValueError.
Proof.
  destruct C28_non_vacuous as (G1 & G2 & F & lstsq & t & L & E). exists lstsq, t. split; [exact L|]. split; [exact E|].
  assert (X : t = mkProjective (-10) 1 0 (-20) 0 1 0 0).
  { eapply (C28_recovers_transform lstsq (corners 10 20 100 50) (corners 0 0 100 50) t _
      (10, 20) (10 + 100, 20) (10 + 100, 20 + 50) (10, 20 + 50) (0, 0) (0 + 100, 0) (0 + 100, 0 + 50) (0, 0 + 50)); try eassumption;
      try (cbn; tauto); unfold general_position, collinear; cbn; repeat split; lra. }
  split; [exact X|]. split.
  - rewrite (C28_exact_fit lstsq (corners 10 20 100 50) (corners 0 0 100 50) t (mkProjective (-10) 1 0 (-20) 0 1 0 0) L F E (110, 70) (100, 50)); [reflexivity | |].
    + unfold corners. cbn [combine]. right. right. left. repeat f_equal; lra.
    + rewrite X. unfold denominator. cbn. lra.
  - split; [apply (C28_least_error lstsq); auto|]. apply C28_mismatched_lengths; cbn; lia.
Qed.

(** ** C29: affine sensor models *)

(** In the dataset's own coordinate system: the geotransform of GDAL, in degrees, elevation zero
    or what the elevation model assigns. *)
Theorem C29_geotransform :
  forall g0 g1 g2 g3 g4 g5 rest (i : Image) (em : option emodel) (o : option dict) m,
  make_affine (g0 :: g1 :: g2 :: g3 :: g4 :: g5 :: rest) None = Ok m ->
  let g := mkGeo ((g0 + g1 * ix i + g2 * iy i) * PI / 180) ((g3 + g4 * ix i + g5 * iy i) * PI / 180) 0 in
  affine_image_to_world m i em o = Ok (match em with None => g | Some f => f g end).
Proof.
  intros g0 g1 g2 g3 g4 g5 rest i em o m E g. revert E. unfold make_affine. destruct (mat_inv _) as [inv|[]]; try discriminate.
  intros [= <-]. unfold affine_image_to_world. cbn.
  replace (mkGeo _ _ 0) with g; [reflexivity|]. unfold g, radians, vdot. cbn. f_equal; field.
Qed.
Print Assumptions C29_geotransform.

(** With a coordinate reference system the same position is handed to it first. *)
Theorem C29_reprojection :
  forall g0 g1 g2 g3 g4 g5 rest crs (i : Image) (em : option emodel) (o : option dict) m,
  make_affine (g0 :: g1 :: g2 :: g3 :: g4 :: g5 :: rest) (Some crs) = Ok m ->
  let w := to_wgs84 crs (mkVec (g0 + g1 * ix i + g2 * iy i) (g3 + g4 * ix i + g5 * iy i) 1) in
  let g := mkGeo (vx w * PI / 180) (vy w * PI / 180) 0 in
  affine_image_to_world m i em o = Ok (match em with None => g | Some f => f g end).
Proof.
  intros g0 g1 g2 g3 g4 g5 rest crs i em o m E w g. revert E. unfold make_affine. destruct (mat_inv _) as [inv|[]]; try discriminate.
  intros [= <-]. unfold affine_image_to_world. cbn.
  replace (mulv _ _) with (mkVec (g0 + g1 * ix i + g2 * iy i) (g3 + g4 * ix i + g5 * iy i) 1); [reflexivity|].
  unfold mulv, vdot. cbn. f_equal; ring.
Qed.
Print Assumptions C29_reprojection.

Theorem C29_rejects_singular :
  forall g0 g1 g2 g3 g4 g5 rest crs,
  (g1 * g5 - g2 * g4 = 0 -> make_affine (g0 :: g1 :: g2 :: g3 :: g4 :: g5 :: rest) crs = Err ValueError) /\
  (g1 * g5 - g2 * g4 <> 0 -> exists m, make_affine (g0 :: g1 :: g2 :: g3 :: g4 :: g5 :: rest) crs = Ok m).
Proof.
  intros g0 g1 g2 g3 g4 g5 rest crs. unfold make_affine.
  set (m := mkMat (mkVec g1 g2 g0) (mkVec g4 g5 g3) (mkVec 0 0 1)).
  assert (D : det m = g1 * g5 - g2 * g4) by (unfold det, vdot, vcross, m; cbn; ring).
  split; intros H; rewrite <- D in H.
  - now rewrite (mat_inv_err m H).
  - destruct (mat_inv_ok m H) as [i ->]. eauto.
Qed.
Print Assumptions C29_rejects_singular.

(** A geotransform has six entries. *)
Theorem C29_rejects_short :
  forall gt crs, (List.length gt < 6)%nat -> make_affine gt crs = Err IndexError.
Proof. intros [|g0 [|g1 [|g2 [|g3 [|g4 [|g5 gt]]]]]] crs H; try reflexivity. cbn in H. lia. Qed.
Print Assumptions C29_rejects_short.

Lemma degrees_radians r : degrees (radians r) = r.
Proof. unfold degrees, radians. pose proof PI_RGT_0. field. lra. Qed.
Lemma radians_degrees r : radians (degrees r) = r.
Proof. unfold degrees, radians. pose proof PI_RGT_0. field. lra. Qed.

(** Round trips, with or without a CRS, for any elevation model that leaves longitude and
    latitude alone.  The transformer has to return to the image CRS with the third coordinate
    equal to one. *)
Definition returns_with_unit_height (crs : option Crs) (i : Image) (gt : list R) : Prop :=
  match crs, gt with
  | Some t, g0 :: g1 :: g2 :: g3 :: g4 :: g5 :: _ =>
    let p := mkVec (g0 + g1 * ix i + g2 * iy i) (g3 + g4 * ix i + g5 * iy i) 1 in
    from_wgs84 t (mkVec (vx (to_wgs84 t p)) (vy (to_wgs84 t p)) 1) = p
  | _, _ => True
  end.

Theorem C29_image_round_trip :
  forall gt crs (i : Image) (em : option emodel) (o : option dict) m,
  make_affine gt crs = Ok m ->
  (forall f, em = Some f -> forall w, longitude (f w) = longitude w /\ latitude (f w) = latitude w) ->
  returns_with_unit_height crs i gt ->
  bind (affine_image_to_world m i em o) (affine_world_to_image m) = Ok i.
Proof.
  intros gt crs [x y] em o m. destruct gt as [|g0 [|g1 [|g2 [|g3 [|g4 [|g5 rest]]]]]]; try discriminate.
  unfold make_affine. set (M := mkMat _ _ _). destruct (mat_inv M) as [inv|[]] eqn:Ei; try discriminate.
  intros [= <-] Hem Hc. unfold affine_image_to_world, affine_world_to_image. cbn [bind transform inv_transform image_to_wgs84 ix iy].
  set (p := mulv M (mkVec x y 1)).
  assert (Ep : p = mkVec (g0 + g1 * x + g2 * y) (g3 + g4 * x + g5 * y) 1).
  { unfold p, M, mulv, vdot. cbn. f_equal; ring. }
  assert (L : forall u v, let g := mkGeo (radians u) (radians v) 0 in
     mkVec (degrees (longitude (match em with None => g | Some f => f g end)))
           (degrees (latitude (match em with None => g | Some f => f g end))) 1 = mkVec u v 1).
  { intros u v g. destruct em as [f|]; [destruct (Hem f eq_refl g) as [A B]; rewrite A, B|]; unfold g; cbn; now rewrite !degrees_radians. }
  rewrite L. f_equal.
  assert (Back : mulv inv p = mkVec x y 1) by (apply (mat_inv_l M); exact Ei).
  destruct crs as [t|].
  - unfold returns_with_unit_height in Hc. cbv zeta in Hc. cbn [ix iy] in Hc. rewrite <- Ep in Hc. rewrite Hc, Back. reflexivity.
  - replace (mkVec (vx p) (vy p) 1) with p by (rewrite Ep; reflexivity). rewrite Back. reflexivity.
Qed.
Print Assumptions C29_image_round_trip.

Theorem C29_world_round_trip :
  forall gt (g : Geodetic) (o : option dict) m,
  make_affine gt None = Ok m ->
  bind (affine_world_to_image m g) (fun i => affine_image_to_world m i None o)
  = Ok (mkGeo (longitude g) (latitude g) 0).
Proof.
  intros gt g o m. destruct gt as [|g0 [|g1 [|g2 [|g3 [|g4 [|g5 rest]]]]]]; try discriminate.
  unfold make_affine. set (M := mkMat _ _ _). destruct (mat_inv M) as [inv|[]] eqn:Ei; try discriminate.
  intros [= <-]. unfold affine_image_to_world, affine_world_to_image. cbn [bind transform inv_transform image_to_wgs84 ix iy].
  set (q := mkVec (degrees (longitude g)) (degrees (latitude g)) 1).
  assert (Z : vz (mulv inv q) = 1).
  { pose proof (mat_inv_r M inv q Ei) as E. apply (f_equal vz) in E. unfold M in E. cbn in E. unfold vdot in E. cbn in E.
    unfold mulv. cbn. unfold vdot in *. lra. }
  replace (mkVec (vx (mulv inv q)) (vy (mulv inv q)) 1) with (mulv inv q) by (apply vec_eq; cbn in *; auto).
  rewrite (mat_inv_r M inv q Ei). unfold q. cbn. now rewrite !radians_degrees.
Qed.
Print Assumptions C29_world_round_trip.

(** With a CRS whose heights are in feet the transformer is invertible, but it returns a third
    coordinate different from one, which the code uses as homogeneous coordinate. *)
Definition feet_crs : Crs :=
  mkCrs (fun p => mkVec (vx p) (vy p) (vz p * 0.3048)) (fun p => mkVec (vx p) (vy p) (vz p / 0.3048)).
Theorem C29_height_unit_refuted :
  (forall p, from_wgs84 feet_crs (to_wgs84 feet_crs p) = p) /\
  exists m i i', make_affine [100; 1; 0; 50; 0; -1] (Some feet_crs) = Ok m /\
    bind (affine_image_to_world m i None None) (affine_world_to_image m) = Ok i' /\ ix i = 0 /\ ix i' < -200.
Proof.
  split.
  - intros [a b c]. unfold feet_crs. cbn -[Rdiv]. f_equal. field. lra.
  - destruct (C29_rejects_singular 100 1 0 50 0 (-1) [] (Some feet_crs)) as [_ H]. destruct H as [m E]; [lra|].
    exists m, (mkImage 0 0). eexists. split; [exact E|]. split; [reflexivity|]. split; [reflexivity|]. cbn [ix].
    unfold make_affine in E. destruct (mat_inv _) as [inv|[]] eqn:Ei; try discriminate. injection E as <-.
    cbn -[mulv]. rewrite !degrees_radians.
    match goal with |- context [mulv inv ?q] => pose proof (mat_inv_r _ _ q Ei) as B end.
    match type of B with mulv _ (mulv inv ?q) = _ => destruct (mulv inv q) as [x y z] end.
    pose proof (f_equal vx B) as BX. pose proof (f_equal vz B) as BZ. unfold mulv, vdot in BX, BZ. cbn in BX, BZ. cbn.
    lra.
Qed.
Print Assumptions C29_height_unit_refuted.

(** In general the returned pixel is displaced by what moves the geotransform's origin by the
    difference of that coordinate from one; the horizontal part of the transformer is assumed to
    be invertible. *)
Theorem C29_displacement :
  forall g0 g1 g2 g3 g4 g5 rest (t : Crs) (i : Image) (em : option emodel) (o : option dict) m (h : R),
  make_affine (g0 :: g1 :: g2 :: g3 :: g4 :: g5 :: rest) (Some t) = Ok m ->
  (forall f, em = Some f -> forall w, longitude (f w) = longitude w /\ latitude (f w) = latitude w) ->
  let p := mkVec (g0 + g1 * ix i + g2 * iy i) (g3 + g4 * ix i + g5 * iy i) 1 in
  from_wgs84 t (mkVec (vx (to_wgs84 t p)) (vy (to_wgs84 t p)) 1) = mkVec (vx p) (vy p) h ->
  exists i', bind (affine_image_to_world m i em o) (affine_world_to_image m) = Ok i' /\
    g1 * (ix i' - ix i) + g2 * (iy i' - iy i) = (1 - h) * g0 /\
    g4 * (ix i' - ix i) + g5 * (iy i' - iy i) = (1 - h) * g3 /\
    (i' = i <-> h = 1 \/ g0 = 0 /\ g3 = 0).
Proof.
  intros g0 g1 g2 g3 g4 g5 rest t [x y] em o m h E Hem p. cbn [ix iy] in p.
  destruct (Req_dec (g1 * g5 - g2 * g4) 0) as [D|D].
  { destruct (C29_rejects_singular g0 g1 g2 g3 g4 g5 rest (Some t)) as [F _]. rewrite (F D) in E. discriminate. }
  revert E. unfold make_affine. set (M := mkMat _ _ _). destruct (mat_inv M) as [inv|[]] eqn:Ei; try discriminate.
  intros [= <-] Hc. unfold affine_image_to_world, affine_world_to_image. cbn [bind transform inv_transform image_to_wgs84 ix iy].
  assert (Ep : mulv M (mkVec x y 1) = p) by (unfold p, M, mulv, vdot; cbn; f_equal; ring). rewrite Ep.
  assert (L : forall u v, let g := mkGeo (radians u) (radians v) 0 in
     mkVec (degrees (longitude (match em with None => g | Some f => f g end)))
           (degrees (latitude (match em with None => g | Some f => f g end))) 1 = mkVec u v 1).
  { intros u v g. destruct em as [f|]; [destruct (Hem f eq_refl g) as [A B]; rewrite A, B|]; unfold g; cbn; now rewrite !degrees_radians. }
  rewrite L, Hc. eexists. split; [reflexivity|]. cbn [ix iy].
  pose proof (mat_inv_r M inv (mkVec (vx p) (vy p) h) Ei) as B. destruct (mulv inv _) as [x' y' z'].
  pose proof (f_equal vx B) as BX. pose proof (f_equal vy B) as BY. pose proof (f_equal vz B) as BZ.
  unfold p, M, mulv, vdot in BX, BY, BZ. cbn in BX, BY, BZ. cbn [vx vy].
  assert (Z : z' = h) by lra. subst z'. split; [lra|]. split; [lra|]. split.
  - intros [= -> ->]. destruct (Req_dec h 1); [now left|right].
    assert (A : (1 - h) * g0 = 0) by lra. assert (A' : (1 - h) * g3 = 0) by lra.
    apply Rmult_integral in A, A'. split; lra.
  - intros H. assert (A : (1 - h) * g0 = 0 /\ (1 - h) * g3 = 0) by (destruct H as [->|[-> ->]]; lra).
    destruct A as [A A']. set (dx := x' - x). set (dy := y' - y).
    assert (U : g1 * dx + g2 * dy = 0) by (unfold dx, dy; lra). assert (V : g4 * dx + g5 * dy = 0) by (unfold dx, dy; lra).
    assert (X : dx * (g1 * g5 - g2 * g4) = 0).
    { replace (dx * _) with (g5 * (g1 * dx + g2 * dy) - g2 * (g4 * dx + g5 * dy)) by ring. rewrite U, V. ring. }
    assert (Y : dy * (g1 * g5 - g2 * g4) = 0).
    { replace (dy * _) with (g1 * (g4 * dx + g5 * dy) - g4 * (g1 * dx + g2 * dy)) by ring. rewrite U, V. ring. }
    apply Rmult_integral in X, Y. unfold dx, dy in X, Y. f_equal; lra.
Qed.
Print Assumptions C29_displacement.

(** The other round trip with a CRS whose transformer keeps that coordinate at one. *)
Theorem C29_world_round_trip_reprojected :
  forall gt (t : Crs) (g : Geodetic) (o : option dict) m,
  make_affine gt (Some t) = Ok m ->
  let q := from_wgs84 t (mkVec (degrees (longitude g)) (degrees (latitude g)) 1) in
  vz q = 1 -> vx (to_wgs84 t q) = degrees (longitude g) -> vy (to_wgs84 t q) = degrees (latitude g) ->
  bind (affine_world_to_image m g) (fun i => affine_image_to_world m i None o) = Ok (mkGeo (longitude g) (latitude g) 0).
Proof.
  intros gt t g o m. destruct gt as [|g0 [|g1 [|g2 [|g3 [|g4 [|g5 rest]]]]]]; try discriminate.
  intros E q Q X Y. revert E.
  unfold make_affine. set (M := mkMat _ _ _). destruct (mat_inv M) as [inv|[]] eqn:Ei; try discriminate.
  intros [= <-]. unfold affine_image_to_world, affine_world_to_image. cbn [bind transform inv_transform image_to_wgs84 ix iy].
  fold q.
  assert (Z : vz (mulv inv q) = 1).
  { pose proof (mat_inv_r M inv q Ei) as E. apply (f_equal vz) in E. unfold M in E. cbn in E. unfold vdot in E. cbn in E.
    unfold mulv. cbn. unfold vdot in *. lra. }
  replace (mkVec (vx (mulv inv q)) (vy (mulv inv q)) 1) with (mulv inv q) by (apply vec_eq; cbn in *; auto).
  rewrite (mat_inv_r M inv q Ei), X, Y, !radians_degrees. reflexivity.
Qed.
Print Assumptions C29_world_round_trip_reprojected.

Example C29_non_vacuous :
  exists m, make_affine [10; 0.5; 0.1; 20; 0.2; -0.5] (Some (mkCrs (fun p => mkVec (vx p / 2) (vy p) (vz p)) (fun p => mkVec (vx p * 2) (vy p) (vz p)))) = Ok m /\
  forall i, returns_with_unit_height (Some (mkCrs (fun p => mkVec (vx p / 2) (vy p) (vz p)) (fun p => mkVec (vx p * 2) (vy p) (vz p)))) i [10; 0.5; 0.1; 20; 0.2; -0.5].
Proof.
  destruct (C29_rejects_singular 10 0.5 0.1 20 0.2 (-0.5) [] (Some (mkCrs (fun p => mkVec (vx p / 2) (vy p) (vz p)) (fun p => mkVec (vx p * 2) (vy p) (vz p))))) as [_ H].
  destruct H as [m E]; [lra|]. exists m. split; [exact E|]. intros i. cbn. f_equal. field.
Qed.

(** A rotated image in longitude and latitude, and the same image in a reprojected system. *)
Definition half_crs : Crs := mkCrs (fun p => mkVec (vx p / 2) (vy p) (vz p)) (fun p => mkVec (vx p * 2) (vy p) (vz p)).
Example C29_models_non_vacuous :
  (exists m, make_affine [10; 0.5; 0.1; 20; 0.2; -0.5] None = Ok m /\
    affine_image_to_world m (mkImage 4 10) None None = Ok (mkGeo (13 * PI / 180) (15.8 * PI / 180) 0) /\
    bind (affine_image_to_world m (mkImage 4 10) (Some (fun w => mkGeo (longitude w) (latitude w) 30)) None) (affine_world_to_image m) = Ok (mkImage 4 10) /\
    bind (affine_world_to_image m (mkGeo 1 (1/2) 9)) (fun i => affine_image_to_world m i None None) = Ok (mkGeo 1 (1/2) 0)) /\
  (exists m, make_affine [10; 0.5; 0.1; 20; 0.2; -0.5] (Some half_crs) = Ok m /\
    affine_image_to_world m (mkImage 4 10) None None = Ok (mkGeo (6.5 * PI / 180) (15.8 * PI / 180) 0) /\
    bind (affine_image_to_world m (mkImage 4 10) None None) (affine_world_to_image m) = Ok (mkImage 4 10) /\
    bind (affine_world_to_image m (mkGeo 1 (1/2) 9)) (fun i => affine_image_to_world m i None None) = Ok (mkGeo 1 (1/2) 0)) /\
  make_affine [10; 0.5; 0.1; 20; 1; 0.2] None = Err ValueError /\ make_affine [10; 0.5; 0.1; 20; 1] None = Err IndexError /\
  (exists m i', make_affine [10; 0.5; 0; 20; 0; -0.5] (Some feet_crs) = Ok m /\
    bind (affine_image_to_world m (mkImage 4 10) None None) (affine_world_to_image m) = Ok i' /\
    0.5 * (ix i' - 4) + 0 * (iy i' - 10) = (1 - 1 / 0.3048) * 10 /\ i' <> mkImage 4 10).
Proof.
  split; [|split; [|split; [|split]]].
  - destruct (C29_rejects_singular 10 0.5 0.1 20 0.2 (-0.5) [] None) as [_ H]. destruct H as [m E]; [lra|]. exists m. split; [exact E|].
    split; [|split].
    + rewrite (C29_geotransform _ _ _ _ _ _ _ _ None None m E). cbn. do 2 f_equal; lra.
    + apply (C29_image_round_trip _ None _ _ _ m E); [intros f [= <-] w; cbn; auto | exact I].
    + rewrite (C29_world_round_trip _ _ _ m E). reflexivity.
  - destruct (C29_rejects_singular 10 0.5 0.1 20 0.2 (-0.5) [] (Some half_crs)) as [_ H]. destruct H as [m E]; [lra|]. exists m. split; [exact E|].
    split; [|split].
    + rewrite (C29_reprojection _ _ _ _ _ _ _ _ _ None None m E). cbn. do 2 f_equal; lra.
    + apply (C29_image_round_trip _ _ _ _ _ m E); [discriminate|]. cbn. f_equal. lra.
    + rewrite (C29_world_round_trip_reprojected _ _ _ _ m E); [reflexivity | reflexivity | cbn; lra | reflexivity].
  - apply (proj1 (C29_rejects_singular 10 0.5 0.1 20 1 0.2 [] None)). lra.
  - apply C29_rejects_short. cbn. lia.
  - destruct (C29_rejects_singular 10 0.5 0 20 0 (-0.5) [] (Some feet_crs)) as [_ H]. destruct H as [m E]; [lra|].
    destruct (C29_displacement 10 0.5 0 20 0 (-0.5) [] feet_crs (mkImage 4 10) None None m (1 / 0.3048) E) as (i' & A & B & _ & D); [discriminate | reflexivity |].
    exists m, i'. split; [exact E|]. split; [exact A|]. split; [exact B|]. intros X. apply D in X. destruct X; lra.
Qed.

(** ** C30: chips *)

(** For the usual chip - an axis aligned window of the full image, scaled to the chip size - the
    sensor model of the chip is that of the full image at the scaled and shifted pixel. *)
Lemma rectangle_transform lstsq x y w h u v p q t :
  least_squares lstsq -> w <> 0 -> h <> 0 -> p <> 0 -> q <> 0 ->
  estimate lstsq (corners x y w h) (corners u v p q) = Ok t ->
  t = mkProjective (u - x * (p / w)) (p / w) 0 (v - y * (q / h)) 0 (q / h) 0 0.
Proof.
  intros LS Hw Hh Hp Hq E.
  apply (C28_recovers_transform lstsq (corners x y w h) (corners u v p q) t _
           (x, y) (x + w, y) (x + w, y + h) (x, y + h) (u, v) (u + p, v) (u + p, v + q) (u, v + q)); auto;
    try (cbn; tauto).
  - repeat (apply Forall2_cons; [apply takes_affine; cbn; now field|]). apply Forall2_nil.
  - unfold general_position, collinear; cbn. repeat split; intros C;
      apply (Rmult_integral_contrapositive_currified w h Hw Hh); nra.
  - unfold general_position, collinear; cbn. repeat split; intros C;
      apply (Rmult_integral_contrapositive_currified p q Hp Hq); nra.
Qed.

Definition image_corners (x y w h : R) : list Image :=
  [mkImage x y; mkImage (x + w) y; mkImage (x + w) (y + h); mkImage x (y + h)].

Theorem C30_window_image_to_world :
  forall lstsq (full : Sensor) x y w h p q chip (i : Image) (em : option emodel) (o : option dict),
  least_squares lstsq -> w <> 0 -> h <> 0 -> p <> 0 -> q <> 0 ->
  make_chipped lstsq (image_corners x y w h) (image_corners 0 0 p q) full = Ok chip ->
  chipped_image_to_world chip i em o
  = image_to_world full (mkImage (x + ix i * (w / p)) (y + iy i * (h / q))) em o.
Proof.
  intros lstsq full x y w h p q chip i em o LS Hw Hh Hp Hq E. unfold make_chipped in E. cbn [image_corners] in E.
  change (List.map _ [mkImage x y; _; _; _]) with (corners x y w h) in E.
  change (List.map _ [mkImage 0 0; _; _; _]) with (corners 0 0 p q) in E.
  destruct (estimate _ _ _) as [t|] eqn:Et; cbn [bind] in E; [|discriminate]. injection E as <-.
  rewrite (rectangle_transform lstsq x y w h 0 0 p q t LS Hw Hh Hp Hq Et).
  unfold chipped_image_to_world, inverse1. cbn. f_equal. f_equal; field; auto.
Qed.
Print Assumptions C30_window_image_to_world.

Theorem C30_window_world_to_image :
  forall lstsq (full : Sensor) x y w h p q chip (g : Geodetic),
  least_squares lstsq -> w <> 0 -> h <> 0 -> p <> 0 -> q <> 0 ->
  make_chipped lstsq (image_corners x y w h) (image_corners 0 0 p q) full = Ok chip ->
  chipped_world_to_image chip g
  = match world_to_image full g with
    | Ok i => Ok (mkImage ((ix i - x) * (p / w)) ((iy i - y) * (q / h)))
    | Err e => Err e
    end.
Proof.
  intros lstsq full x y w h p q chip g LS Hw Hh Hp Hq E. unfold make_chipped in E. cbn [image_corners] in E.
  change (List.map _ [mkImage x y; _; _; _]) with (corners x y w h) in E.
  change (List.map _ [mkImage 0 0; _; _; _]) with (corners 0 0 p q) in E.
  destruct (estimate _ _ _) as [t|] eqn:Et; cbn [bind] in E; [|discriminate]. injection E as <-.
  rewrite (rectangle_transform lstsq x y w h 0 0 p q t LS Hw Hh Hp Hq Et).
  unfold chipped_world_to_image, forward1. cbn. destruct (world_to_image full g) as [i|]; cbn; [|reflexivity].
  f_equal. f_equal; field; auto.
Qed.
Print Assumptions C30_window_world_to_image.

(** For any chip transform that is invertible at the pixel, a full model that returns to the pixel
    gives a chip model that returns to the pixel. *)
Theorem C30_round_trip :
  forall (chip : Chipped) (i : Image) (em : option emodel) (o : option dict),
  let t := full_to_chip chip in
  determinant t <> 0 ->
  a1 t * b2 t - a2 t * b1 t + (b1 t * c1 t - b2 t * c0 t) * ix i + (a2 t * c0 t - a1 t * c1 t) * iy i <> 0 ->
  (forall j, bind (image_to_world (full_sensor chip) j em o) (world_to_image (full_sensor chip)) = Ok j) ->
  bind (chipped_image_to_world chip i em o) (chipped_world_to_image chip) = Ok i.
Proof.
  intros chip [x y] em o t N D H. unfold chipped_image_to_world, chipped_world_to_image. cbn [ix iy] in *.
  fold t. set (p := inverse1 t (x, y)). specialize (H (mkImage (fst p) (snd p))).
  destruct (image_to_world (full_sensor chip) _ em o) as [g|]; cbn [bind] in *; [|discriminate].
  rewrite H. cbn [bind ix iy]. rewrite <- surjective_pairing. unfold p. rewrite forward_inverse by assumption. reflexivity.
Qed.
Print Assumptions C30_round_trip.

(** A half resolution chip of a window. *)
Example C30_non_vacuous :
  exists lstsq, least_squares lstsq /\
  exists chip, make_chipped lstsq (image_corners 10 20 100 50) (image_corners 0 0 50 25) (projective_sensor demo_projective) = Ok chip.
Proof.
  set (t := mkProjective (0 - 10 * (50 / 100)) (50 / 100) 0 (0 - 20 * (25 / 50)) 0 (25 / 50) 0 0).
  exists (knowing t). split; [apply knowing_least_squares|].
  assert (F : Forall2 (takes t) (corners 10 20 100 50) (corners 0 0 50 25)).
  { repeat (apply Forall2_cons; [apply takes_affine; cbn; field|]). apply Forall2_nil. }
  exists (mkChipped (projective_sensor demo_projective) t). unfold make_chipped. cbn [image_corners].
  change (List.map _ [mkImage 10 20; _; _; _]) with (corners 10 20 100 50).
  change (List.map _ [mkImage 0 0; _; _; _]) with (corners 0 0 50 25).
  rewrite knowing_estimate; [reflexivity | discriminate | exact F].
Qed.

(** Pixel (30, 15) of that chip is pixel (70, 50) of the full image, and back. *)
Example C30_pixels_non_vacuous :
  exists lstsq chip, least_squares lstsq /\
  make_chipped lstsq (image_corners 10 20 100 50) (image_corners 0 0 50 25) (projective_sensor demo_projective) = Ok chip /\
  chipped_image_to_world chip (mkImage 30 15) None None = image_to_world (projective_sensor demo_projective) (mkImage 70 50) None None /\
  (forall g, world_to_image (projective_sensor demo_projective) g = Ok (mkImage 70 50) -> chipped_world_to_image chip g = Ok (mkImage 30 15)).
Proof.
  destruct C30_non_vacuous as (lstsq & L & chip & E). exists lstsq, chip. split; [exact L|]. split; [exact E|]. split.
  - rewrite (C30_window_image_to_world lstsq _ 10 20 100 50 50 25 chip _ None None L) by (exact E || lra).
    cbn [ix iy]. do 2 f_equal; lra.
  - intros g H. rewrite (C30_window_world_to_image lstsq _ 10 20 100 50 50 25 chip g L) by (exact E || lra).
    rewrite H. cbn [ix iy]. do 2 f_equal; lra.
Qed.
(** The round trip through a chip transform that is not a window. *)
Example C30_round_trip_non_vacuous :
  let full := projective_sensor (mkProjective 0 1 0 0 0 1 0 0) in
  bind (chipped_image_to_world (mkChipped full demo_projective) (mkImage (5/2) (23/2)) None None)
       (chipped_world_to_image (mkChipped full demo_projective)) = Ok (mkImage (5/2) (23/2)).
Proof.
  intros full. apply C30_round_trip; cbn [full_to_chip full_sensor].
  - unfold determinant. cbn. lra.
  - cbn. lra.
  - intros j. apply (C27_sensor_round_trip (mkProjective 0 1 0 0 0 1 0 0) j None None); [discriminate | unfold determinant; cbn; lra | cbn; lra].
Qed.

(** ** C31: composite sensor models *)

Theorem C31_world_to_image :
  forall (m : Composite) (g : Geodetic), composite_world_to_image m g = world_to_image (precision m) g.
Proof. reflexivity. Qed.
Print Assumptions C31_world_to_image.

(** What the precision model is called with. *)
Definition seeded (o : option dict) (w : Geodetic) (d : dict) : Prop :=
  dict_get INITIAL_GUESS d = VList [longitude w; latitude w] /\
  dict_get INITIAL_SEARCH_DISTANCE d = VNum (0.005 * PI / 180) /\
  forall k, k <> INITIAL_GUESS -> k <> INITIAL_SEARCH_DISTANCE -> dict_get k d = option_get k o.

Lemma dict_get_set_same k v d : dict_get k (dict_set k v d) = v.
Proof.
  induction d as [|[k' v'] d IH]; cbn; [now rewrite String.eqb_refl|].
  destruct (String.eqb_spec k k') as [->|N]; cbn; [now rewrite String.eqb_refl|].
  apply String.eqb_neq in N. now rewrite N.
Qed.
Lemma dict_get_set_other k k' v d : k <> k' -> dict_get k (dict_set k' v d) = dict_get k d.
Proof.
  intros N. induction d as [|[k2 v2] d IH]; cbn; [apply String.eqb_neq in N; now rewrite N|].
  destruct (String.eqb_spec k' k2) as [<-|N2]; cbn.
  - apply String.eqb_neq in N. now rewrite N.
  - now rewrite IH.
Qed.

(** The run on a heap of option dictionaries: nobody's dictionary changes, and the answer is that
    of the precision model seeded with the approximate location. *)
Theorem C31_image_to_world :
  forall (m : Composite) (h : heap) (i : Image) (em : option emodel) (r : option nat),
  (forall n, (n < List.length h)%nat -> nth_error (snd (composite_run m h i em r)) n = nth_error h n) /\
  match image_to_world (approximate m) i em (load h r) with
  | Ok w => exists d, seeded (load h r) w d /\ fst (composite_run m h i em r) = image_to_world (precision m) i em (Some d)
  | Err e => fst (composite_run m h i em r) = Err e
  end.
Proof.
  intros m h i em r. unfold composite_run. destruct (image_to_world (approximate m) i em (load h r)) as [w|e]; [|now split].
  cbv zeta. set (d0 := match load h r with None => [] | Some d => d end). set (u := List.length h).
  assert (U : (u < List.length (h ++ [d0]))%nat) by (rewrite app_length; cbn; lia).
  cbn [fst snd]. split.
  - intros n Hn. rewrite !store_other by (unfold u; lia). apply nth_error_app1. exact Hn.
  - eexists. split; [|unfold load at 1; rewrite store_same by (now rewrite store_length); reflexivity].
    rewrite store_nth by exact U.
    replace (nth u (h ++ [d0]) []) with d0 by (unfold u; rewrite app_nth2, Nat.sub_diag; [reflexivity | lia]).
    split; [|split].
    + rewrite dict_get_set_other by discriminate. apply dict_get_set_same.
    + rewrite dict_get_set_same. reflexivity.
    + intros k K1 K2. rewrite !dict_get_set_other by assumption. unfold d0, option_get. now destruct (load h r).
Qed.
Print Assumptions C31_image_to_world.

(** With an RPC precision model the search starts exactly at the approximate location with a
    triangle of 0.005 degrees. *)
Theorem C31_seeds_rpc_search :
  forall minimize (approx : Sensor) (rpc : RPC) (i : Image) (em : option emodel) (o : option dict) (w : Geodetic),
  image_to_world approx i em o = Ok w ->
  let start := (longitude w, latitude w) in
  composite_image_to_world (mkComposite approx (rpc_sensor minimize rpc)) i em o
  = bind (minimize (rpc_objective rpc i em) start (equilateral_triangle start (0.005 * PI / 180)))
      (fun x => Ok (surface_point (constant_elevation (height_off rpc)) em x)).
Proof.
  intros minimize approx rpc i em o w E start. unfold composite_image_to_world.
  assert (G : forall h r, load h r = o -> fst (composite_run (mkComposite approx (rpc_sensor minimize rpc)) h i em r)
    = bind (minimize (rpc_objective rpc i em) start (equilateral_triangle start (0.005 * PI / 180)))
      (fun x => Ok (surface_point (constant_elevation (height_off rpc)) em x))).
  { intros h r Eo. destruct (C31_image_to_world (mkComposite approx (rpc_sensor minimize rpc)) h i em r) as [_ S].
    rewrite Eo in S. cbn [approximate precision] in S. rewrite E in S. destruct S as [d [[S1 [S2 _]] ->]].
    cbn [image_to_world rpc_sensor]. unfold rpc_image_to_world, initial_guess, search_distance. cbn [option_get].
    rewrite S1, S2. reflexivity. }
  destruct o as [d|]; apply G; reflexivity.
Qed.
Print Assumptions C31_seeds_rpc_search.

Definition echo_sensor : Sensor :=
  mkSensor (fun i _ o => match option_get INITIAL_GUESS o with VList [x; y] => Ok (mkGeo x y 7) | _ => Err ValueError end)
           (fun g => Ok (mkImage 0 0)).
Example C31_non_vacuous :
  exists x y h, composite_run (mkComposite (projective_sensor (mkProjective 0 1 0 0 0 1 0 0)) echo_sensor)
    [[("other"%string, VNum 3)]] (mkImage 4 5) None (Some 0%nat) = (Ok (mkGeo x y 7), h) /\ x = 4 /\ y = 5 /\
    nth_error h 0 = Some [("other"%string, VNum 3)] /\ List.length h = 2%nat.
Proof. eexists _, _, _. split; [reflexivity|]. split; [cbn; field|]. split; [cbn; field|]. now split. Qed.

(** With an RPC model the search starts at the location of the approximate model. *)
Example C31_search_non_vacuous :
  forall minimize rpc,
  composite_image_to_world (mkComposite (projective_sensor (mkProjective 0 1 0 0 0 1 0 0)) (rpc_sensor minimize rpc)) (mkImage 4 5) None None
  = bind (minimize (rpc_objective rpc (mkImage 4 5) None) (4, 5) (equilateral_triangle (4, 5) (0.005 * PI / 180)))
      (fun x => Ok (surface_point (constant_elevation (height_off rpc)) None x)).
Proof.
  intros. apply (C31_seeds_rpc_search minimize _ rpc _ None None (mkGeo 4 5 0)).
  cbn. unfold projective_image_to_world, inverse1. cbn. do 2 f_equal; field.
Qed.
