(** Projective transforms and the sensor models built directly on linear algebra.
    Source: src/aws/osml/photogrammetry/transforms.py, projective_sensor_model.py,
    chipped_image_sensor_model.py, composite_sensor_model.py and gdal_sensor_model.py.
    Simplifications: exact reals (numpy yields inf or nan for a zero denominator; the model's
    real division is only meaningful for non-zero denominators); np.linalg.lstsq and pyproj's
    Transformer are arbitrary functions. *)
Require Import ZArith Reals String List.
Require Import Verif.Base Verif.Vec.
Require Export Verif.SensorBase.
Import ListNotations.
Local Open Scope R_scope.

(** transforms.py:16-25 [ProjectiveTransform.__init__]: the eight matrix parameters, in the
    order in which forward and inverse unpack them. *)
Record Projective := mkProjective { a0 : R; a1 : R; a2 : R; b0 : R; b1 : R; b2 : R; c0 : R; c1 : R }.

(** transforms.py:27-41 [forward] for one row of the coordinate array. *)
Definition forward1 (t : Projective) (p : R * R) : R * R :=
  let x := fst p in let y := snd p in
  ((a0 t + a1 t * x + a2 t * y) / (1 + c0 t * x + c1 t * y),
   (b0 t + b1 t * x + b2 t * y) / (1 + c0 t * x + c1 t * y)).
(** transforms.py:27-41 [forward]. *)
Definition forward (t : Projective) (ps : list (R * R)) : list (R * R) := List.map (forward1 t) ps.

(** transforms.py:43-61 [inverse] for one row of the coordinate array. *)
Definition inverse1 (t : Projective) (p : R * R) : R * R :=
  let x := fst p in let y := snd p in
  let d := a1 t * b2 t - a2 t * b1 t + (b1 t * c1 t - b2 t * c0 t) * x + (a2 t * c0 t - a1 t * c1 t) * y in
  ((a2 t * b0 t - a0 t * b2 t + (b2 t - b0 t * c1 t) * x + (a0 t * c1 t - a2 t) * y) / d,
   (a0 t * b1 t - a1 t * b0 t + (b0 t * c0 t - b1 t) * x + (a1 t - a0 t * c0 t) * y) / d).
(** transforms.py:43-61 [inverse]. *)
Definition inverse (t : Projective) (ps : list (R * R)) : list (R * R) := List.map (inverse1 t) ps.

(** transforms.py:79-91: the first [num_points] rows of the coefficient matrix. *)
Definition x_row (s d : R * R) : list R := [1; fst s; snd s; 0; 0; 0; - fst d * fst s; - fst d * snd s].
(** transforms.py:79-91: the other [num_points] rows of the coefficient matrix. *)
Definition y_row (s d : R * R) : list R := [0; 0; 0; 1; fst s; snd s; - snd d * fst s; - snd d * snd s].

(** numpy broadcasting of the destination column against the source column. *)
Definition broadcast (src dst : list (R * R)) : res (list (R * R)) :=
  if Nat.eqb (List.length dst) (List.length src) then Ok dst
  else match dst with
       | [d] => Ok (repeat d (List.length src))
       | _ => Err ValueError
       end.

Section Estimate.
(** np.linalg.lstsq(a, b, rcond=None)[0]. *)
Variable lstsq : list (list R) -> list R -> res (list R).

(** transforms.py:63-100 [estimate].  np.vstack of an empty list of coordinates raises
    ValueError in the callers; unpacking anything but eight parameters raises ValueError when
    the transform is used (modelled here, at construction). *)
Definition estimate (src dst : list (R * R)) : res Projective :=
  match src with
  | [] => Err ValueError
  | _ =>
    bind (broadcast src dst) (fun dst =>
    let sd := combine src dst in
    let a := List.map (fun p => x_row (fst p) (snd p)) sd ++ List.map (fun p => y_row (fst p) (snd p)) sd in
    let b := List.map fst dst ++ List.map snd dst in
    bind (lstsq a b) (fun m =>
    match m with
    | [p0; p1; p2; p3; p4; p5; p6; p7] => Ok (mkProjective p0 p1 p2 p3 p4 p5 p6 p7)
    | _ => Err ValueError
    end))
  end.

(** projective_sensor_model.py:19-37 [__init__]. *)
Definition make_projective_sensor (world : list Geodetic) (image : list Image) : res Projective :=
  match image with
  | [] => Err ValueError
  | _ => estimate (List.map (fun g => (longitude g, latitude g)) world) (List.map (fun i => (ix i, iy i)) image)
  end.

(** chipped_image_sensor_model.py:20-43 [__init__]. *)
Record Chipped := mkChipped { full_sensor : Sensor; full_to_chip : Projective }.
(** chipped_image_sensor_model.py:20-43 [__init__]. *)
Definition make_chipped (original chipped : list Image) (full : Sensor) : res Chipped :=
  match chipped with
  | [] => Err ValueError
  | _ => bind (estimate (List.map (fun i => (ix i, iy i)) original) (List.map (fun i => (ix i, iy i)) chipped))
           (fun t => Ok (mkChipped full t))
  end.
End Estimate.

(** projective_sensor_model.py:39-59 [image_to_world]. *)
Definition projective_image_to_world (t : Projective) (i : Image) (em : option emodel) (o : option dict) : res Geodetic :=
  let w := inverse1 t (ix i, iy i) in
  let g := mkGeo (fst w) (snd w) 0 in
  Ok (match em with None => g | Some f => f g end).
(** projective_sensor_model.py:61-72 [world_to_image]. *)
Definition projective_world_to_image (t : Projective) (g : Geodetic) : res Image :=
  let p := forward1 t (longitude g, latitude g) in Ok (mkImage (fst p) (snd p)).
(** projective_sensor_model.py:13. *)
Definition projective_sensor (t : Projective) : Sensor :=
  mkSensor (projective_image_to_world t) (projective_world_to_image t).

(** chipped_image_sensor_model.py:45-65 [image_to_world]. *)
Definition chipped_image_to_world (m : Chipped) (i : Image) (em : option emodel) (o : option dict) : res Geodetic :=
  let p := inverse1 (full_to_chip m) (ix i, iy i) in
  image_to_world (full_sensor m) (mkImage (fst p) (snd p)) em o.
(** chipped_image_sensor_model.py:67-79 [world_to_image]. *)
Definition chipped_world_to_image (m : Chipped) (g : Geodetic) : res Image :=
  bind (world_to_image (full_sensor m) g) (fun i =>
  let p := forward1 (full_to_chip m) (ix i, iy i) in Ok (mkImage (fst p) (snd p))).
(** chipped_image_sensor_model.py:13. *)
Definition chipped_sensor (m : Chipped) : Sensor := mkSensor (chipped_image_to_world m) (chipped_world_to_image m).

(** composite_sensor_model.py:17-28 [__init__]. *)
Record Composite := mkComposite { approximate : Sensor; precision : Sensor }.

(** Option dictionaries are Python objects: a heap of dictionaries, references are positions. *)
Definition heap := list dict.
Definition load (h : heap) (r : option nat) : option dict :=
  match r with None => None | Some n => nth_error h n end.
Fixpoint store (h : heap) (n : nat) (d : dict) : heap :=
  match h, n with
  | [], _ => []
  | _ :: t, O => d :: t
  | x :: t, S k => x :: store t k d
  end.

(** composite_sensor_model.py:30-58 [image_to_world].  [r] is the caller's dictionary (None when
    there is none); [options.copy()] and [{}] allocate a new one, the two item assignments write
    to it.  Simplification: the two models read the options and do not write to them, which is
    true of all sensor models of the project. *)
Definition composite_run (m : Composite) (h : heap) (i : Image) (em : option emodel) (r : option nat)
  : res Geodetic * heap :=
  match image_to_world (approximate m) i em (load h r) with
  | Err e => (Err e, h)
  | Ok w =>
    let u := List.length h in
    let h := h ++ [match load h r with None => [] | Some d => d end] in
    let h := store h u (dict_set INITIAL_GUESS (VList [longitude w; latitude w]) (nth u h [])) in
    let h := store h u (dict_set INITIAL_SEARCH_DISTANCE (VNum (radians 0.005)) (nth u h [])) in
    (image_to_world (precision m) i em (load h (Some u)), h)
  end.
(** The same without the heap, for a caller that passes a dictionary value. *)
Definition composite_image_to_world (m : Composite) (i : Image) (em : option emodel) (o : option dict) : res Geodetic :=
  match o with
  | None => fst (composite_run m [] i em None)
  | Some d => fst (composite_run m [d] i em (Some 0%nat))
  end.
(** composite_sensor_model.py:60-69 [world_to_image]. *)
Definition composite_world_to_image (m : Composite) (g : Geodetic) : res Image := world_to_image (precision m) g.
(** composite_sensor_model.py:11. *)
Definition composite_sensor (m : Composite) : Sensor :=
  mkSensor (composite_image_to_world m) (composite_world_to_image m).

(** pyproj.Transformer: forward (image CRS to WGS84) and inverse direction on x, y, z. *)
Record Crs := mkCrs { to_wgs84 : Vec -> Vec; from_wgs84 : Vec -> Vec }.

(** gdal_sensor_model.py:30-62 [__init__]: the matrix, its inverse and the transformer. *)
Record Affine := mkAffine { transform : Mat; inv_transform : Mat; image_to_wgs84 : option Crs }.
(** gdal_sensor_model.py:30-62 [__init__]; a coefficient list with fewer than six entries raises
    IndexError. *)
Definition make_affine (geo_transform : list R) (crs : option Crs) : res Affine :=
  match geo_transform with
  | g0 :: g1 :: g2 :: g3 :: g4 :: g5 :: _ =>
    let m := mkMat (mkVec g1 g2 g0) (mkVec g4 g5 g3) (mkVec 0 0 1) in
    match mat_inv m with
    | Err LinAlgError => Err ValueError
    | Err e => Err e
    | Ok inv => Ok (mkAffine m inv crs)
    end
  | _ => Err IndexError
  end.

(** gdal_sensor_model.py:64-97 [image_to_world]. *)
Definition affine_image_to_world (m : Affine) (i : Image) (em : option emodel) (o : option dict) : res Geodetic :=
  let crs_coordinate := mulv (transform m) (mkVec (ix i) (iy i) 1) in
  let lonlat := match image_to_wgs84 m with
                | Some t => to_wgs84 t crs_coordinate
                | None => crs_coordinate
                end in
  let g := mkGeo (radians (vx lonlat)) (radians (vy lonlat)) 0 in
  Ok (match em with None => g | Some f => f g end).
(** gdal_sensor_model.py:99-123 [world_to_image]. *)
Definition affine_world_to_image (m : Affine) (g : Geodetic) : res Image :=
  let lonlat := mkVec (degrees (longitude g)) (degrees (latitude g)) 1 in
  let crs_coordinate := match image_to_wgs84 m with
                        | Some t => from_wgs84 t lonlat
                        | None => lonlat
                        end in
  let p := mulv (inv_transform m) crs_coordinate in
  Ok (mkImage (vx p) (vy p)).
(** gdal_sensor_model.py:15. *)
Definition affine_sensor (m : Affine) : Sensor := mkSensor (affine_image_to_world m) (affine_world_to_image m).
