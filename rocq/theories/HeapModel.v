(** Coordinates as the mutable objects they are in Python.
    The other models treat coordinates as values.  Here every coordinate object owns an array on a
    heap, and the code is followed assignment by assignment, so that sharing and in-place updates
    become visible.
    Source: src/aws/osml/photogrammetry/coordinates.py, elevation_model.py,
    digital_elevation_model.py, gdal_sensor_model.py, projective_sensor_model.py,
    chipped_image_sensor_model.py, composite_sensor_model.py, rpc_sensor_model.py,
    replacement_sensor_model.py, sicd_sensor_model.py and src/aws/osml/features/geolocation.py.
    Simplifications: exact reals; option dictionaries are values (their sharing is the subject of
    C31); the parameters of the sensor models (numbers, matrices, polynomials) are values, except
    the origin of a rectangular ground domain, which is a coordinate object. *)
Require Import ZArith Reals String List.
Require Import Verif.Base Verif.Vec Verif.RpcModel Verif.RsmModel Verif.TransformModel Verif.SicdModel.
Require Verif.DemModel.
Import ListNotations.
Local Open Scope R_scope.

(** *** Arrays on a heap *)
(** The arrays that exist, oldest first; a reference is a position. *)
Definition cells := list (list R).
(** A piece of code: it changes the heap and returns or raises. *)
Definition M (A : Type) := cells -> cells * res A.
Definition ret {A} (a : A) : M A := fun h => (h, Ok a).
Definition raise {A} (e : exn) : M A := fun h => (h, Err e).
Definition seq_ {A B} (m : M A) (k : A -> M B) : M B :=
  fun h => let '(h', r) := m h in match r with Ok a => k a h' | Err e => (h', Err e) end.
Definition lift {A} (r : res A) : M A := fun h => (h, r).
Notation "x <== m ;; k" := (seq_ m (fun x => k)) (at level 61, m at next level, right associativity).
Notation "m ;;; k" := (seq_ m (fun _ => k)) (at level 61, right associativity).

(** np.array(v): always a new array. *)
Definition new_array (v : list R) : M nat := fun h => (h ++ [v], Ok (List.length h)).
(** The content of an array; there are no dangling references in Python. *)
Definition read (l : nat) : M (list R) :=
  fun h => match nth_error h l with Some v => (h, Ok v) | None => (h, Err OtherError) end.
Fixpoint replace_nth {A} (n : nat) (x : A) (l : list A) : list A :=
  match l, n with
  | [], _ => []
  | _ :: r, O => x :: r
  | y :: r, S k => y :: replace_nth k x r
  end.
(** a[i] = x *)
Definition set_item (l i : nat) (x : R) : M unit :=
  fun h => match nth_error h l with
           | Some v => if Nat.ltb i (List.length v) then (replace_nth l (replace_nth i x v) h, Ok tt) else (h, Err IndexError)
           | None => (h, Err OtherError)
           end.
(** a[i] *)
Definition item (l i : nat) : M R :=
  v <== read l ;; match nth_error v i with Some x => ret x | None => raise IndexError end.
(** a += v for arrays of three *)
Definition add_in_place (l : nat) (d : Vec) : M unit :=
  x <== item l 0 ;; y <== item l 1 ;; z <== item l 2 ;;
  set_item l 0 (x + vx d) ;;; set_item l 1 (y + vy d) ;;; set_item l 2 (z + vz d).

(** *** Coordinate objects: a reference to the array they hold *)
(** coordinates.py:16-31 [WorldCoordinate.__init__] (also GeodeticWorldCoordinate, 103-113): the
    argument is copied. *)
Definition world_coordinate (v : option (list R)) : M nat :=
  let v := match v with None => [0; 0; 0] | Some v => v end in
  if Nat.eqb (List.length v) 3 then new_array v else raise ValueError.
(** coordinates.py:290-306 [ImageCoordinate.__init__]. *)
Definition image_coordinate (v : option (list R)) : M nat :=
  let v := match v with None => [0; 0] | Some v => v end in
  if Nat.eqb (List.length v) 2 then new_array v else raise ValueError.
(** The constructor called with the array of another coordinate. *)
Definition world_coordinate_of (l : nat) : M nat := v <== read l ;; world_coordinate (Some v).
Definition image_coordinate_of (l : nat) : M nat := v <== read l ;; image_coordinate (Some v).
(** coordinates.py:33-55 and 115-137: x, y, z are longitude, latitude, elevation. *)
Definition geodetic (l : nat) : M Geodetic :=
  x <== item l 0 ;; y <== item l 1 ;; z <== item l 2 ;; ret (mkGeo x y z).
Definition vector (l : nat) : M Vec :=
  x <== item l 0 ;; y <== item l 1 ;; z <== item l 2 ;; ret (mkVec x y z).
Definition pixel (l : nat) : M Image := x <== item l 0 ;; y <== item l 1 ;; ret (mkImage x y).
(** The contents of new coordinates. *)
Definition geo_array (g : Geodetic) : list R := [longitude g; latitude g; elevation g].
Definition vec_array (v : Vec) : list R := [vx v; vy v; vz v].
Definition image_array (i : Image) : list R := [ix i; iy i].

(** *** Elevation models *)
(** set_elevation of an elevation model object. *)
Definition Elevation := nat -> M unit.
(** elevation_model.py:69-77 [ConstantElevationModel.set_elevation]. *)
Definition constant_set_elevation (e : R) : Elevation := fun l => set_item l 2 e.
(** What get_interpolation_grid returns: the interpolator and the tile's world_to_image. *)
Record HGrid := mkHGrid { hg_interp : option (R -> R -> R); hg_sensor : option (nat -> M nat) }.
(** digital_elevation_model.py:105-124 [DigitalElevationModel.set_elevation]; [grid] is
    get_interpolation_grid (the cache is the subject of C15). *)
Definition dem_set_elevation (find_tile_id : Geodetic -> option string) (grid : string -> res HGrid) : Elevation := fun l =>
  g <== geodetic l ;;
  match DemModel.truthy (find_tile_id g) with
  | None => ret tt
  | Some id =>
      t <== lift (grid id) ;;
      match hg_interp t, hg_sensor t with
      | Some f, Some s => i <== s l ;; p <== pixel i ;; set_item l 2 (f (ix p) (iy p))
      | _, _ => ret tt
      end
  end.
(** [if elevation_model: elevation_model.set_elevation(w)] *)
Definition set_optional (em : option Elevation) (l : nat) : M unit :=
  match em with None => ret tt | Some e => e l end.

(** *** Sensor models: image_to_world and world_to_image of coordinate objects *)
Record HSensor := mkHSensor {
  h_image_to_world : nat -> option Elevation -> option dict -> M nat;
  h_world_to_image : nat -> M nat }.

(** gdal_sensor_model.py:64-97 [image_to_world] and 99-123 [world_to_image]. *)
Definition h_affine (m : Affine) : HSensor := mkHSensor
  (fun i em o =>
     p <== pixel i ;;
     let crs_coordinate := mulv (transform m) (mkVec (ix p) (iy p) 1) in
     let lonlat := match image_to_wgs84 m with Some t => to_wgs84 t crs_coordinate | None => crs_coordinate end in
     w <== world_coordinate (Some [radians (vx lonlat); radians (vy lonlat); 0]) ;;
     set_optional em w ;;; ret w)
  (fun l =>
     g <== geodetic l ;;
     let lonlat := mkVec (degrees (longitude g)) (degrees (latitude g)) 1 in
     let crs_coordinate := match image_to_wgs84 m with Some t => from_wgs84 t lonlat | None => lonlat end in
     let p := mulv (inv_transform m) crs_coordinate in
     image_coordinate (Some [vx p; vy p])).

(** projective_sensor_model.py:39-59 [image_to_world] and 61-72 [world_to_image]. *)
Definition h_projective (t : Projective) : HSensor := mkHSensor
  (fun i em o =>
     p <== pixel i ;;
     let q := inverse1 t (ix p, iy p) in
     w <== world_coordinate (Some [fst q; snd q; 0]) ;;
     set_optional em w ;;; ret w)
  (fun l =>
     g <== geodetic l ;;
     let p := forward1 t (longitude g, latitude g) in
     image_coordinate (Some [fst p; snd p])).

(** chipped_image_sensor_model.py:45-65 [image_to_world] and 67-79 [world_to_image]. *)
Definition h_chipped (full : HSensor) (t : Projective) : HSensor := mkHSensor
  (fun i em o =>
     p <== pixel i ;;
     let q := inverse1 t (ix p, iy p) in
     full_image_coordinate <== image_coordinate (Some [fst q; snd q]) ;;
     h_image_to_world full full_image_coordinate em o)
  (fun l =>
     full_image_coordinate <== h_world_to_image full l ;;
     p <== pixel full_image_coordinate ;;
     let q := forward1 t (ix p, iy p) in
     image_coordinate (Some [fst q; snd q])).

(** composite_sensor_model.py:30-58 [image_to_world] and 60-69 [world_to_image]. *)
Definition h_composite (approximate precision : HSensor) : HSensor := mkHSensor
  (fun i em o =>
     approximate_coord <== h_image_to_world approximate i em o ;;
     w <== geodetic approximate_coord ;;
     let updated := dict_set INITIAL_SEARCH_DISTANCE (VNum (radians 0.005))
                      (dict_set INITIAL_GUESS (VList [longitude w; latitude w]) (match o with None => [] | Some d => d end)) in
     h_image_to_world precision i em (Some updated))
  (h_world_to_image precision).

(** scipy's minimize, seen from the objective: it asks for values one after the other and then
    stops with a result or an error. *)
Inductive search :=
| Found (x : R * R)
| Failed (e : exn)
| Ask (x : R * R) (next : R -> search).
Fixpoint follow (s : search) (objective : R * R -> M R) : M (R * R) :=
  match s with
  | Found x => ret x
  | Failed e => raise e
  | Ask x next => d <== objective x ;; follow (next d) objective
  end.

(** rpc_sensor_model.py:202-205 and 239-242, replacement_sensor_model.py:511-514 and 561-564:
    a new coordinate on the surface. *)
Definition h_surface (default : R) (em : option Elevation) (x : R * R) : M nat :=
  w <== world_coordinate (Some [fst x; snd x; 0]) ;;
  constant_set_elevation default w ;;; set_optional em w ;;; ret w.
(** rpc_sensor_model.py:201-209 and replacement_sensor_model.py:510-518. *)
Definition h_objective (world_to_image : nat -> M nat) (default : R) (i : nat) (em : option Elevation) (x : R * R) : M R :=
  w <== h_surface default em x ;;
  j <== world_to_image w ;;
  p <== pixel i ;; q <== pixel j ;;
  ret (image_distance p q).

(** rpc_sensor_model.py:151-177 [world_to_image]. *)
Definition h_rpc_world_to_image (m : RPC) (l : nat) : M nat :=
  g <== geodetic l ;;
  n <== world_coordinate (Some [(degrees (longitude g) - long_off m) / long_scale m;
                                (degrees (latitude g) - lat_off m) / lat_scale m;
                                (elevation g - height_off m) / height_scale m]) ;;
  v <== vector n ;;
  sn <== lift (rpc_evaluate (samp_num_poly m) (vx v) (vy v) (vz v)) ;;
  sd <== lift (rpc_evaluate (samp_den_poly m) (vx v) (vy v) (vz v)) ;;
  ln <== lift (rpc_evaluate (line_num_poly m) (vx v) (vy v) (vz v)) ;;
  ld <== lift (rpc_evaluate (line_den_poly m) (vx v) (vy v) (vz v)) ;;
  image_coordinate (Some [sn / sd * samp_scale m + samp_off m; ln / ld * line_scale m + line_off m]).
(** rpc_sensor_model.py:179-244 [image_to_world]. *)
Definition h_rpc (minimize : R * R -> list (R * R) -> search) (m : RPC) : HSensor := mkHSensor
  (fun i em o =>
     guess <== lift (initial_guess (radians (long_off m), radians (lat_off m)) o) ;;
     d <== lift (search_distance (radians (1 / 2)) o) ;;
     x <== follow (minimize guess (equilateral_triangle guess d)) (h_objective (h_rpc_world_to_image m) (height_off m) i em) ;;
     h_surface (height_off m) em x)
  (h_rpc_world_to_image m).

(** A ground domain whose origin is the coordinate object [hd_origin]; the other parts are those of
    [hd_rest] (its own gd_origin is not used). *)
Record HDomain := mkHDomain { hd_origin : option nat; hd_rest : GroundDomain }.
(** replacement_sensor_model.py:153-197 [geodetic_to_ground_domain_coordinate]: in the plain geodetic
    form the answer is the argument itself. *)
Definition h_to_ground_domain (to_geocentric : Geodetic -> Vec) (d : HDomain) (l : nat) : M nat :=
  match gd_form (hd_rest d) with
  | RECTANGULAR =>
      match hd_origin d, gd_units (hd_rest d) with
      | Some origin, Some (units, _) =>
          g <== geodetic l ;;
          ecef <== world_coordinate (Some (vec_array (to_geocentric g))) ;;
          e <== vector ecef ;; o <== vector origin ;;
          world_coordinate (Some (vec_array (mulv units (vsub e o))))
      | _, _ => raise TypeError
      end
  | GEODETIC_2PI =>
      g <== geodetic l ;;
      world_coordinate (Some [fmod (longitude g + 2 * PI) (2 * PI); latitude g; elevation g])
  | GEODETIC => ret l
  end.
(** replacement_sensor_model.py:199-230 [ground_domain_coordinate_to_geodetic]: always a new object. *)
Definition h_from_ground_domain (to_geodetic : Vec -> Geodetic) (d : HDomain) (l : nat) : M nat :=
  match gd_form (hd_rest d) with
  | RECTANGULAR =>
      match hd_origin d, gd_units (hd_rest d) with
      | Some origin, Some (_, inverse) =>
          v <== vector l ;; o <== vector origin ;;
          ecef <== world_coordinate (Some (vec_array (vadd (mulv inverse v) o))) ;;
          e <== vector ecef ;;
          world_coordinate (Some (geo_array (to_geodetic e)))
      | _, _ => raise TypeError
      end
  | _ => world_coordinate_of l
  end.

(** replacement_sensor_model.py:568-584, 586-598 and 626-638. *)
Definition h_ground_domain_to_image (m : RsmPoly) (l : nat) : M nat :=
  v <== vector l ;;
  n <== world_coordinate (Some (vec_array (normalize_world_coordinate m v))) ;;
  nv <== vector n ;;
  i <== image_coordinate (Some [poly_evaluate (column_num m) nv / poly_evaluate (column_den m) nv;
                                poly_evaluate (row_num m) nv / poly_evaluate (row_den m) nv]) ;;
  p <== pixel i ;;
  image_coordinate (Some (image_array (denormalize_image_coordinate m p))).
(** replacement_sensor_model.py:472-485 [world_to_image]. *)
Definition h_rsm_world_to_image (to_geocentric : Geodetic -> Vec) (origin : option nat) (m : RsmPoly) (l : nat) : M nat :=
  v <== h_to_ground_domain to_geocentric (mkHDomain origin (rp_domain m)) l ;; h_ground_domain_to_image m v.
(** replacement_sensor_model.py:487-566 [image_to_world]. *)
Definition h_rsm (to_geocentric : Geodetic -> Vec) (minimize : R * R -> option Bounds -> list (R * R) -> search)
    (origin : option nat) (m : RsmPoly) : HSensor := mkHSensor
  (fun i em o =>
     match nth_error (gd_geodetic_vertices (rp_domain m)) 0, nth_error (gd_geodetic_vertices (rp_domain m)) 3 with
     | Some v1, Some v4 =>
         guess <== lift (initial_guess ((longitude v1 + longitude v4) / 2, (latitude v1 + latitude v4) / 2) o) ;;
         d <== lift (search_distance (sqrt ((longitude v1 - longitude v4) ^ 2 + (latitude v1 - latitude v4) ^ 2)) o) ;;
         x <== follow (minimize guess (gd_bbox (rp_domain m)) (equilateral_triangle guess d))
                 (h_objective (h_rsm_world_to_image to_geocentric origin m) (gd_default_elevation (rp_domain m)) i em) ;;
         h_surface (gd_default_elevation (rp_domain m)) em x
     | _, _ => raise IndexError
     end)
  (h_rsm_world_to_image to_geocentric origin m).

(** replacement_sensor_model.py:712-734 [world_to_image] and 736-758 [image_to_world] of the sectioned
    model; [models] are the section sensor models, the other parts are those of [m]. *)
Definition h_section_at (models : list (list HSensor)) (index : Z * Z) : res HSensor :=
  bind (py_nth models (snd index)) (fun row => py_nth row (fst index)).
Definition h_sectioned (to_geocentric : Geodetic -> Vec) (origin : option nat) (m : Sectioned) (models : list (list HSensor)) : HSensor := mkHSensor
  (fun i em o =>
     p <== pixel i ;;
     s <== lift (h_section_at models (get_section_index m p)) ;;
     h_image_to_world s i em o)
  (fun l =>
     dl <== h_to_ground_domain to_geocentric (mkHDomain origin (sc_domain m)) l ;;
     v <== vector dl ;;
     a <== image_coordinate (Some [low_order_evaluate (column_polynomial m) v; low_order_evaluate (row_polynomial m) v]) ;;
     p <== pixel a ;;
     s <== lift (h_section_at models (get_section_index m p)) ;;
     h_world_to_image s l).

(** *** SICD *)
Section Sicd.
Variable to_geodetic : Vec -> Geodetic.
Variable to_geocentric : Geodetic -> Vec.

(** sicd_sensor_model.py:934-937: the terrain below a contour point is looked up on a copy of its
    coordinate. *)
Definition h_height_above (em : Elevation) (p : Vec) : M R :=
  e <== world_coordinate (Some (vec_array p)) ;;
  v <== vector e ;;
  lle <== world_coordinate (Some (geo_array (to_geodetic v))) ;;
  dem <== world_coordinate_of lle ;;
  em dem ;;;
  a <== item lle 2 ;; b <== item dem 2 ;; ret (a - b).
(** sicd_sensor_model.py:933-937: the heights of all sampled points. *)
Fixpoint h_sample_heights (em : Elevation) (ps : list (option Vec)) : M (list (option Vec * option R)) :=
  match ps with
  | [] => ret []
  | None :: r => rest <== h_sample_heights em r ;; ret ((None, None) :: rest)
  | Some p :: r => d <== h_height_above em p ;; rest <== h_sample_heights em r ;; ret ((Some p, Some d) :: rest)
  end.

(** sicd_sensor_model.py:1027-1065 [image_to_world], with 845-967 for a terrain.  [describe] is
    describe_region of the elevation model; the last statement is line 1065.  [None] is a coordinate of nan. *)
Definition h_locate (p : option Vec) : M (option nat) :=
  match p with
  | None => ret None
  | Some p =>
      e <== world_coordinate (Some (vec_array p)) ;;
      v <== vector e ;;
      w <== world_coordinate (Some (geo_array (to_geodetic v))) ;; ret (Some w)
  end.
Definition h_sicd_image_to_world (m : Sicd) (i : nat) (em : option (Elevation * (Geodetic -> option (R * R * R)))) : M (option nat) :=
  px <== pixel i ;;
  let c := precise_rrdot (projection m) (grid_location m px) in
  match em with
  | Some (set, describe) =>
      d <== lift (make_dem to_geodetic (scp_ecf (converter m)) (side_of_track m) (mkTerrain (fun g => g) describe)) ;;
      s <== lift (dem_sampling to_geodetic to_geocentric d (r_coa c) (rdot_coa c) (arp_coa c) (varp_coa c)) ;;
      heights <== h_sample_heights set (List.map (fun n => sample_at s (INR n)) (seq 0 (Z.to_nat (points s)))) ;;
      match dem_scan (delta_hd_lim d) (sample_at s) 0 None heights with
      | [] => raise IndexError
      | p :: _ => h_locate p
      end
  | None =>
      p <== lift (ground_intersection (default_surface to_geodetic m) (r_coa c) (rdot_coa c) (arp_coa c) (varp_coa c)) ;;
      h_locate p
  end.

(** sicd_sensor_model.py:1094-1119: the loop; [scene] and [g] are the arrays scene_point and g_n, the
    latter is updated in place. *)
Fixpoint h_scene_to_grid (m : Sicd) (scene g : nat) (more : nat) : M (R * R) :=
  v <== vector g ;;
  let xy := project_to_grid m v in
  let c := precise_rrdot (projection m) xy in
  p <== lift (ground_intersection (default_surface to_geodetic m) (r_coa c) (rdot_coa c) (arp_coa c) (varp_coa c)) ;;
  match p with
  | None => ret xy
  | Some p =>
      s <== vector scene ;;
      let diff := vsub s p in
      add_in_place g diff ;;;
      if Rlt_dec 0.01 (vnorm diff) then
        match more with O => ret xy | S more' => h_scene_to_grid m scene g more' end
      else ret xy
  end.
(** sicd_sensor_model.py:1067-1128 [world_to_image]. *)
Definition h_sicd_world_to_image (m : Sicd) (l : nat) : M nat :=
  w <== geodetic l ;;
  ecf <== world_coordinate (Some (vec_array (to_geocentric w))) ;;
  e <== vector ecf ;;
  scene <== new_array (vec_array e) ;;
  c <== read scene ;;
  g <== new_array c ;;
  xy <== h_scene_to_grid m scene g 9 ;;
  image_coordinate (Some (image_array (to_pixel m xy))).
End Sicd.

(** *** Interpolated locations *)
(** geolocation.py:68-85 [LocationGridInterpolator.__call__]. *)
Definition h_grid_call (lon lat elev : R -> R -> R) (em : option Elevation) (x y : R) : M nat :=
  w <== world_coordinate (Some [lon x y; lat x y; elev x y]) ;;
  set_optional em w ;;; ret w.
