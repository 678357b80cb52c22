(** Model of the replacement sensor model.
    Source: src/aws/osml/photogrammetry/replacement_sensor_model.py.
    Simplifications: exact reals; pyproj's geodetic/geocentric conversions and scipy's
    minimize are arbitrary functions (section variables). *)
Require Import ZArith Reals String List.
Require Import Verif.Base Verif.Vec.
Require Export Verif.SensorBase.
Import ListNotations.
Local Open Scope R_scope.

(** replacement_sensor_model.py:27-56 [RSMImageDomain]. *)
Record ImageDomain := mkImageDomain { min_row : Z; max_row : Z; min_column : Z; max_column : Z }.

(** replacement_sensor_model.py:59-77 [RSMGroundDomainForm]. *)
Inductive DomainForm := GEODETIC | GEODETIC_2PI | RECTANGULAR.

(** WorldCoordinate <-> GeodeticWorldCoordinate: the same three components. *)
Definition vec_of (g : Geodetic) : Vec := mkVec (longitude g) (latitude g) (elevation g).
Definition geo_of (v : Vec) : Geodetic := mkGeo (vx v) (vy v) (vz v).

(** Python's [%] on floats with a positive divisor. *)
Definition fmod (x m : R) : R := x - m * IZR (Rfloor (x / m)).

Section GroundDomain.
(** coordinates.py [geodetic_to_geocentric] and [geocentric_to_geodetic] (pyproj). *)
Variable to_geocentric : Geodetic -> Vec.
Variable to_geodetic : Vec -> Geodetic.

(** What the constructor keeps (lines 121-151). The unit vectors and their inverse are set
    together or not at all (lines 124-126). *)
Record GroundDomain := mkGroundDomain {
  gd_form : DomainForm; gd_vertices : list Vec;
  gd_origin : option Vec; gd_units : option (Mat * Mat);
  gd_geodetic_vertices : list Geodetic;
  gd_bbox : option Bounds;   (* None: the infinities of an empty loop *)
  gd_default_elevation : R }.

(** replacement_sensor_model.py:199-230 [ground_domain_coordinate_to_geodetic]; used by the
    constructor before the object is complete, so it takes the parts it reads. *)
Definition from_ground_domain (form : DomainForm) (origin : option Vec) (units : option (Mat * Mat)) (v : Vec)
  : res Geodetic :=
  match form with
  | RECTANGULAR =>
      match origin, units with
      | Some o, Some (_, inverse) => Ok (to_geodetic (vadd (mulv inverse v) o))
      | _, _ => Err TypeError
      end
  | _ => Ok (geo_of v)
  end.
Definition ground_domain_coordinate_to_geodetic (d : GroundDomain) (v : Vec) : res Geodetic :=
  from_ground_domain (gd_form d) (gd_origin d) (gd_units d) v.

(** replacement_sensor_model.py:153-197 [geodetic_to_ground_domain_coordinate]. *)
Definition geodetic_to_ground_domain_coordinate (d : GroundDomain) (g : Geodetic) : res Vec :=
  match gd_form d with
  | RECTANGULAR =>
      match gd_origin d, gd_units d with
      | Some o, Some (units, _) => Ok (mulv units (vsub (to_geocentric g) o))
      | _, _ => Err TypeError
      end
  | GEODETIC_2PI => Ok (mkVec (fmod (longitude g + 2 * PI) (2 * PI)) (latitude g) (elevation g))
  | GEODETIC => Ok (vec_of g)
  end.

(** [f(v) for v in l], stopping at the first exception. *)
Fixpoint map_res {A B} (f : A -> res B) (l : list A) : res (list B) :=
  match l with
  | [] => Ok []
  | a :: r => bind (f a) (fun b => bind (map_res f r) (fun bs => Ok (b :: bs)))
  end.

(** replacement_sensor_model.py:134-141: one step of the bounding box loop; [None] stands for
    the initial infinities. *)
Definition extend_bbox (b : option Bounds) (g : Geodetic) : option Bounds :=
  match b with
  | None => Some (mkBounds (longitude g) (latitude g) (longitude g) (latitude g))
  | Some b => Some (mkBounds (Rmin (b_min_x b) (longitude g)) (Rmin (b_min_y b) (latitude g))
                             (Rmax (b_max_x b) (longitude g)) (Rmax (b_max_y b) (latitude g)))
  end.

Definition sum_elevations (l : list Geodetic) : R := fold_left (fun s g => s + elevation g) l 0.

(** replacement_sensor_model.py:90-151 [RSMGroundDomain.__init__]. *)
Definition make_ground_domain (form : DomainForm) (vertices : list Vec) (origin : option Vec)
    (units : option Mat) (reference : option Vec) : res GroundDomain :=
  if negb (Nat.eqb (List.length vertices) 8) then Err ValueError else
  match form, origin, units with
  | RECTANGULAR, None, _ | RECTANGULAR, _, None => Err ValueError
  | _, _, _ =>
      bind (match units with
            | None => Ok None
            | Some m => bind (mat_inv m) (fun i => Ok (Some (m, i)))
            end) (fun us =>
      bind (map_res (from_ground_domain form origin us) vertices) (fun gv =>
      bind (match reference with
            | Some p => bind (from_ground_domain form origin us p) (fun g => Ok (elevation g))
            | None => Ok (sum_elevations gv / INR (List.length gv))
            end) (fun e =>
      Ok (mkGroundDomain form vertices origin us gv (fold_left extend_bbox gv None) e))))
  end.

(** replacement_sensor_model.py:265-293 [RSMPolynomial.__init__]. *)
Record Poly := mkPoly { max_x : nat; max_y : nat; max_z : nat; coefs : list R }.
Definition make_poly (px py pz : nat) (c : list R) : res Poly :=
  if Nat.eqb (List.length c) ((px + 1) * (py + 1) * (pz + 1)) then Ok (mkPoly px py pz c) else Err ValueError.

(** replacement_sensor_model.py:295-320 [RSMPolynomial.evaluate]: three nested loops sharing
    the accumulator [result] and the running index [a_index]. *)
Definition term (p : Poly) (v : Vec) (k j i : nat) (st : R * nat) : R * nat :=
  (fst st + nth (snd st) (coefs p) 0 * (vx v ^ i) * (vy v ^ j) * (vz v ^ k), (snd st + 1)%nat).
Definition poly_evaluate (p : Poly) (v : Vec) : R :=
  fst (fold_left (fun st k =>
         fold_left (fun st j =>
           fold_left (fun st i => term p v k j i st) (seq 0 (max_x p + 1)) st)
         (seq 0 (max_y p + 1)) st)
       (seq 0 (max_z p + 1)) (0, 0%nat)).

(** replacement_sensor_model.py:340-352 and 354-374 [RSMLowOrderPolynomial]. *)
Definition make_low_order (c : list R) : res (list R) :=
  if Nat.eqb (List.length c) 10 then Ok c else Err ValueError.
Definition low_order_evaluate (c : list R) (v : Vec) : R :=
  0 + nth 0 c 0 + nth 1 c 0 * vx v + nth 2 c 0 * vy v + nth 3 c 0 * vz v
  + nth 4 c 0 * vx v * vx v + nth 5 c 0 * vx v * vy v + nth 6 c 0 * vx v * vz v
  + nth 7 c 0 * vy v * vy v + nth 8 c 0 * vy v * vz v + nth 9 c 0 * vz v * vz v.

(** replacement_sensor_model.py:411-470 [RSMPolynomialSensorModel.__init__]; section numbers
    are stored but not used and are left out. *)
Record RsmPoly := mkRsmPoly {
  rp_domain : GroundDomain;
  row_off : R; column_off : R; x_off : R; y_off : R; z_off : R;
  row_scale : R; column_scale : R; x_scale : R; y_scale : R; z_scale : R;
  row_num : Poly; row_den : Poly; column_num : Poly; column_den : Poly }.

(** replacement_sensor_model.py:640-666. *)
Definition normalize (v offset scale : R) : R := (v - offset) / scale.
Definition denormalize (v offset scale : R) : R := v * scale + offset.

(** replacement_sensor_model.py:586-598. *)
Definition normalize_world_coordinate (m : RsmPoly) (v : Vec) : Vec :=
  mkVec (normalize (vx v) (x_off m) (x_scale m)) (normalize (vy v) (y_off m) (y_scale m))
        (normalize (vz v) (z_off m) (z_scale m)).
(** replacement_sensor_model.py:600-612. *)
Definition denormalize_world_coordinate (m : RsmPoly) (v : Vec) : Vec :=
  mkVec (denormalize (vx v) (x_off m) (x_scale m)) (denormalize (vy v) (y_off m) (y_scale m))
        (denormalize (vz v) (z_off m) (z_scale m)).
(** replacement_sensor_model.py:614-624: x is the sample (column), y the line (row). *)
Definition normalize_image_coordinate (m : RsmPoly) (i : Image) : Image :=
  let line := normalize (iy i) (row_off m) (row_scale m) in
  let samp := normalize (ix i) (column_off m) (column_scale m) in
  mkImage samp line.
(** replacement_sensor_model.py:626-638. *)
Definition denormalize_image_coordinate (m : RsmPoly) (i : Image) : Image :=
  let line := denormalize (iy i) (row_off m) (row_scale m) in
  let samp := denormalize (ix i) (column_off m) (column_scale m) in
  mkImage samp line.

(** replacement_sensor_model.py:568-584 [ground_domain_to_image]. *)
Definition ground_domain_to_image (m : RsmPoly) (v : Vec) : Image :=
  let n := normalize_world_coordinate m v in
  let norm_row := poly_evaluate (row_num m) n / poly_evaluate (row_den m) n in
  let norm_column := poly_evaluate (column_num m) n / poly_evaluate (column_den m) n in
  denormalize_image_coordinate m (mkImage norm_column norm_row).

(** replacement_sensor_model.py:472-485 [world_to_image]. *)
Definition rsm_world_to_image (m : RsmPoly) (g : Geodetic) : res Image :=
  bind (geodetic_to_ground_domain_coordinate (rp_domain m) g) (fun v => Ok (ground_domain_to_image m v)).

(** scipy.optimize.minimize with bounds. *)
Variable minimize : (R * R -> res R) -> R * R -> option Bounds -> list (R * R) -> res (R * R).

(** replacement_sensor_model.py:510-518 [distance_to_target_coordinate]. *)
Definition rsm_objective (m : RsmPoly) (i : Image) (em : option emodel) (lonlat : R * R) : res R :=
  bind (rsm_world_to_image m (surface_point (constant_elevation (gd_default_elevation (rp_domain m))) em lonlat))
    (fun i' => Ok (image_distance i i')).

(** replacement_sensor_model.py:487-566 [image_to_world]. *)
Definition rsm_image_to_world (m : RsmPoly) (i : Image) (em : option emodel) (o : option dict) : res Geodetic :=
  match nth_error (gd_geodetic_vertices (rp_domain m)) 0, nth_error (gd_geodetic_vertices (rp_domain m)) 3 with
  | Some v1, Some v4 =>
      bind (initial_guess ((longitude v1 + longitude v4) / 2, (latitude v1 + latitude v4) / 2) o) (fun guess =>
      bind (search_distance (sqrt ((longitude v1 - longitude v4) ^ 2 + (latitude v1 - latitude v4) ^ 2)) o) (fun d =>
      bind (minimize (rsm_objective m i em) guess (gd_bbox (rp_domain m)) (equilateral_triangle guess d)) (fun x =>
      Ok (surface_point (constant_elevation (gd_default_elevation (rp_domain m))) em x))))
  | _, _ => Err IndexError
  end.

Definition rsm_sensor (m : RsmPoly) : Sensor := mkSensor (rsm_image_to_world m) (rsm_world_to_image m).

(** replacement_sensor_model.py:677-710 [RSMSectionedPolynomialSensorModel.__init__]. *)
Record Sectioned := mkSectioned {
  sc_domain : GroundDomain; sc_image : ImageDomain;
  row_sections : Z; column_sections : Z; row_section_size : R; column_section_size : R;
  row_polynomial : list R; column_polynomial : list R; section_models : list (list Sensor) }.

(** replacement_sensor_model.py:773-776 and 779-782. *)
Definition clamp_index (i n : Z) : Z :=
  (if i <? 0 then 0 else if i >=? n then n - 1 else i)%Z.

(** replacement_sensor_model.py:760-784 [get_section_index]: (column, row). *)
Definition get_section_index (m : Sectioned) (i : Image) : Z * Z :=
  let row := Rfloor ((iy i - IZR (min_row (sc_image m))) / row_section_size m) in
  let column := Rfloor ((ix i - IZR (min_column (sc_image m))) / column_section_size m) in
  (clamp_index column (column_sections m), clamp_index row (row_sections m)).

(** l[i] with Python's negative indices. *)
Definition py_nth {A} (l : list A) (i : Z) : res A :=
  let n := Z.of_nat (List.length l) in
  let k := (if i <? 0 then i + n else i)%Z in
  if (k <? 0)%Z then Err IndexError
  else match nth_error l (Z.to_nat k) with Some a => Ok a | None => Err IndexError end.

(** [self.section_sensor_models[row][column]] (lines 731 and 755). *)
Definition section_at (m : Sectioned) (index : Z * Z) : res Sensor :=
  bind (py_nth (section_models m) (snd index)) (fun row => py_nth row (fst index)).

(** replacement_sensor_model.py:712-734 [world_to_image]. *)
Definition sectioned_world_to_image (m : Sectioned) (g : Geodetic) : res Image :=
  bind (geodetic_to_ground_domain_coordinate (sc_domain m) g) (fun v =>
  let approximate_row := low_order_evaluate (row_polynomial m) v in
  let approximate_column := low_order_evaluate (column_polynomial m) v in
  bind (section_at m (get_section_index m (mkImage approximate_column approximate_row))) (fun s =>
  world_to_image s g)).

(** replacement_sensor_model.py:736-758 [image_to_world]. *)
Definition sectioned_image_to_world (m : Sectioned) (i : Image) (em : option emodel) (o : option dict)
  : res Geodetic :=
  bind (section_at m (get_section_index m i)) (fun s => image_to_world s i em o).

Definition sectioned_sensor (m : Sectioned) : Sensor :=
  mkSensor (sectioned_image_to_world m) (sectioned_world_to_image m).
End GroundDomain.
