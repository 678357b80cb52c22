(** Shared parts of the sensor models.
    Source: src/aws/osml/photogrammetry/sensor_model.py, math_utils.py, and the parts of
    coordinates.py and elevation_model.py that sensor models use.
    Simplifications: exact reals; an elevation model is the function that set_elevation
    applies to a coordinate (it does not raise and has no memory: C15). *)
Require Import ZArith Reals String List.
Require Import Verif.Base.
Require Export Verif.TileModel Verif.CoordModel.
Import ListNotations.
Local Open Scope R_scope.

(** coordinates.py:278-340 [ImageCoordinate]: x (= c, column) and y (= r, row). *)
Record Image := mkImage { ix : R; iy : R }.

(** elevation_model.py:22-50: what set_elevation does to a coordinate. *)
Definition emodel := Geodetic -> Geodetic.
(** elevation_model.py:69-77 [ConstantElevationModel.set_elevation]. *)
Definition constant_elevation (e : R) : emodel := fun w => mkGeo (longitude w) (latitude w) e.

(** Values a caller may put into the options dictionary. *)
Inductive value := VNone | VNum (r : R) | VList (l : list R) | VOther (n : nat).
(** Python dictionaries with string keys, in insertion order. *)
Definition dict := list (string * value).

Fixpoint dict_get (k : string) (d : dict) : value :=
  match d with
  | [] => VNone
  | (k', v) :: r => if String.eqb k k' then v else dict_get k r
  end.
(** d[k] = v: replaces in place or appends. *)
Fixpoint dict_set (k : string) (v : value) (d : dict) : dict :=
  match d with
  | [] => [(k, v)]
  | (k', v') :: r => if String.eqb k k' then (k', v) :: r else (k', v') :: dict_set k v r
  end.

(** sensor_model.py:53-62 [SensorModelOptions]. *)
Definition INITIAL_GUESS := "initial_guess"%string.
Definition INITIAL_SEARCH_DISTANCE := "initial_search_distance"%string.

(** sensor_model.py:14-50 [SensorModel]. *)
Record Sensor := mkSensor {
  image_to_world : Image -> option emodel -> option dict -> res Geodetic;
  world_to_image : Geodetic -> res Image }.

(** math_utils.py:7-25 [equilateral_triangle] for a two-element centroid. *)
Definition equilateral_triangle (c : R * R) (size : R) : list (R * R) :=
  List.map (fun d => (fst c + fst d, snd c + snd d))
    [ (0, size * sqrt 3 / 3);
      (-1 * size / 2, -1 * sqrt 3 / 6 * size);
      (size / 2, -1 * sqrt 3 / 6 * size) ].

(** [options.get(k) if options is not None else None]. *)
Definition option_get (k : string) (o : option dict) : value :=
  match o with None => VNone | Some d => dict_get k d end.

(** rpc_sensor_model.py:208-212 and replacement_sensor_model.py:525-529.  Anything but None or
    a list of two numbers is rejected (simplification: one error class). *)
Definition initial_guess (default : R * R) (o : option dict) : res (R * R) :=
  match option_get INITIAL_GUESS o with
  | VNone => Ok default
  | VList [x; y] => Ok (x, y)
  | _ => Err OtherError
  end.
(** rpc_sensor_model.py:214-216 and replacement_sensor_model.py:531-533. *)
Definition search_distance (default : R) (o : option dict) : res R :=
  match option_get INITIAL_SEARCH_DISTANCE o with
  | VNone => Ok default
  | VNum d => Ok d
  | _ => Err TypeError
  end.

(** rpc_sensor_model.py:196-199 and replacement_sensor_model.py:511-514: the surface point at a
    longitude and latitude, first the default elevation, then the optional model. *)
Definition surface_point (default : emodel) (em : option emodel) (lonlat : R * R) : Geodetic :=
  let w := default (mkGeo (fst lonlat) (snd lonlat) 0) in
  match em with None => w | Some f => f w end.

(** rpc_sensor_model.py:201-203 and replacement_sensor_model.py:516-518. *)
Definition image_distance (a b : Image) : R :=
  sqrt ((ix a - ix b) ^ 2 + (iy a - iy b) ^ 2).
