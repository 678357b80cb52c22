(** Model of the rational polynomial camera.
    Source: src/aws/osml/photogrammetry/rpc_sensor_model.py.
    Simplifications: exact reals (numpy returns inf for a zero denominator; the model's real
    division is only meaningful for non-zero denominators and scales); scipy's minimize is
    an arbitrary function of the objective, the starting point and the starting simplex. *)
Require Import ZArith Reals String List.
Require Import Verif.Base.
Require Export Verif.SensorBase.
Import ListNotations.
Local Open Scope R_scope.

(** rpc_sensor_model.py:27-64 [RPCPolynomial.evaluate]; indexing a list with fewer than
    twenty entries raises IndexError. *)
Definition rpc_evaluate (c : list R) (l p h : R) : res R :=
  if Nat.ltb (List.length c) 20 then Err IndexError else
  Ok (0 + nth 0 c 0 + nth 1 c 0 * l + nth 2 c 0 * p + nth 3 c 0 * h
      + nth 4 c 0 * l * p + nth 5 c 0 * l * h + nth 6 c 0 * p * h
      + nth 7 c 0 * l * l + nth 8 c 0 * p * p + nth 9 c 0 * h * h
      + nth 10 c 0 * l * p * h + nth 11 c 0 * l * l * l
      + nth 12 c 0 * l * p * p + nth 13 c 0 * l * h * h
      + nth 14 c 0 * l * l * p + nth 15 c 0 * p * p * p
      + nth 16 c 0 * p * h * h + nth 17 c 0 * l * l * h
      + nth 18 c 0 * p * p * h + nth 19 c 0 * h * h * h).

(** rpc_sensor_model.py:89-149 [RPCSensorModel.__init__] (the error estimates are stored but
    never used and are left out). *)
Record RPC := mkRPC {
  line_off : R; samp_off : R; lat_off : R; long_off : R; height_off : R;
  line_scale : R; samp_scale : R; lat_scale : R; long_scale : R; height_scale : R;
  line_num_poly : list R; line_den_poly : list R; samp_num_poly : list R; samp_den_poly : list R }.

(** rpc_sensor_model.py:151-177 [world_to_image]. *)
Definition rpc_world_to_image (m : RPC) (g : Geodetic) : res Image :=
  let l := (degrees (longitude g) - long_off m) / long_scale m in
  let p := (degrees (latitude g) - lat_off m) / lat_scale m in
  let h := (elevation g - height_off m) / height_scale m in
  bind (rpc_evaluate (samp_num_poly m) l p h) (fun sn =>
  bind (rpc_evaluate (samp_den_poly m) l p h) (fun sd =>
  bind (rpc_evaluate (line_num_poly m) l p h) (fun ln =>
  bind (rpc_evaluate (line_den_poly m) l p h) (fun ld =>
  let cn := sn / sd in
  let rn := ln / ld in
  Ok (mkImage (cn * samp_scale m + samp_off m) (rn * line_scale m + line_off m)))))).

Section Search.
(** scipy.optimize.minimize (Nelder-Mead): objective, starting point, starting simplex. *)
Variable minimize : (R * R -> res R) -> R * R -> list (R * R) -> res (R * R).

(** rpc_sensor_model.py:201-209 [distance_to_target_coordinate]. *)
Definition rpc_objective (m : RPC) (i : Image) (em : option emodel) (lonlat : R * R) : res R :=
  bind (rpc_world_to_image m (surface_point (constant_elevation (height_off m)) em lonlat))
    (fun i' => Ok (image_distance i i')).

(** rpc_sensor_model.py:179-244 [image_to_world]. *)
Definition rpc_image_to_world (m : RPC) (i : Image) (em : option emodel) (o : option dict) : res Geodetic :=
  bind (initial_guess (radians (long_off m), radians (lat_off m)) o) (fun guess =>
  bind (search_distance (radians (1 / 2)) o) (fun d =>
  bind (minimize (rpc_objective m i em) guess (equilateral_triangle guess d)) (fun x =>
  Ok (surface_point (constant_elevation (height_off m)) em x)))).

Definition rpc_sensor (m : RPC) : Sensor := mkSensor (rpc_image_to_world m) (rpc_world_to_image m).
End Search.
