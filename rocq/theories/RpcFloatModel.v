(** The rational polynomial camera in IEEE binary64, Python's float.
    [RpcModel] computes with exact reals; here the same statements run on SpecFloat numbers.
    Source: src/aws/osml/photogrammetry/rpc_sensor_model.py:27-64 and 151-177.
    Simplification: the coordinates and parameters are floats (a TRE's numbers are read with float). *)
Require Import ZArith String List SpecFloat.
Require Import Verif.Base Verif.CoordFloatModel Verif.FloatModel.
Import ListNotations.

(** rpc_sensor_model.py:89-149 [RPCSensorModel.__init__]. *)
Record FRPC := mkFRPC {
  f_line_off : spec_float; f_samp_off : spec_float; f_lat_off : spec_float; f_long_off : spec_float; f_height_off : spec_float;
  f_line_scale : spec_float; f_samp_scale : spec_float; f_lat_scale : spec_float; f_long_scale : spec_float; f_height_scale : spec_float;
  f_line_num : list spec_float; f_line_den : list spec_float; f_samp_num : list spec_float; f_samp_den : list spec_float }.

Local Notation "a + b" := (f_add a b).
Local Notation "a - b" := (f_sub a b).
Local Notation "a * b" := (f_mul a b).
Local Notation "a / b" := (f_div a b).
Definition f_zero : spec_float := S754_zero false.

(** rpc_sensor_model.py:27-64 [RPCPolynomial.evaluate]. *)
Definition f_rpc_evaluate (c : list spec_float) (l p h : spec_float) : res spec_float :=
  if Nat.ltb (List.length c) 20 then Err IndexError else
  let c i := nth i c f_zero in
  Ok (f_zero + c 0%nat + c 1%nat * l + c 2%nat * p + c 3%nat * h
      + c 4%nat * l * p + c 5%nat * l * h + c 6%nat * p * h
      + c 7%nat * l * l + c 8%nat * p * p + c 9%nat * h * h
      + c 10%nat * l * p * h + c 11%nat * l * l * l
      + c 12%nat * l * p * p + c 13%nat * l * h * h
      + c 14%nat * l * l * p + c 15%nat * p * p * p
      + c 16%nat * p * h * h + c 17%nat * l * l * h
      + c 18%nat * p * p * h + c 19%nat * h * h * h).

(** Python's float division raises for a zero divisor; numpy's does not. *)
Definition py_div (a b : spec_float) : res spec_float :=
  match b with S754_zero _ => Err ZeroDivisionError | _ => Ok (a / b) end.

(** rpc_sensor_model.py:151-177 [world_to_image]: math.degrees gives Python floats, the elevation
    and the elements of the normalised coordinate are numpy floats. *)
Definition f_rpc_world_to_image (m : FRPC) (lon lat height : spec_float) : res (spec_float * spec_float) :=
  bind (py_div (f_degrees lon - f_long_off m) (f_long_scale m)) (fun l =>
  bind (py_div (f_degrees lat - f_lat_off m) (f_lat_scale m)) (fun p =>
  let h := (height - f_height_off m) / f_height_scale m in
  bind (f_rpc_evaluate (f_samp_num m) l p h) (fun sn =>
  bind (f_rpc_evaluate (f_samp_den m) l p h) (fun sd =>
  bind (f_rpc_evaluate (f_line_num m) l p h) (fun ln =>
  bind (f_rpc_evaluate (f_line_den m) l p h) (fun ld =>
  let cn := sn / sd in
  let rn := ln / ld in
  Ok (cn * f_samp_scale m + f_samp_off m, rn * f_line_scale m + f_line_off m))))))).
