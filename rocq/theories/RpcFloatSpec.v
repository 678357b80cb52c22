(** Specification vocabulary for the rational polynomial camera in binary64. *)
Require Import ZArith Reals List SpecFloat.
Require Import Verif.Base Verif.RpcModel Verif.FloatSpec Verif.RpcFloatModel.
Import ListNotations.
Local Open Scope R_scope.

(** The camera with the real numbers that the floats stand for. *)
Definition real_rpc (m : FRPC) : RPC :=
  mkRPC (value (f_line_off m)) (value (f_samp_off m)) (value (f_lat_off m)) (value (f_long_off m)) (value (f_height_off m))
    (value (f_line_scale m)) (value (f_samp_scale m)) (value (f_lat_scale m)) (value (f_long_scale m)) (value (f_height_scale m))
    (map value (f_line_num m)) (map value (f_line_den m)) (map value (f_samp_num m)) (map value (f_samp_den m)).

Definition total (c : list spec_float) : R := fold_right (fun f s => Rabs (value f) + s) 0 c.
Definition between (a : R) (f : spec_float) (b : R) : Prop := is_binary64 f /\ a <= Rabs (value f) <= b.

(** A camera such as those that occur: the coefficients of a numerator add up to at most 3; a
    denominator is 1 plus terms whose coefficients add up to at most 1/4. *)
Definition numerator (c : list spec_float) : Prop := List.length c = 20%nat /\ Forall is_binary64 c /\ total c <= 3.
Definition denominator (c : list spec_float) : Prop :=
  List.length c = 20%nat /\ Forall is_binary64 c /\ exists c0 rest, c = c0 :: rest /\ value c0 = 1 /\ total rest <= 1 / 4.
Record ordinary (m : FRPC) : Prop := {
  ord_line_num : numerator (f_line_num m); ord_line_den : denominator (f_line_den m);
  ord_samp_num : numerator (f_samp_num m); ord_samp_den : denominator (f_samp_den m);
  ord_line_off : between 0 (f_line_off m) 100000; ord_samp_off : between 0 (f_samp_off m) 100000;
  ord_line_scale : between 0 (f_line_scale m) 100000; ord_samp_scale : between 0 (f_samp_scale m) 100000;
  ord_long_off : between 0 (f_long_off m) 180; ord_lat_off : between 0 (f_lat_off m) 180; ord_height_off : between 0 (f_height_off m) 100000;
  ord_long_scale : between (/ 1000) (f_long_scale m) 180; ord_lat_scale : between (/ 1000) (f_lat_scale m) 180;
  ord_height_scale : between (/ 1000) (f_height_scale m) 100000 }.

(** The point is in the range that the camera is for. *)
Definition in_cube (m : RPC) (g : Geodetic) : Prop :=
  Rabs (degrees (longitude g) - long_off m) <= Rabs (long_scale m) /\
  Rabs (degrees (latitude g) - lat_off m) <= Rabs (lat_scale m) /\
  Rabs (elevation g - height_off m) <= Rabs (height_scale m).
