(** Specification vocabulary for the RSM polynomial camera in binary64. *)
Require Import ZArith Reals List SpecFloat.
Require Import Verif.Base Verif.RsmModel Verif.FloatSpec Verif.RpcFloatSpec Verif.RsmFloatModel.
Import ListNotations.
Local Open Scope R_scope.

(** The camera with the real numbers that the floats stand for. *)
Definition real_vec (v : FVec) : Vec.Vec := Vec.mkVec (value (fvx v)) (value (fvy v)) (value (fvz v)).
Definition real_poly (p : FPoly) : Poly := mkPoly (f_max_x p) (f_max_y p) (f_max_z p) (map value (f_coefs p)).
Definition real_rsm (d : GroundDomain) (m : FRsm) : RsmPoly :=
  mkRsmPoly d (value (f_row_off m)) (value (f_column_off m)) (value (f_x_off m)) (value (f_y_off m)) (value (f_z_off m))
    (value (f_row_scale m)) (value (f_column_scale m)) (value (f_x_scale m)) (value (f_y_scale m)) (value (f_z_scale m))
    (real_poly (f_row_num m)) (real_poly (f_row_den m)) (real_poly (f_column_num m)) (real_poly (f_column_den m)).

(** What is asked of the library's power function, for the bases and exponents that occur: the result
    is a number, and within four units in the last place of the exact power. *)
Definition accurate_power (pow : spec_float -> nat -> spec_float) : Prop :=
  forall x n, is_binary64 x -> Rabs (value x) <= 2 -> (n <= 5)%nat ->
    is_binary64 (pow x n) /\ Rabs (value (pow x n) - value x ^ n) <= powerRZ 2 (-50) * Rabs (value x ^ n) + powerRZ 2 (-1060).

(** A camera such as those that occur: powers up to 5 as the format allows, as many coefficients as
    the constructor requires; the coefficients of a numerator add up to at most 3; a denominator
    is 1 plus terms whose coefficients add up to at most 1/4. *)
Definition complete (p : FPoly) : Prop :=
  (f_max_x p <= 5)%nat /\ (f_max_y p <= 5)%nat /\ (f_max_z p <= 5)%nat /\
  List.length (f_coefs p) = ((f_max_x p + 1) * (f_max_y p + 1) * (f_max_z p + 1))%nat /\ Forall is_binary64 (f_coefs p).
Definition rsm_numerator (p : FPoly) : Prop := complete p /\ total (f_coefs p) <= 3.
Definition rsm_denominator (p : FPoly) : Prop :=
  complete p /\ exists c0 rest, f_coefs p = c0 :: rest /\ value c0 = 1 /\ total rest <= 1 / 4.
Record ordinary_rsm (m : FRsm) : Prop := {
  or_row_num : rsm_numerator (f_row_num m); or_row_den : rsm_denominator (f_row_den m);
  or_column_num : rsm_numerator (f_column_num m); or_column_den : rsm_denominator (f_column_den m);
  or_row_off : between 0 (f_row_off m) 100000; or_column_off : between 0 (f_column_off m) 100000;
  or_row_scale : between 0 (f_row_scale m) 100000; or_column_scale : between 0 (f_column_scale m) 100000;
  or_x_off : between 0 (f_x_off m) 10000000; or_y_off : between 0 (f_y_off m) 10000000; or_z_off : between 0 (f_z_off m) 10000000;
  or_x_scale : between (/ 10 ^ 9) (f_x_scale m) 10000000; or_y_scale : between (/ 10 ^ 9) (f_y_scale m) 10000000;
  or_z_scale : between (/ 10 ^ 9) (f_z_scale m) 10000000 }.

(** The point is in the range that the camera is for. *)
Definition in_range (m : FRsm) (v : FVec) : Prop :=
  is_binary64 (fvx v) /\ is_binary64 (fvy v) /\ is_binary64 (fvz v) /\
  Rabs (value (fvx v) - value (f_x_off m)) <= Rabs (value (f_x_scale m)) /\
  Rabs (value (fvy v) - value (f_y_off m)) <= Rabs (value (f_y_scale m)) /\
  Rabs (value (fvz v) - value (f_z_off m)) <= Rabs (value (f_z_scale m)).
