(** The RSM polynomial camera in IEEE binary64.
    [RsmModel] computes with exact reals; here the same statements run on SpecFloat numbers.
    Source: src/aws/osml/photogrammetry/replacement_sensor_model.py:295-320 and 568-666.
    Simplifications: the coordinates are numpy floats, the parameters floats (a TRE's numbers are
    read with float), so no division raises; numpy's [x ** n] is an arbitrary function, since C
    leaves the accuracy of pow open. *)
Require Import ZArith List SpecFloat.
Require Import Verif.Base Verif.CoordFloatModel Verif.FloatModel Verif.RpcFloatModel.
Import ListNotations.

Local Notation "a + b" := (f_add a b).
Local Notation "a - b" := (f_sub a b).
Local Notation "a * b" := (f_mul a b).
Local Notation "a / b" := (f_div a b).

Record FVec := mkFVec { fvx : spec_float; fvy : spec_float; fvz : spec_float }.

(** replacement_sensor_model.py:265-293 [RSMPolynomial.__init__]. *)
Record FPoly := mkFPoly { f_max_x : nat; f_max_y : nat; f_max_z : nat; f_coefs : list spec_float }.

Section Power.
Variable pow : spec_float -> nat -> spec_float.

(** replacement_sensor_model.py:295-320 [RSMPolynomial.evaluate]: three nested loops sharing
    [result] and [a_index]. *)
Definition f_term (p : FPoly) (v : FVec) (k j i : nat) (st : spec_float * nat) : spec_float * nat :=
  (fst st + nth (snd st) (f_coefs p) f_zero * pow (fvx v) i * pow (fvy v) j * pow (fvz v) k, S (snd st)).
Definition f_poly_evaluate (p : FPoly) (v : FVec) : spec_float :=
  fst (fold_left (fun st k =>
         fold_left (fun st j =>
           fold_left (fun st i => f_term p v k j i st) (seq 0 (S (f_max_x p))) st)
         (seq 0 (S (f_max_y p))) st)
       (seq 0 (S (f_max_z p))) (f_zero, 0%nat)).

(** replacement_sensor_model.py:411-470 [RSMPolynomialSensorModel.__init__]. *)
Record FRsm := mkFRsm {
  f_row_off : spec_float; f_column_off : spec_float; f_x_off : spec_float; f_y_off : spec_float; f_z_off : spec_float;
  f_row_scale : spec_float; f_column_scale : spec_float; f_x_scale : spec_float; f_y_scale : spec_float; f_z_scale : spec_float;
  f_row_num : FPoly; f_row_den : FPoly; f_column_num : FPoly; f_column_den : FPoly }.

(** replacement_sensor_model.py:640-666. *)
Definition f_normalize (v offset scale : spec_float) : spec_float := (v - offset) / scale.
Definition f_denormalize (v offset scale : spec_float) : spec_float := v * scale + offset.

(** replacement_sensor_model.py:586-598 [normalize_world_coordinate]. *)
Definition f_normalize_world (m : FRsm) (v : FVec) : FVec :=
  mkFVec (f_normalize (fvx v) (f_x_off m) (f_x_scale m)) (f_normalize (fvy v) (f_y_off m) (f_y_scale m))
         (f_normalize (fvz v) (f_z_off m) (f_z_scale m)).

(** replacement_sensor_model.py:568-584 [ground_domain_to_image] and 626-638: (column, row). *)
Definition f_ground_domain_to_image (m : FRsm) (v : FVec) : spec_float * spec_float :=
  let n := f_normalize_world m v in
  let norm_row := f_poly_evaluate (f_row_num m) n / f_poly_evaluate (f_row_den m) n in
  let norm_column := f_poly_evaluate (f_column_num m) n / f_poly_evaluate (f_column_den m) n in
  (f_denormalize norm_column (f_column_off m) (f_column_scale m), f_denormalize norm_row (f_row_off m) (f_row_scale m)).
End Power.

(** A power by repeated multiplication, as one choice. *)
Fixpoint f_pow_mul (x : spec_float) (n : nat) : spec_float :=
  match n with O => f_of_Z 1 | S n => f_pow_mul x n * x end.
