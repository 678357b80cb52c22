(** The section of an RSM sectioned polynomial model in binary64 arithmetic, bit by bit.
    Source: src/aws/osml/photogrammetry/replacement_sensor_model.py:354-374 and 722-730, 760-784.
    The image coordinate holds numpy.float64 values (coordinates.py:305): a division by zero is an
    infinity or not a number and does not raise, but math.floor refuses both.
    Simplifications: the warnings of numpy are left out; the whole numbers of the image domain are
    rounded to the nearest binary64, as numpy does with a Python int; the ground domain coordinate
    is given, and the coefficients are floats. *)
Require Import ZArith List SpecFloat.
Require Import Verif.Base Verif.RsmModel Verif.CoordFloatModel Verif.FloatModel Verif.RpcFloatModel Verif.RsmFloatModel.
Local Open Scope Z_scope.

(** math.floor: OverflowError (here [OtherError]) for an infinity, ValueError for nan. *)
Definition py_floor (x : spec_float) : res Z :=
  match x with
  | S754_infinity _ => Err OtherError
  | S754_nan => Err ValueError
  | _ => match f_floor x with Some k => Ok k | None => Err OtherError end
  end.

(** replacement_sensor_model.py:772-776 and 778-782, either axis. *)
Definition f_section (v : spec_float) (minimum : Z) (size : spec_float) (n : Z) : res Z :=
  bind (py_floor (f_div (f_sub v (f_of_Z minimum)) size)) (fun k => Ok (clamp_index k n)).

(** The fields that [get_section_index] reads (replacement_sensor_model.py:702-709). *)
Record FSections := mkFSections {
  fs_min_row : Z; fs_min_column : Z; fs_rows : Z; fs_columns : Z;
  fs_row_size : spec_float; fs_column_size : spec_float }.

(** replacement_sensor_model.py:760-784 [get_section_index]: rows first; the result is (column, row). *)
Definition f_get_section_index (m : FSections) (x y : spec_float) : res (Z * Z) :=
  bind (f_section y (fs_min_row m) (fs_row_size m) (fs_rows m)) (fun row =>
  bind (f_section x (fs_min_column m) (fs_column_size m) (fs_columns m)) (fun column =>
  Ok (column, row))).

(** replacement_sensor_model.py:354-374 [RSMLowOrderPolynomial.evaluate]. *)
Definition f_low_order_evaluate (c : list spec_float) (v : FVec) : spec_float :=
  let a i := nth i c f_zero in
  let r := f_add f_zero (a 0%nat) in
  let r := f_add r (f_mul (a 1%nat) (fvx v)) in
  let r := f_add r (f_mul (a 2%nat) (fvy v)) in
  let r := f_add r (f_mul (a 3%nat) (fvz v)) in
  let r := f_add r (f_mul (f_mul (a 4%nat) (fvx v)) (fvx v)) in
  let r := f_add r (f_mul (f_mul (a 5%nat) (fvx v)) (fvy v)) in
  let r := f_add r (f_mul (f_mul (a 6%nat) (fvx v)) (fvz v)) in
  let r := f_add r (f_mul (f_mul (a 7%nat) (fvy v)) (fvy v)) in
  let r := f_add r (f_mul (f_mul (a 8%nat) (fvy v)) (fvz v)) in
  f_add r (f_mul (f_mul (a 9%nat) (fvz v)) (fvz v)).

(** replacement_sensor_model.py:722-730 [world_to_image]: the section of a ground domain coordinate. *)
Definition f_world_section (m : FSections) (row_polynomial column_polynomial : list spec_float) (v : FVec) : res (Z * Z) :=
  let approximate_row := f_low_order_evaluate row_polynomial v in
  let approximate_column := f_low_order_evaluate column_polynomial v in
  f_get_section_index m approximate_column approximate_row.
