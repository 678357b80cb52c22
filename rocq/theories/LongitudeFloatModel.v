(** The longitude of an RSM ground domain of 0 to 2 pi in binary64 arithmetic, bit by bit.
    Source: src/aws/osml/photogrammetry/replacement_sensor_model.py:184-193.
    The longitude is a numpy.float64 (coordinates.py:29), so that % is numpy.remainder: the exact
    remainder of C's fmod, with the divisor added when the signs differ.
    Simplifications: the warnings of numpy are left out. *)
Require Import ZArith SpecFloat.
Require Import Verif.CoordFloatModel Verif.FloatModel.
Local Open Scope Z_scope.

(** fmod of the C library: the exact remainder of the division of the magnitudes, with the sign of
    the dividend. *)
Definition f_fmod (a b : spec_float) : spec_float :=
  match a, b with
  | S754_nan, _ | _, S754_nan | S754_infinity _, _ | _, S754_zero _ => S754_nan
  | S754_zero _, _ | _, S754_infinity _ => a
  | S754_finite sa ma ea, S754_finite _ mb eb =>
      let e := Z.min ea eb in
      binary_normalize prec emax (cond_Zopp sa ((Z.pos ma * 2 ^ (ea - e)) mod (Z.pos mb * 2 ^ (eb - e)))) e sa
  end.

Definition f_sign (x : spec_float) : bool :=
  match x with S754_zero s | S754_infinity s | S754_finite s _ _ => s | S754_nan => false end.

(** numpy.remainder. *)
Definition f_remainder (a b : spec_float) : spec_float :=
  match f_fmod a b with
  | S754_nan => S754_nan
  | S754_zero _ => S754_zero (f_sign b)
  | m => if Bool.eqb (f_sign m) (f_sign b) then m else f_add m b
  end.

(** 2 * pi. *)
Definition f_two_pi : spec_float := f_mul (f_of_Z 2) f_pi.

(** replacement_sensor_model.py:188. *)
Definition f_domain_longitude (x : spec_float) : spec_float := f_remainder (f_add x f_two_pi) f_two_pi.
