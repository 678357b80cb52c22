(** One axis of the approximation grid of the geolocator in binary64 arithmetic, bit by bit.
    Source: src/aws/osml/features/geolocation.py:46-47 and 155-165.
    Simplification: the bounds of the features are floats; numpy.linspace is modelled as numpy
    computes it: multiples of a rounded step, with the end put in the place of the last one. *)
Require Import ZArith List SpecFloat.
Require Import Verif.CoordFloatModel Verif.FloatModel.
Import ListNotations.

(** numpy.linspace(start, stop, n). *)
Definition f_linspace (start stop : spec_float) (n : nat) : list spec_float :=
  let delta := f_sub stop start in
  match n with
  | O => []
  | S O => [f_add (f_mul (f_of_Z 0) delta) start]
  | S m =>
    let intervals := f_of_Z (Z.of_nat m) in
    let step := f_div delta intervals in
    let multiple i := match step with
                      | S754_zero _ => f_mul (f_div (f_of_Z (Z.of_nat i)) intervals) delta
                      | _ => f_mul (f_of_Z (Z.of_nat i)) step
                      end in
    List.map (fun i => f_add (multiple i) start) (seq 0 m) ++ [stop]
  end.

(** geolocation.py:155-165 and 46-47: [lo] and [hi] are the least and the greatest coordinate of
    the features; the width, not the end, is handed to the interpolator. *)
Definition f_grid_axis (lo hi : spec_float) (n : nat) : list spec_float :=
  let upper_left := f_sub lo (f_of_Z 10) in
  let lower_right := f_add hi (f_of_Z 10) in
  let width := f_sub lower_right upper_left in
  f_linspace upper_left (f_add upper_left width) n.
