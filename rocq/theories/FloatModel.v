(** Bit-exact evaluation of formulas in IEEE binary64, Python's float.
    [RoundModel] lets every operation err by a factor 1 + d; here the operations are those of
    Coq's SpecFloat, which give the bits of an IEEE processor rounding to nearest even.
    Source: the formulas of [RoundModel], that is rpc_sensor_model.py, replacement_sensor_model.py
    and gdal_sensor_model.py in src/aws/osml/photogrammetry.
    Simplification: [runs] relates only evaluations in which nothing overflows and no product or
    quotient is subnormal; the library function pow is not modelled bit by bit, its result may be
    any binary64 within two rounding errors. *)
Require Import ZArith Reals SpecFloat.
Require Import Verif.CoordFloatModel Verif.RoundModel Verif.RoundSpec Verif.FloatSpec.
Local Open Scope R_scope.

Definition f_add := SFadd prec emax.
Definition f_sub := SFsub prec emax.

(** [runs e f]: the formula [e] of binary64 inputs evaluates to the binary64 number [f]. *)
Inductive runs : expr -> spec_float -> Prop :=
| RNum x f : proper f -> value f = x -> runs (Num x) f
| RAdd a b f g : runs a f -> runs b g -> finite (f_add f g) -> runs (Add a b) (f_add f g)
| RSub a b f g : runs a f -> runs b g -> finite (f_sub f g) -> runs (Sub a b) (f_sub f g)
| RMul a b f g : runs a f -> runs b g -> finite (f_mul f g) -> normal (value f * value g) -> runs (Mul a b) (f_mul f g)
| RDiv a b f g : runs a f -> runs b g -> value g <> 0 -> finite (f_div f g) -> normal (value f / value g) -> runs (Div a b) (f_div f g)
| RPow a n f g d d' : runs a f -> proper g -> Rabs d <= binary64 -> Rabs d' <= binary64 ->
    value g = value f ^ n * (1 + d) * (1 + d') -> runs (Pow a n) g.
