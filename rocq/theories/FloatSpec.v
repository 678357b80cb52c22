(** Specification vocabulary for floating point numbers. *)
Require Import ZArith Reals SpecFloat.
Local Open Scope R_scope.

(** The real number that a floating point number stands for (zero for those that stand for none). *)
Definition value (x : spec_float) : R :=
  match x with
  | S754_finite s m e => (if s then -1 else 1) * IZR (Zpos m) * powerRZ 2 e
  | _ => 0
  end.
Definition finite (x : spec_float) : Prop :=
  match x with S754_zero _ | S754_finite _ _ _ => True | _ => False end.
(** IEEE binary64 numbers are multiples of 2^-1074; those from 2^-1022 on are normal. *)
Definition proper (x : spec_float) : Prop :=
  match x with S754_zero _ => True | S754_finite _ _ e => (-1074 <= e)%Z | _ => False end.
Definition smallest_normal : R := powerRZ 2 (-1022).
(** Zero, or large enough for full precision. *)
Definition normal (x : R) : Prop := x = 0 \/ smallest_normal <= Rabs x.
(** [rounded x r]: [r] is [x] up to a relative error of 2^-53. *)
Definition rounded (x r : R) : Prop := exists d, Rabs d <= powerRZ 2 (-53) /\ r = x * (1 + d).

(** The finite numbers of the binary64 format, in their only representation. *)
Definition is_binary64 (x : spec_float) : Prop := finite x /\ valid_binary 53 1024 x = true.
Definition even_digits (x : spec_float) : bool :=
  match x with S754_finite _ m _ => Z.even (Zpos m) | _ => true end.
(** [nearest x f]: no binary64 number is closer to [x] than [f], and if another one is as close the
    last digit of [f] is even. *)
Definition nearest (x : R) (f : spec_float) : Prop :=
  is_binary64 f /\ forall g, is_binary64 g ->
  Rabs (value f - x) <= Rabs (value g - x) /\
  (Rabs (value f - x) = Rabs (value g - x) -> value f <> value g -> even_digits f = true).
