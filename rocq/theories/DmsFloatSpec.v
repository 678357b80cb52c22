(** Specification vocabulary for degrees, minutes and seconds in binary64. *)
Require Import ZArith Reals SpecFloat.
Require Import Verif.FloatSpec.
Local Open Scope R_scope.

(** [round] gives the float nearest to a whole number of millionths that is within half a millionth
    (and a bit) of its argument.  What it does beyond 2 does not matter here. *)
Definition rounds6 (round : spec_float -> spec_float) : Prop :=
  forall x, is_binary64 x -> Rabs (value x) <= 2 ->
  exists k : Z, nearest (IZR k / 1000000) (round x) /\ Rabs (IZR k - 1000000 * value x) <= 1 / 2 + 1 / 1000000.

(** [x] is not within [d] of a whole number, or of the middle of two. *)
Definition off_whole (d x : R) : Prop := forall k : Z, d < Rabs (x - IZR k).
Definition off_middle (d x : R) : Prop := forall k : Z, d < Rabs (x - (IZR k + 1 / 2)).
