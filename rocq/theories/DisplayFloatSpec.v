(** Specification vocabulary for displayed pixels in binary64. *)
Require Import ZArith Reals List SpecFloat.
Require Import Verif.FloatSpec.
Local Open Scope R_scope.

(** The shade of grey of a pixel in exact arithmetic, before it is cut to a whole number. *)
Definition level (v : R) : R := Rmax 0 (Rmin 255 v).
Definition minmax_shade (lo hi p : R) : R := level (255 * (p - lo) / Rmax hi 1).
Definition dra_shade (smin smax p : R) : R := level (255 * (p - smin) / Rmax (smax - smin) 1).

(** [shows z v d]: the byte [z] is the whole part of [v] up to a difference of [d]. *)
Definition shows (z : Z) (v d : R) : Prop :=
  (0 <= z <= 255)%Z /\ IZR z <= v + d /\ v - d < IZR z + 1.
(** No whole number is within [d] of [v]. *)
Definition apart (d v : R) : Prop := forall k : Z, d < Rabs (v - IZR k).

(** Binary64 numbers of moderate size. *)
Definition moderate (x : spec_float) : Prop := is_binary64 x /\ Rabs (value x) <= powerRZ 2 400.
Definition whole (b : Z) (x : spec_float) : Prop := is_binary64 x /\ exists n : Z, value x = IZR n /\ (Z.abs n <= b)%Z.

(** A histogram GDAL could return, small enough for exact sums. *)
Definition pixel_counts (counts : list Z) : Prop :=
  Forall (fun c => (0 <= c)%Z) counts /\ (fold_right Z.add 0 counts < 2 ^ 45)%Z /\ (Z.of_nat (List.length counts) <= 2 ^ 40)%Z.
