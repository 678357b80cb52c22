(** Vocabulary for the binary64 tile arithmetic. *)
Require Import ZArith Reals SpecFloat.
Require Import Verif.FloatSpec.
Local Open Scope R_scope.

(** The Earth radius of the projection, in metres. *)
Definition radius : R := 6378137.
(** Projected coordinates: binary64 numbers up to 2^25 metres.  The square that the tiles cover
    reaches 20037508 metres from its centre; the parallels 89.4 degrees north and south are at 2^25. *)
Definition metres (x : spec_float) : Prop := is_binary64 x /\ Rabs (value x) <= 33554432.
(** Twenty nanometres. *)
Definition nanometres20 : R := 2 / 100000000.
Definition close (x y : R) : Prop := Rabs (x - y) <= nanometres20.
(** Any other magnitude that matters: up to 2^100 metres. *)
Definition in_range (x : spec_float) : Prop := is_binary64 x /\ Rabs (value x) <= powerRZ 2 100.
