(** Vocabulary for adjustments seen from the pixels, written without the code. *)
Require Import ZArith Reals List Arith.
Require Import Verif.Base Verif.DisplayModel.
Import ListNotations.
Local Open Scope R_scope.

(** The bucket of [v] among [n] equal buckets between [lo] and [hi]; the last one has its upper end. *)
Definition bucket (n : nat) (lo hi v : R) : nat := Nat.min (n - 1) (Z.to_nat (Rfloor ((v - lo) * INR n / (hi - lo)))).
(** The histogram of the pixels that GDAL has looked at ([approx_ok] lets it look at some only). *)
Definition counted (seen : list R) (n : nat) (lo hi : R) (counts : list R) : Prop :=
  List.length counts = n /\
  forall k, (k < n)%nat -> nth k counts 0 = INR (List.length (filter (fun v => Nat.eqb (bucket n lo hi v) k) seen)).
(** The statistics of these pixels. *)
Definition extremes (seen : list R) (lo hi : R) : Prop := In lo seen /\ In hi seen /\ forall v, In v seen -> lo <= v <= hi.

(** How many pixels are darker, or brighter, than [x]. *)
Definition darker (x : R) (seen : list R) : nat := List.length (filter (fun v => if Rlt_dec v x then true else false) seen).
Definition brighter (x : R) (seen : list R) : nat := List.length (filter (fun v => if Rlt_dec x v then true else false) seen).
