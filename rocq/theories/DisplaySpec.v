(** Vocabulary of the pixel range and display properties, written without the code. *)
Require Import ZArith Reals List.
Require Import Verif.PolySpec Verif.DisplayModel.
Import ListNotations.
Local Open Scope R_scope.

(** How many pixels the buckets before bucket [k] hold. *)
Definition below (counts : list R) (k : nat) : R := total (firstn k counts).
Definition used (counts : list R) (k : nat) : Prop := (k < List.length counts)%nat /\ nth k counts 0 <> 0.
Definition first_used (counts : list R) (i : nat) : Prop := used counts i /\ forall k, used counts k -> (i <= k)%nat.
Definition last_used (counts : list R) (j : nat) : Prop := used counts j /\ forall k, used counts k -> (k <= j)%nat.

(** The range of values of a histogram as the caller gives it: without a first value it starts at
    zero, without a last value at the number of buckets. *)
Definition value_range (first last : option R) (n : nat) (lo hi : R) : Prop :=
  (first = Some lo \/ first = None /\ lo = 0) /\ (last = Some hi /\ hi <> 0 \/ last = None /\ hi = INR n).
(** The lower edge of bucket [x] of [n] between [lo] and [hi]. *)
Definition edge (lo hi : R) (n : nat) (x : R) : R := lo + x * ((hi - lo) / INR n).

(** An integer of [w] bits. *)
Definition fits_type (d : Dtype) (x : R) : Prop :=
  match d with
  | Floating => True
  | Integer true w => exists z, x = IZR z /\ (- 2 ^ (w - 1) <= z < 2 ^ (w - 1))%Z
  | Integer false w => exists z, x = IZR z /\ (0 <= z < 2 ^ w)%Z
  end.
(** The difference of any two pixels is a number of the type. *)
Definition differences_fit (d : Dtype) (l : list R) : Prop :=
  forall p q, In p l -> In q l -> q <= p -> fits_type d (p - q).

Definition byte (z : Z) : Prop := (0 <= z <= 255)%Z.
(** A mapping of pixels that never makes a brighter pixel darker. *)
Definition order_kept {A} (le : A -> A -> Prop) (pixels : list R) (out : list A) : Prop :=
  forall i j p q x y, nth_error pixels i = Some p -> nth_error pixels j = Some q -> p <= q ->
  nth_error out i = Some x -> nth_error out j = Some y -> le x y.

Definition average (l : list R) : R := total l / INR (List.length l).
