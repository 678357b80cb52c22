(** Shared vocabulary of the models: Python exceptions as values, and the
    integer roundings of real numbers.  Nothing here models project code. *)
Require Import ZArith Reals String List.
Local Open Scope R_scope.

(** Python exceptions that the modelled code can raise. *)
Inductive exn : Set :=
| ValueError | TypeError | IndexError | KeyError | AttributeError
| ZeroDivisionError | LinAlgError | RuntimeError | OtherError.

(** Result of a call that either returns or raises. *)
Inductive res (A : Type) : Type :=
| Ok (a : A)
| Err (e : exn).
Arguments Ok {A} a.
Arguments Err {A} e.

Definition bind {A B} (m : res A) (f : A -> res B) : res B :=
  match m with Ok a => f a | Err e => Err e end.

Definition is_ok {A} (m : res A) : Prop := exists a, m = Ok a.

(** math.floor and math.ceil on exact reals. *)
Definition Rfloor (r : R) : Z := (up r - 1)%Z.
Definition Rceil (r : R) : Z := (- Rfloor (- r))%Z.
