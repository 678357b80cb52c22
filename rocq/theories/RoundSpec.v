(** Specification vocabulary for rounding errors. *)
Require Import Reals List.
Require Import Verif.Base Verif.Vec Verif.RpcModel Verif.RsmModel Verif.RoundModel.
Local Open Scope R_scope.

(** Formulas whose only divisions are by given numbers other than zero. *)
Fixpoint polynomial (e : expr) : Prop :=
  match e with
  | Num _ => True
  | Add a b | Sub a b | Mul a b => polynomial a /\ polynomial b
  | Div a b => polynomial a /\ match b with Num s => s <> 0 | _ => False end
  | Pow a _ => polynomial a
  end.

(** The same formula with absolute values of all terms: what the errors are relative to.  Two given
    numbers are added or subtracted first. *)
Fixpoint magnitude (e : expr) : R :=
  match e with
  | Num x => Rabs x
  | Add a b => match a, b with Num x, Num y => Rabs (x + y) | _, _ => magnitude a + magnitude b end
  | Sub a b => match a, b with Num x, Num y => Rabs (x - y) | _, _ => magnitude a + magnitude b end
  | Mul a b => magnitude a * magnitude b
  | Div a b => magnitude a / Rabs (exact b)
  | Pow a n => magnitude a ^ n
  end.

(** How many rounding errors can multiply up in one term. *)
Fixpoint roundings (e : expr) : nat :=
  match e with
  | Num _ => 0
  | Add a b | Sub a b => S (Nat.max (roundings a) (roundings b))
  | Mul a b => S (roundings a + roundings b)
  | Div a _ => S (roundings a)
  | Pow a n => S (S (n * roundings a))
  end.

(** [growth u k]: the relative error after [k] roundings. *)
Definition growth (u : R) (k : nat) : R := (1 + u) ^ k - 1.

(** The error of a quotient n / d whose parts have errors up to [en] and [ed], when it is then
    multiplied by [scale] and added to [offset] with three more roundings. *)
Definition quotient_error (u en ed n d scale offset : R) : R :=
  Rabs scale * ((1 + u) ^ 3 * ((en + Rabs (n / d) * ed) / (Rabs d - ed)) + growth u 3 * Rabs (n / d)) + u * Rabs offset.

(** The unit roundoff of IEEE binary64, Python's float. *)
Definition binary64 : R := / 2 ^ 53.

(** An RSM polynomial with the absolute values of its coefficients. *)
Definition absolute (p : Poly) : Poly := mkPoly (max_x p) (max_y p) (max_z p) (map Rabs (coefs p)).
(** One addition per term and, in a term, three multiplications, three powers and the two roundings
    of every normalised factor. *)
Definition rsm_roundings (p : Poly) : nat := (max_x p + 1) * (max_y p + 1) * (max_z p + 1) + 9 + 2 * (max_x p + max_y p + max_z p).

(** Well conditioned: the terms of numerator and denominator add up to at most 4 in absolute value,
    the denominator is at least 1/2, and scale and offset are at most 100000. *)
Definition rpc_tame (num den : list R) (l p h scale offset : R) : Prop :=
  exists an ad d,
    rpc_evaluate (map Rabs num) (Rabs l) (Rabs p) (Rabs h) = Ok an /\ an <= 4 /\
    rpc_evaluate (map Rabs den) (Rabs l) (Rabs p) (Rabs h) = Ok ad /\ ad <= 4 /\
    rpc_evaluate den l p h = Ok d /\ 1 / 2 <= Rabs d /\ Rabs scale <= 100000 /\ Rabs offset <= 100000.
Definition vabs (v : Vec) : Vec := mkVec (Rabs (vx v)) (Rabs (vy v)) (Rabs (vz v)).
Definition rsm_tame (num den : Poly) (v : Vec) (scale offset : R) : Prop :=
  poly_evaluate (absolute num) (vabs v) <= 4 /\ poly_evaluate (absolute den) (vabs v) <= 4 /\
  1 / 2 <= Rabs (poly_evaluate den v) /\ Rabs scale <= 100000 /\ Rabs offset <= 100000.
