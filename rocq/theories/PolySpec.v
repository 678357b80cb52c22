(** Vocabulary of the RPC and RSM properties (C19 - C26, C66, C67), written without the
    models' evaluation code. *)
Require Import ZArith Reals String List.
Import ListNotations.
Local Open Scope R_scope.

(** Sum of a list, and of f 0 .. f (n-1). *)
Definition total (l : list R) : R := fold_right Rplus 0 l.
Fixpoint bigsum (n : nat) (f : nat -> R) : R :=
  match n with O => 0 | S m => bigsum m f + f m end.

(** Exponents of (L, P, H) = normalised (longitude, latitude, height) in the order of the RPC00B
    coefficients, STDI-0002 Volume 1 Appendix E: 1, L, P, H, LP, LH, PH, LL, PP, HH, PLH, LLL,
    LPP, LHH, LLP, PPP, PHH, LLH, PPH, HHH. *)
Definition rpc00b_exponents : list (nat * nat * nat) :=
  [ (0,0,0); (1,0,0); (0,1,0); (0,0,1); (1,1,0); (1,0,1); (0,1,1); (2,0,0); (0,2,0); (0,0,2);
    (1,1,1); (3,0,0); (1,2,0); (1,0,2); (2,1,0); (0,3,0); (0,1,2); (2,0,1); (0,2,1); (0,0,3) ]%nat.

Definition monomial (L P H : R) (e : nat * nat * nat) : R :=
  let '(a, b, c) := e in L ^ a * P ^ b * H ^ c.

Definition rpc00b (c : list R) (L P H : R) : R :=
  total (List.map (fun t => fst t * monomial L P H (snd t)) (combine c rpc00b_exponents)).

(** General polynomial with one coefficient per combination of powers, the power of x varying
    fastest, then y, then z (STDI-0002 Volume 1 Appendix U, RSMPCA). *)
Definition general_polynomial (px py pz : nat) (c : list R) (x y z : R) : R :=
  bigsum (pz + 1) (fun k => bigsum (py + 1) (fun j => bigsum (px + 1) (fun i =>
    nth (i + (px + 1) * (j + (py + 1) * k)) c 0 * x ^ i * y ^ j * z ^ k))).

(** The section of [n] sections of [size], the first starting at [lo], that [v] belongs to; the
    first and the last one extend to infinity. *)
Definition section_of (lo size : R) (n : Z) (v : R) (r : Z) : Prop :=
  (0 <= r < n)%Z /\
  (r = 0%Z \/ lo + IZR r * size <= v) /\
  (r = (n - 1)%Z \/ v < lo + IZR (r + 1) * size).
