(** What it means to fit a projective transform, written without the estimation code. *)
Require Import Reals List.
Require Import Verif.Base Verif.TransformModel Verif.PolySpec.
Import ListNotations.
Local Open Scope R_scope.

(** The denominator of the transform at a point; the transform is defined where it is not 0. *)
Definition denominator (t : Projective) (s : R * R) : R := 1 + c0 t * fst s + c1 t * snd s.

(** The transform takes [s] to [d]. *)
Definition takes (t : Projective) (s d : R * R) : Prop :=
  denominator t s <> 0 /\
  fst d = (a0 t + a1 t * fst s + a2 t * snd s) / denominator t s /\
  snd d = (b0 t + b1 t * fst s + b2 t * snd s) / denominator t s.

(** Algebraic error of a correspondence. *)
Definition algebraic_error (t : Projective) (s d : R * R) : R :=
  (a0 t + a1 t * fst s + a2 t * snd s - fst d * denominator t s) ^ 2 +
  (b0 t + b1 t * fst s + b2 t * snd s - snd d * denominator t s) ^ 2.

Definition total_error (t : Projective) (src dst : list (R * R)) : R :=
  total (List.map (fun p => algebraic_error t (fst p) (snd p)) (combine src dst)).

(** The determinant of the homogeneous matrix of the transform. *)
Definition determinant (t : Projective) : R :=
  a1 t * (b2 t * 1 - b0 t * c1 t) - a2 t * (b1 t * 1 - b0 t * c0 t) + a0 t * (b1 t * c1 t - b2 t * c0 t).

(** Matrix times vector, squared residual, and what np.linalg.lstsq promises: eight numbers, and
    no other eight numbers have a smaller residual. *)
Definition dotl (r m : list R) : R := total (List.map (fun p => fst p * snd p) (combine r m)).
Definition residual (a : list (list R)) (b m : list R) : R :=
  total (List.map (fun p => (dotl (fst p) m - snd p) ^ 2) (combine a b)).
Definition least_squares (lstsq : list (list R) -> list R -> res (list R)) : Prop :=
  forall a b m, lstsq a b = Ok m ->
    List.length m = 8%nat /\ forall m', List.length m' = 8%nat -> residual a b m <= residual a b m'.

(** Three points on a line. *)
Definition collinear (p q r : R * R) : Prop :=
  (fst q - fst p) * (snd r - snd p) = (snd q - snd p) * (fst r - fst p).
Definition general_position (p q r s : R * R) : Prop :=
  ~ collinear p q r /\ ~ collinear p q s /\ ~ collinear p r s /\ ~ collinear q r s.
