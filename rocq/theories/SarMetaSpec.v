(** Vocabulary of the SAR metadata properties, written without the code. *)
Require Import ZArith Reals List.
Require Import Verif.Base Verif.PolySpec Verif.SarMetaModel.
Import ListNotations.
Local Open Scope R_scope.

(** The polynomial that a list of coefficients with exponents declares. *)
Definition declared1 (p : Poly1) (x : R) : R :=
  total (List.map (fun c => value1 c * x ^ Z.to_nat (exponent1 c)) (coefs1 p)).
Definition declared2 (p : Poly2) (x y : R) : R :=
  total (List.map (fun c => value2 c * x ^ Z.to_nat (exponent2_1 c) * y ^ Z.to_nat (exponent2_2 c)) (coefs2 p)).

(** Exponents within the declared order, each used once. *)
Definition in_order1 (p : Poly1) : Prop := forall c, In c (coefs1 p) -> (0 <= exponent1 c <= order1 p)%Z.
Definition in_order2 (p : Poly2) : Prop :=
  forall c, In c (coefs2 p) -> (0 <= exponent2_1 c <= order2_1 p)%Z /\ (0 <= exponent2_2 c <= order2_2 p)%Z.
Definition distinct1 (p : Poly1) : Prop := NoDup (List.map exponent1 (coefs1 p)).
Definition distinct2 (p : Poly2) : Prop := NoDup (List.map (fun c => (exponent2_1 c, exponent2_2 c)) (coefs2 p)).

(** The value given last for an exponent. *)
Fixpoint given_last (k : Z) (cs : list Coef1) : option R :=
  match cs with
  | [] => None
  | c :: r => match given_last k r with
              | Some v => Some v
              | None => if Z.eqb (exponent1 c) k then Some (value1 c) else None
              end
  end.

(** Window [b] taken out of the image that is window [a] of another image. *)
Definition within (a b : Bounds) : Bounds := mkBounds (bx a + bx b) (by_ a + by_ b) (bw b) (bh b).

(** A chip that is the window [b] of the full image, pixel for pixel; corners are the centres of
    the corner pixels. *)
Definition is_window (c : GeoChip) (b : Bounds) : Prop :=
  chip_cols c = bw b /\ chip_rows c = bh b /\
  upper_left c = (IZR (bx b), IZR (by_ b)) /\
  upper_right c = (IZR (bx b + bw b - 1), IZR (by_ b)) /\
  lower_right c = (IZR (bx b + bw b - 1), IZR (by_ b + bh b - 1)) /\
  lower_left c = (IZR (bx b), IZR (by_ b + bh b - 1)).

(** Affine maps of the plane. *)
Record AffineMap := mkAffineMap { origin : R * R; per_x : R * R; per_y : R * R }.
Definition apply_affine (f : AffineMap) (p : R * R) : R * R :=
  (fst (origin f) + fst p * fst (per_x f) + snd p * fst (per_y f),
   snd (origin f) + fst p * snd (per_x f) + snd p * snd (per_y f)).
(** The recorded corners are the images of the centres of the chip's corner pixels. *)
Definition chip_is (c : GeoChip) (f : AffineMap) : Prop :=
  upper_left c = apply_affine f (0, 0) /\
  upper_right c = apply_affine f (IZR (chip_cols c) - 1, 0) /\
  lower_right c = apply_affine f (IZR (chip_cols c) - 1, IZR (chip_rows c) - 1) /\
  lower_left c = apply_affine f (0, IZR (chip_rows c) - 1).
