(** Bit-exact binary64 model of the pixels shown in the MINMAX and DRA modes.
    Source: src/aws/osml/image_processing/gdal_tile_factory.py:445-488 and
            src/aws/osml/gdal/dynamic_range_adjustment.py:28-92.
    DisplayModel has the same code in exact arithmetic.  Here the arrays are integers of at most 53
    bits or float64 and the band has its statistics, so that all of the arithmetic is done in binary64
    (float32 arrays stay in float32 and are not modelled, and neither are the tile's own minimum and
    maximum, which DisplayModel has).  Histogram counts are integers, as GDAL returns them. *)
Require Import ZArith List Bool SpecFloat.
Require Import Verif.Base Verif.CoordFloatModel Verif.FloatModel Verif.DmsFloatModel.
Import ListNotations.
Local Open Scope Z_scope.

(** Python's max(x, 1.0): the first of the two unless the second is larger. *)
Definition f_max_one (x : spec_float) : spec_float := if SFltb x (f_of_Z 1) then f_of_Z 1 else x.
(** np.clip(x, 0.0, 255.0). *)
Definition f_clip (x : spec_float) : spec_float :=
  if SFltb x (f_of_Z 0) then f_of_Z 0 else if SFltb (f_of_Z 255) x then f_of_Z 255 else x.

(** gdal_tile_factory.py:459-462: one pixel.  None: a NaN, whose conversion to uint8 is undefined. *)
Definition f_minmax_pixel (lo hi p : spec_float) : option Z :=
  f_trunc (f_clip (f_mul (f_sub p lo) (f_div (f_of_Z 255) (f_max_one hi)))).

(** gdal_tile_factory.py:481-488: one pixel. *)
Definition f_dra_pixel (smin smax p : spec_float) : option Z :=
  f_trunc (f_clip (f_div (f_mul (f_of_Z 255) (f_sub p smin)) (f_max_one (f_sub smax smin)))).

Record FDra := mkFDra { f_suggested_min : spec_float; f_suggested_max : spec_float; f_actual_min : spec_float; f_actual_max : spec_float }.

(** dynamic_range_adjustment.py:51-54: None and zero both count as not given. *)
Definition f_bucket_value (given : option spec_float) (default : Z) : spec_float :=
  match given with
  | None => f_of_Z default
  | Some v => if SFeqb v (f_of_Z 0) then f_of_Z default else v
  end.
(** dynamic_range_adjustment.py:57-59. *)
Fixpoint c_first_nonzero (l : list Z) : nat :=
  match l with
  | [] => O
  | c :: r => if c =? 0 then S (c_first_nonzero r) else O
  end.
(** dynamic_range_adjustment.py:61-63. *)
Fixpoint c_last_nonzero (l : list Z) (i : nat) : nat :=
  match i with
  | O => O
  | S j => if nth i l 0 =? 0 then c_last_nonzero l j else i
  end.
(** dynamic_range_adjustment.py:66-68. *)
Fixpoint c_cumulative (before : Z) (l : list Z) : list Z :=
  match l with
  | [] => []
  | c :: r => (c + before) :: c_cumulative (c + before) r
  end.
(** dynamic_range_adjustment.py:74-76; the comparison of an integer of less than 54 bits with a float is exact. *)
Fixpoint f_find_low (cum : list Z) (threshold : spec_float) (i left : nat) : nat :=
  match left with
  | O => i
  | S k => if SFltb (f_of_Z (nth i cum 0)) threshold then f_find_low cum threshold (S i) k else i
  end.
(** dynamic_range_adjustment.py:79-81. *)
Fixpoint f_find_high (cum : list Z) (threshold : spec_float) (i : nat) : nat :=
  match i with
  | O => O
  | S j => if SFltb threshold (f_of_Z (nth i cum 0)) then f_find_high cum threshold j else i
  end.
(** The binary64 of the decimal literal c/d. *)
Definition f_literal (c d : Z) : spec_float := f_div (f_of_Z c) (f_of_Z d).

(** dynamic_range_adjustment.py:28-92; [max] and [min] of a list return the first largest and smallest. *)
Definition f_from_counts (counts : list Z) (first last : option spec_float) (min_percentage max_percentage a b : spec_float) : res FDra :=
  let n := List.length counts in
  match n with
  | O => Err IndexError
  | S m =>
    let first := f_bucket_value first 0 in
    let last := f_bucket_value last (Z.of_nat n) in
    let amin := f_of_Z (Z.of_nat (c_first_nonzero counts)) in
    let amax := f_of_Z (Z.of_nat (c_last_nonzero counts m)) in
    let cum := c_cumulative 0 counts in
    let max_counts := f_of_Z (nth m cum 0) in
    let e_min := Z.of_nat (f_find_low cum (f_mul min_percentage max_counts) 0 m) in
    let e_max := Z.of_nat (f_find_high cum (f_mul max_percentage max_counts) m) in
    let low := f_sub (f_of_Z e_min) (f_mul a (f_of_Z (e_max - e_min))) in
    let high := f_add (f_of_Z e_max) (f_mul b (f_of_Z (e_max - e_min))) in
    let min_value := if SFltb amin low then low else amin in
    let max_value := if SFltb high amax then high else amax in
    let step := f_div (f_sub last first) (f_of_Z (Z.of_nat n)) in
    let at_bucket (v : spec_float) := f_add (f_mul v step) first in
    Ok (mkFDra (at_bucket min_value) (at_bucket max_value) (at_bucket amin) (at_bucket amax))
  end.

(** gdal_tile_factory.py:445-462 and 464-488 for a band with minimum [lo] and maximum [hi]; [hist] is
    band.GetHistogram. *)
Definition f_normalize_band_minmax (lo hi : spec_float) (pixels : list spec_float) : list (option Z) :=
  List.map (f_minmax_pixel lo hi) pixels.
Definition f_normalize_band_dra (hist : Z -> res (list Z)) (lo hi : spec_float) (pixels : list spec_float) : res (list (option Z)) :=
  bind (f_int (f_sub hi lo)) (fun buckets =>
  bind (hist (Z.max 256 buckets)) (fun counts =>
  bind (f_from_counts counts (Some lo) (Some hi) (f_literal 2 100) (f_literal 97 100) (f_literal 2 10) (f_literal 4 10)) (fun d =>
  Ok (List.map (f_dra_pixel (f_suggested_min d) (f_suggested_max d)) pixels)))).
