(** Bit-exact binary64 model of degrees, minutes and seconds.
    Source: src/aws/osml/photogrammetry/coordinates.py:139-148 (to_dms_string) and 157-173
            (the arithmetic of __format__), and src/aws/osml/image_processing/gdal_tile_factory.py:490-515.
    [round(x, 6)] is the section variable [round6]: numpy and CPython compute it differently, numpy's
    way is [f_numpy_round6] below.  Literals of the format "%ld%lm%ls%lH%od%om%os%oH" are read by the
    loop of CoordModel; C10 says what it writes for them. *)
Require Import ZArith NArith String List SpecFloat.
Require Import Verif.Base Verif.Text Verif.CoordFloatModel Verif.FloatModel.
Import ListNotations.
Local Open Scope Z_scope.

(** Python's [int] of a float: NaN raises ValueError, infinities raise OverflowError. *)
Definition f_int (x : spec_float) : res Z :=
  match f_trunc x with
  | Some z => Ok z
  | None => match x with S754_nan => Err ValueError | _ => Err OtherError end
  end.

(** numpy.rint: the nearest integer, ties to even. *)
Definition f_rint (x : spec_float) : spec_float :=
  match x with
  | S754_finite s m e =>
      if 0 <=? e then x
      else let q := Z.pos m / 2 ^ (- e) in
           let r := Z.pos m mod 2 ^ (- e) in
           let q := match 2 * r ?= 2 ^ (- e) with
                    | Lt => q
                    | Gt => q + 1
                    | Eq => if Z.even q then q else q + 1
                    end in
           binary_normalize prec emax (if s then - q else q) 0 s
  | _ => x
  end.

(** numpy.round with six decimals multiplies, rounds to an integer and divides. *)
Definition f_numpy_round6 (x : spec_float) : spec_float :=
  f_div (f_rint (f_mul x (f_of_Z 1000000))) (f_of_Z 1000000).

Section Dms.
Variable round6 : spec_float -> spec_float.

(** coordinates.py:157-164 and 166-173: hemisphere, degrees, minutes and seconds of an angle.  The
    integers are turned into floats by the subtractions, and [lm / 60] is the float nearest to the
    quotient. *)
Definition f_dms (angle : spec_float) : res (bool * Z * Z * Z) :=
  let deg := f_degrees angle in
  let neg := f_neg deg in
  let deg := if neg then f_mul deg (f_of_Z (-1)) else deg in
  bind (f_int deg) (fun d =>
  bind (f_int (f_mul (round6 (f_sub deg (f_of_Z d))) (f_of_Z 60))) (fun m =>
  bind (f_int (f_mul (round6 (f_sub (f_sub deg (f_of_Z d)) (f_div (f_of_Z m) (f_of_Z 60)))) (f_of_Z 3600))) (fun s =>
  Ok (neg, d, m, s)))).

(** coordinates.py:139-148 [to_dms_string]: both angles are split (latitude first), then written. *)
Definition f_to_dms_string (lon lat : spec_float) : res string :=
  bind (f_dms lat) (fun '(south, ld, lm, ls) =>
  bind (f_dms lon) (fun '(west, od, om, os) =>
  Ok (fmt0 2 ld ++ fmt0 2 lm ++ fmt0 2 ls ++ (if south then "S" else "N")
      ++ fmt0 3 od ++ fmt0 2 om ++ fmt0 2 os ++ (if west then "W" else "E"))%string)).

(** gdal_tile_factory.py:490-515 [_create_new_igeolo]; [image_to_world] is the sensor model's method
    on integer pixel coordinates, giving longitude and latitude. *)
Fixpoint f_corner_texts (image_to_world : Z -> Z -> res (spec_float * spec_float)) (corners : list (Z * Z)) : res (list string) :=
  match corners with
  | [] => Ok []
  | (x, y) :: rest =>
      bind (image_to_world x y) (fun '(lon, lat) =>
      bind (f_to_dms_string lon lat) (fun text =>
      bind (f_corner_texts image_to_world rest) (fun texts => Ok (text :: texts))))
  end.
Definition f_create_new_igeolo (image_to_world : Z -> Z -> res (spec_float * spec_float)) (x y w h : Z) : res string :=
  bind (f_corner_texts image_to_world [(x, y); (x + w, y); (x + w, y + h); (x, y + h)]) (fun texts =>
  Ok (String.concat "" texts)).

End Dms.
