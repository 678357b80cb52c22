(** Bit-exact binary64 model of the arithmetic path of the default generic DEM tile
    name: radians -> whole degrees -> radians -> degrees -> digits.
    Source: src/aws/osml/photogrammetry/generic_dem_tile_set.py:42-64 and
            src/aws/osml/photogrammetry/coordinates.py:157-173, 189-216.
    CPython's math.radians/math.degrees multiply by the binary64 quotients pi/180 and
    180/pi; numpy's degrees does the same.  Rounding is to nearest even.  The
    latitude/longitude limits are the constructor defaults, which no whole degree
    value of a valid coordinate violates, and are omitted. *)
Require Import ZArith NArith String SpecFloat.
Require Import Verif.Text.
Local Open Scope Z_scope.

Definition prec := 53.
Definition emax := 1024.
Definition f_mul := SFmul prec emax.
Definition f_div := SFdiv prec emax.
(** The binary64 nearest to an integer. *)
Definition f_of_Z (z : Z) : spec_float := binary_normalize prec emax z 0 false.

(** math.pi = 0x1.921FB54442D18p+1. *)
Definition f_pi : spec_float := S754_finite false 7074237752028440%positive (-51).
Definition f_rad_per_deg : spec_float := f_div f_pi (f_of_Z 180).
Definition f_deg_per_rad : spec_float := f_div (f_of_Z 180) f_pi.

(** math.radians, math.degrees, numpy.degrees. *)
Definition f_radians (x : spec_float) : spec_float := f_mul x f_rad_per_deg.
Definition f_degrees (x : spec_float) : spec_float := f_mul x f_deg_per_rad.

(** math.floor and int() of a finite binary64 (other values raise in Python). *)
Definition f_floor (x : spec_float) : option Z :=
  match x with
  | S754_zero _ => Some 0
  | S754_finite s m e =>
      let v := if s then Z.neg m else Z.pos m in
      Some (if 0 <=? e then v * 2 ^ e else v / 2 ^ (- e))
  | _ => None
  end.
Definition f_trunc (x : spec_float) : option Z :=
  match x with
  | S754_zero _ => Some 0
  | S754_finite s m e =>
      let a := if 0 <=? e then Z.pos m * 2 ^ e else Z.pos m / 2 ^ (- e) in
      Some (if s then - a else a)
  | _ => None
  end.
Definition f_neg (x : spec_float) : bool := SFltb x (S754_zero false).

(** coordinates.py:157-162 / 166-171: degrees and hemisphere of an angle. *)
Definition f_split (angle : spec_float) : option (bool * Z) :=
  let d := f_degrees angle in
  let neg := f_neg d in
  let d := if neg then f_mul d (f_of_Z (-1)) else d in
  option_map (fun k => (neg, k)) (f_trunc d).

(** generic_dem_tile_set.py:42-64 with the default format "%od%oh/%ld%lh.dt2". *)
Definition f_generic_tile_id (lon lat : spec_float) : option string :=
  match f_floor (f_degrees lon), f_floor (f_degrees lat) with
  | Some lon_deg, Some lat_deg =>
      match f_split (f_radians (f_of_Z lon_deg)), f_split (f_radians (f_of_Z lat_deg)) with
      | Some (lon_neg, od), Some (lat_neg, ld) =>
          Some (fmt0 3 od ++ (if lon_neg then "w" else "e") ++ "/"
                ++ fmt0 2 ld ++ (if lat_neg then "s" else "n") ++ ".dt2")%string
      | _, _ => None
      end
  | _, _ => None
  end.
