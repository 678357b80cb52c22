(** Bit-exact binary64 model of the arithmetic of the Web Mercator tile set: which tile a
    location in metres is in, and the bounds of a tile in metres.
    Source: src/aws/osml/image_processing/map_tileset_wmq.py:45-47, 85-150.
    The operations are those of Coq's SpecFloat (rounding to nearest even).  Python turns the
    integers of these formulas (tile_size, 2**tile_matrix, tile_col * tile_size) into the nearest
    binary64 before it multiplies or divides.
    Simplifications: zoom levels are not negative; the semi major axis that pyproj reports for
    EPSG:3857 is 6378137 metres; the projection between radians and metres (pyproj) is not part
    of this model, its result in metres is the input. *)
Require Import ZArith SpecFloat.
Require Import Verif.CoordFloatModel Verif.FloatModel.
Local Open Scope Z_scope.

(** map_tileset_wmq.py:45-47: spherical_circumference, initial_resolution, origin_shift. *)
Definition f_circumference : spec_float := f_mul (f_mul (f_of_Z 2) f_pi) (f_of_Z 6378137).
Definition f_initial_resolution (size : Z) : spec_float := f_div f_circumference (f_of_Z size).
Definition f_origin_shift : spec_float := f_div f_circumference (f_of_Z 2).

(** map_tileset_wmq.py:85-92 [_resolution]. *)
Definition f_resolution (size z : Z) : spec_float := f_div (f_initial_resolution size) (f_of_Z (2 ^ z)).

(** map_tileset_wmq.py:94-108 [_pixels_to_meters], either axis; the pixels are whole numbers. *)
Definition f_to_meters (size z : Z) (pixels : Z) : spec_float :=
  f_sub (f_mul (f_of_Z pixels) (f_resolution size z)) f_origin_shift.

(** map_tileset_wmq.py:110-123 [_meters_to_pixels], either axis. *)
Definition f_to_pixels (size z : Z) (meters : spec_float) : spec_float :=
  f_div (f_add meters f_origin_shift) (f_resolution size z).

(** math.ceil of a finite binary64 (other values raise in Python). *)
Definition f_ceil (x : spec_float) : option Z :=
  match x with
  | S754_zero _ => Some 0
  | S754_finite s m e =>
      let v := if s then Z.neg m else Z.pos m in
      Some (if 0 <=? e then v * 2 ^ e else - (- v / 2 ^ (- e)))
  | _ => None
  end.

(** map_tileset_wmq.py:125-135 [_pixels_to_tile], either axis. *)
Definition f_to_tile (size : Z) (pixels : spec_float) : option Z :=
  option_map (fun k => k - 1) (f_ceil (f_div pixels (f_of_Z size))).

(** map_tileset_wmq.py:81-82 in [get_tile_for_location]: (col, row) of a location in metres. *)
Definition f_tile_for_meters (size z : Z) (x y : spec_float) : option (Z * Z) :=
  match f_to_tile size (f_to_pixels size z x), f_to_tile size (f_to_pixels size z y) with
  | Some col, Some row => Some (col, row)
  | _, _ => None
  end.

(** map_tileset_wmq.py:137-150 [_calculate_tile_bounds_meters]: min_x, min_y, max_x, max_y. *)
Definition f_tile_bounds (size z col row : Z) : spec_float * spec_float * spec_float * spec_float :=
  (f_to_meters size z (col * size), f_to_meters size z (row * size),
   f_to_meters size z ((col + 1) * size), f_to_meters size z ((row + 1) * size)).
