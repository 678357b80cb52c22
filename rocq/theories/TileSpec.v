(** Specification vocabulary for the Web Mercator tile matrices, independent of
    the model.  The world is the square [-pi a, pi a] x [-pi a, pi a] where [a] is
    the Earth radius; zoom level [z] cuts each axis into [2^z] equal pieces. *)
Require Import ZArith Reals.
Require Import Verif.Base.
Local Open Scope R_scope.

(** Side of a tile at zoom [z], in metres. *)
Definition tile_side (a : R) (z : Z) : R := 2 * PI * a / powerRZ 2 z.

(** The [k]-th grid line of zoom [z] on either axis. *)
Definition grid_line (a : R) (z k : Z) : R := - (PI * a) + IZR k * tile_side a z.

(** [v] is in the half-open strip number [k] of zoom [z]. *)
Definition in_strip (a : R) (z k : Z) (v : R) : Prop :=
  grid_line a z k < v <= grid_line a z (k + 1).

(** Row number of northing [y] in the OGC Two Dimensional Tile Matrix Set
    standard (row 0 is the northernmost row). *)
Definition ogc_row (a : R) (z : Z) (y : R) : Z := Rfloor ((PI * a - y) / tile_side a z).

(** Spherical ("web") Mercator and its inverse. *)
Definition mercator (a lat lon : R) : R * R := (a * lon, a * ln (tan (PI / 4 + lat / 2))).
Definition inverse_mercator (a x y : R) : R * R := (2 * atan (exp (y / a)) - PI / 2, x / a).
