(** Model of the Web Mercator tile set.
    Source: src/aws/osml/image_processing/map_tileset_wmq.py,
            src/aws/osml/image_processing/map_tileset.py,
            src/aws/osml/image_processing/map_tileset_factory.py.
    Simplifications: binary64 arithmetic is replaced by exact reals ([TileFloatModel] has the
    arithmetic bit by bit).  The pyproj transformer is a pair of functions (section variables);
    locations that it maps to infinity (the poles), for which math.ceil raises OverflowError,
    are left out. *)
Require Import ZArith Reals String List.
Require Import Verif.Base.
Import ListNotations.
Local Open Scope R_scope.

(** map_tileset.py:9 [MapTileId]. *)
Record MapTileId := mkTileId { tile_matrix : Z; tile_row : Z; tile_col : Z }.

(** map_tileset.py:21 [MapTileBounds] (also used for the metric bounds tuple). *)
Record Bounds := mkBounds { b_min_x : R; b_min_y : R; b_max_x : R; b_max_y : R }.

(** map_tileset.py:27-35 [MapTile]. *)
Record MapTile := mkTile { mt_id : MapTileId; mt_size : Z * Z; mt_bounds : Bounds }.

(** coordinates.py [GeodeticWorldCoordinate]: longitude, latitude (radians). *)
Record Geodetic := mkGeo { longitude : R; latitude : R; elevation : R }.

(** map_tileset_wmq.py:42-47, the attributes set by the constructor. *)
Record TileSet := mkTileSet {
  tile_size : Z; tms_id : string; initial_resolution : R; origin_shift : R }.

Section Wmq.
(** [WEB_MERCATOR_PROJ.crs.ellipsoid.semi_major_metre] (map_tileset_wmq.py:45). *)
Variable semi_major_metre : R.
(** [LLE_TO_WEB_MERCATOR.transform] forward: latitude, longitude to x, y
    (map_tileset_wmq.py:75-80). *)
Variable to_mercator : R -> R -> R * R.
(** The same transformer, inverse: x, y to latitude, longitude
    (map_tileset_wmq.py:160-161). *)
Variable from_mercator : R -> R -> R * R.

(** map_tileset_wmq.py:35-47 [__init__]. *)
Definition make_tile_set (size : Z) (id : string) : TileSet :=
  let spherical_circumference := 2 * PI * semi_major_metre in
  mkTileSet size id (spherical_circumference / IZR size) (spherical_circumference / 2).

(** map_tileset_wmq.py:85-92 [_resolution].  [2 ** z] is a real power, so negative
    zoom levels behave as in Python. *)
Definition resolution (ts : TileSet) (z : Z) : R :=
  initial_resolution ts / powerRZ 2 z.

(** map_tileset_wmq.py:94-108 [_pixels_to_meters]. *)
Definition pixels_to_meters (ts : TileSet) (x_pixels y_pixels : R) (z : Z) : R * R :=
  let r := resolution ts z in
  (x_pixels * r - origin_shift ts, y_pixels * r - origin_shift ts).

(** map_tileset_wmq.py:110-123 [_meters_to_pixels]. *)
Definition meters_to_pixels (ts : TileSet) (x_meters y_meters : R) (z : Z) : R * R :=
  let r := resolution ts z in
  ((x_meters + origin_shift ts) / r, (y_meters + origin_shift ts) / r).

(** map_tileset_wmq.py:125-135 [_pixels_to_tile]: (col, row). *)
Definition pixels_to_tile (ts : TileSet) (x_pixels y_pixels : R) : Z * Z :=
  ((Rceil (x_pixels / IZR (tile_size ts)) - 1)%Z,
   (Rceil (y_pixels / IZR (tile_size ts)) - 1)%Z).

(** map_tileset_wmq.py:137-150 [_calculate_tile_bounds_meters]. *)
Definition tile_bounds_meters (ts : TileSet) (t : MapTileId) : Bounds :=
  let '(min_x, min_y) :=
    pixels_to_meters ts (IZR (tile_col t * tile_size ts)) (IZR (tile_row t * tile_size ts))
                     (tile_matrix t) in
  let '(max_x, max_y) :=
    pixels_to_meters ts (IZR ((tile_col t + 1) * tile_size ts))
                     (IZR ((tile_row t + 1) * tile_size ts)) (tile_matrix t) in
  mkBounds min_x min_y max_x max_y.

(** map_tileset_wmq.py:152-162 [_calculate_tile_bounds_lle]. *)
Definition tile_bounds_lle (ts : TileSet) (t : MapTileId) : Bounds :=
  let b := tile_bounds_meters ts t in
  let '(min_lat, min_lon) := from_mercator (b_min_x b) (b_min_y b) in
  let '(max_lat, max_lon) := from_mercator (b_max_x b) (b_max_y b) in
  mkBounds min_lon min_lat max_lon max_lat.

(** map_tileset_wmq.py:58-65 [get_tile]. *)
Definition get_tile (ts : TileSet) (t : MapTileId) : MapTile :=
  mkTile t (tile_size ts, tile_size ts) (tile_bounds_lle ts t).

(** map_tileset_wmq.py:67-83 [get_tile_for_location]. *)
Definition get_tile_for_location (ts : TileSet) (w : Geodetic) (z : Z) : MapTile :=
  let '(x_meters, y_meters) := to_mercator (latitude w) (longitude w) in
  let '(x_pixels, y_pixels) := meters_to_pixels ts x_meters y_meters z in
  let '(col, row) := pixels_to_tile ts x_pixels y_pixels in
  get_tile ts (mkTileId z row col).

(** Python's [min]/[max] on a list of ints: ValueError when empty. *)
Definition py_min (l : list Z) : res Z :=
  match l with [] => Err ValueError | x :: r => Ok (fold_left Z.min r x) end.
Definition py_max (l : list Z) : res Z :=
  match l with [] => Err ValueError | x :: r => Ok (fold_left Z.max r x) end.

(** map_tileset.py:71-87 [get_tile_matrix_limits_for_area]:
    (min_col, min_row, max_col, max_row). *)
Definition tile_matrix_limits (ts : TileSet) (boundary : list Geodetic) (z : Z)
  : res (Z * Z * Z * Z) :=
  let tiles := map (fun w => get_tile_for_location ts w z) boundary in
  let rows := map (fun t => tile_row (mt_id t)) tiles in
  let cols := map (fun t => tile_col (mt_id t)) tiles in
  bind (py_min cols) (fun c0 => bind (py_min rows) (fun r0 =>
  bind (py_max cols) (fun c1 => bind (py_max rows) (fun r1 => Ok (c0, r0, c1, r1))))).

(** map_tileset_factory.py:15-16, 26-41 [get_for_id]. *)
Definition get_for_id (id : string) : option TileSet :=
  if String.eqb id "WebMercatorQuad" then Some (make_tile_set 256 "WebMercatorQuad")
  else if String.eqb id "WebMercatorQuadx2" then Some (make_tile_set 512 "WebMercatorQuadx2")
  else None.

End Wmq.
