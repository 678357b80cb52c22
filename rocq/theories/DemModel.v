(** Model of the digital elevation model and its tile cache.
    Source: src/aws/osml/photogrammetry/digital_elevation_model.py,
            src/aws/osml/photogrammetry/elevation_model.py,
            src/aws/osml/gdal/gdal_dem_tile_factory.py (file names; the rest is in DemGdalModel),
            cachetools.LRUCache / cachedmethod as used there.
    Simplifications: exact reals; a tile's sensor model is its world_to_image function;
    scipy's RectBivariateSpline with kx = ky = 1 is modelled by the piecewise bilinear
    interpolant it computes, clamped to the grid. *)
Require Import ZArith Reals Ascii String List.
Require Import Verif.Base.
Require Export Verif.TileModel.
Import ListNotations.
Local Open Scope R_scope.

(** elevation_model.py:10-19 [ElevationRegionSummary]. *)
Record Summary := mkSummary { min_elevation : R; max_elevation : R; no_data_value : option R; post_spacing : R }.

(** Raster as numpy holds it: rows of values, [row][col]. *)
Definition raster := list (list R).

(** world_to_image of the tile's sensor model: (x, y) in pixels. *)
Definition sensor := Geodetic -> R * R.

(** What [tile_factory.get_tile] returns (digital_elevation_model.py:57-66). *)
Record Tile := mkLoaded { t_array : option raster; t_sensor : option sensor; t_summary : option Summary }.

(** What [get_interpolation_grid] returns: the interpolator is a function of (x, y). *)
Record Grid := mkGrid { g_interp : option (R -> R -> R); g_sensor : option sensor; g_summary : option Summary }.

(** ** Interpolation *)

(** Clamp a coordinate to [0, n-1] as fitpack does outside the grid. *)
Definition clamp (n : nat) (v : R) : R := Rmax 0 (Rmin v (INR (n - 1))).

(** Index of the cell containing a clamped coordinate: the last node is in the last cell. *)
Definition cell (n : nat) (v : R) : nat := Nat.min (Z.to_nat (Rfloor (clamp n v))) (n - 2).

(** Value of the transposed array: z[x][y] of [elevations_array.T] is row y, column x. *)
Definition value_T (a : raster) (x y : nat) : R := nth x (nth y a []) 0.

(** digital_elevation_model.py:161-164: RectBivariateSpline(x, y, array.T, kx=1, ky=1)
    evaluated at one point. *)
Definition bilinear (a : raster) (width height : nat) (x y : R) : R :=
  let i := cell width x in
  let j := cell height y in
  let u := clamp width x - INR i in
  let v := clamp height y - INR j in
  (1 - u) * (1 - v) * value_T a i j + u * (1 - v) * value_T a (i + 1) j
  + (1 - u) * v * value_T a i (j + 1) + u * v * value_T a (i + 1) (j + 1).

(** digital_elevation_model.py:160-166, the part of [get_interpolation_grid] after the
    tile is loaded.  scipy rejects a grid with fewer than two nodes in a direction
    (its error class is modelled as [OtherError]). *)
Definition make_grid (t : Tile) : res Grid :=
  match t_array t, t_sensor t with
  | Some a, Some s =>
      let height := List.length a in
      let width := List.length (hd [] a) in
      if (Nat.ltb width 2 || Nat.ltb height 2)%bool then Err OtherError
      else Ok (mkGrid (Some (bilinear a width height)) (Some s) (t_summary t))
  | _, _ => Ok (mkGrid None None None)
  end.

Section Dem.
(** [tile_set.find_tile_id]. *)
Variable find_tile_id : Geodetic -> option string.
(** [tile_factory.get_tile]: may raise, and may answer differently over time: the first
    argument counts the tiles requested before. *)
Variable get_tile : nat -> string -> res Tile.

(** digital_elevation_model.py:159-166 [get_interpolation_grid] without the cache. *)
Definition load_grid (n : nat) (id : string) : res Grid := bind (get_tile n id) make_grid.

(** ** cachetools.LRUCache: entries from least to most recently used, and its size limit.
    [loads] records the calls of [tile_factory.get_tile], most recent first (ghost). *)
Record Cache := mkCache { maxsize : nat; entries : list (string * Grid); loads : list string }.

Fixpoint lookup (k : string) (l : list (string * Grid)) : option Grid :=
  match l with
  | [] => None
  | (k', v) :: r => if String.eqb k k' then Some v else lookup k r
  end.
Fixpoint remove_key (k : string) (l : list (string * Grid)) : list (string * Grid) :=
  match l with
  | [] => []
  | (k', v) :: r => if String.eqb k k' then remove_key k r else (k', v) :: remove_key k r
  end.

(** LRUCache.__setitem__: a cache of size 0 rejects the value (the ValueError is swallowed
    by cachedmethod); otherwise evict least recently used entries until there is room. *)
Fixpoint evict (n : nat) (l : list (string * Grid)) : list (string * Grid) :=
  match l with
  | [] => []
  | e :: r => if Nat.ltb n (List.length l) then evict n r else l
  end.
Definition store (m : nat) (k : string) (v : Grid) (l : list (string * Grid)) : list (string * Grid) :=
  match m with
  | O => l
  | S n => evict n l ++ [(k, v)]
  end.

(** digital_elevation_model.py:141-166 with the cachedmethod decorator. *)
Definition get_interpolation_grid (c : Cache) (id : string) : Cache * res Grid :=
  match lookup id (entries c) with
  | Some v => (mkCache (maxsize c) (remove_key id (entries c) ++ [(id, v)]) (loads c), Ok v)
  | None =>
      match load_grid (List.length (loads c)) id with
      | Ok v => (mkCache (maxsize c) (store (maxsize c) id v (entries c)) (id :: loads c), Ok v)
      | Err e => (mkCache (maxsize c) (entries c) (id :: loads c), Err e)
      end
  end.

(** [if not tile_id]: None or the empty string. *)
Definition truthy (id : option string) : option string :=
  match id with Some EmptyString => None | o => o end.

(** digital_elevation_model.py:105-124 [set_elevation]; the coordinate is returned. *)
Definition set_elevation (c : Cache) (w : Geodetic) : Cache * res Geodetic :=
  match truthy (find_tile_id w) with
  | None => (c, Ok w)
  | Some id =>
      let '(c', r) := get_interpolation_grid c id in
      (c', bind r (fun g =>
             match g_interp g, g_sensor g with
             | Some f, Some s =>
                 let '(x, y) := s w in Ok (mkGeo (longitude w) (latitude w) (f x y))
             | _, _ => Ok w
             end))
  end.

(** digital_elevation_model.py:126-139 [describe_region]. *)
Definition describe_region (c : Cache) (w : Geodetic) : Cache * res (option Summary) :=
  match truthy (find_tile_id w) with
  | None => (c, Ok None)
  | Some id =>
      let '(c', r) := get_interpolation_grid c id in
      (c', bind r (fun g => Ok (g_summary g)))
  end.

(** ** Histories of calls on one model *)
Inductive call := SetElevation (w : Geodetic) | DescribeRegion (w : Geodetic).
Inductive answer := Located (r : res Geodetic) | Described (r : res (option Summary)).

Definition step (c : Cache) (o : call) : Cache * answer :=
  match o with
  | SetElevation w => let '(c', r) := set_elevation c w in (c', Located r)
  | DescribeRegion w => let '(c', r) := describe_region c w in (c', Described r)
  end.

Fixpoint run (c : Cache) (h : list call) : Cache * list answer :=
  match h with
  | [] => (c, [])
  | o :: h' =>
      let '(c1, a) := step c o in
      let '(c2, l) := run c1 h' in (c2, a :: l)
  end.

(** digital_elevation_model.py:100: a new model starts with an empty cache. *)
Definition new_cache (m : nat) : Cache := mkCache m [] [].
End Dem.

(** elevation_model.py:69-77 [ConstantElevationModel.set_elevation]. *)
Definition constant_set_elevation (e : R) (w : Geodetic) : Geodetic := mkGeo (longitude w) (latitude w) e.
(** elevation_model.py:79-91 [ConstantElevationModel.describe_region]. *)
Definition constant_describe_region (e : R) (w : Geodetic) : option Summary :=
  Some (mkSummary e e (Some (-32767)) 30).

(** ** GDALDigitalElevationModelTileFactory (src/aws/osml/gdal/gdal_dem_tile_factory.py) *)

Fixpoint starts_with (p s : string) : bool :=
  match p, s with
  | EmptyString, _ => true
  | String a p', String b s' => if Ascii.eqb a b then starts_with p' s' else false
  | _, _ => false
  end.
(** str.replace(old, new, 1) for non-empty [old]. *)
Fixpoint replace_once (old new s : string) : string :=
  if starts_with old s
  then String.append new (substring (String.length old) (String.length s) s)
  else match s with
       | EmptyString => EmptyString
       | String a s' => String a (replace_once old new s')
       end.

(** gdal_dem_tile_factory.py:48-49. *)
Definition tile_location (directory path : string) : string :=
  replace_once "s3:/"%string "/vsis3"%string
    (String.append directory (String.append "/"%string path)).
