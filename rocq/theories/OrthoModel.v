(** Orthophoto tiles.
    Source: src/aws/osml/image_processing/gdal_tile_factory.py:149-371.
    Simplifications: coordinates are exact; reading, normalising and padding pixels, the bilinear
    sampler of cv2.remap and the PNG encoder are arbitrary; floor(log2(s / t)) is computed exactly;
    logging is left out. *)
Require Import Reals ZArith String List Bool.
Require Import Verif.Base Verif.TileModel Verif.RsmModel Verif.BuilderModel Verif.GeolocModel.
Import ListNotations.
Local Open Scope R_scope.

Definition ZBox : Type := Z * Z * Z * Z.
Definition list_min (l : list R) : R := match l with [] => 0 | x :: r => fold_left Rmin r x end.
Definition list_max (l : list R) : R := match l with [] => 0 | x :: r => fold_left Rmax r x end.

Section Ortho.
Variable image_to_world : Vertex -> res Geodetic.
Variable world_to_image : Geodetic -> res Vertex.
(** RasterXSize, RasterYSize and the number of overviews of the first band *)
Variables xsize ysize overviews : Z.

(** gdal_tile_factory.py:184-190: the centre is given as (y, x). *)
Definition default_elevation : res R := do w <- image_to_world (IZR ysize / 2, IZR xsize / 2); Ok (elevation w).

(** gdal_tile_factory.py:171-197: rows of the grid are latitudes from north to south. *)
Definition src_coords (elev : R) (min_lon min_lat max_lon max_lat : R) : res (list (list Vertex)) :=
  map_res (fun lat => map_res (fun lon => world_to_image (mkGeo lon lat elev)) (linspace min_lon max_lon 3)) (linspace max_lat min_lat 3).

(** gdal_tile_factory.py:206-211. *)
Definition src_bbox (grid : list (list Vertex)) : ZBox :=
  let xs := List.map fst (concat grid) in
  let ys := List.map snd (concat grid) in
  (Rfloor (list_min xs), Rfloor (list_min ys), Rceil (list_max xs), Rceil (list_max ys)).
(** gdal_tile_factory.py:212-217. *)
Definition misses (b : ZBox) : bool := let '(b0, b1, b2, b3) := b in (b0 >? xsize)%Z || (b1 >? ysize)%Z || (b2 <? 0)%Z || (b3 <? 0)%Z.

(** gdal_tile_factory.py:229-231 [find_appropriate_r_level]: max(0, floor(log2(dim / width))).  numpy
    divides by 0 and takes logarithms without raising: int() raises OverflowError for the -inf and
    inf of an extent or width of 0, and ValueError for the nan of 0 / 0 or of a negative width. *)
Definition find_appropriate_r_level (b : ZBox) (tile_width : Z) : res Z :=
  let '(b0, b1, b2, b3) := b in
  let dim := Z.min (b2 - b0) (b3 - b1) in
  if (dim =? 0)%Z then Err (if (tile_width =? 0)%Z then ValueError else OtherError)
  else if (tile_width =? 0)%Z then Err OtherError
  else if (tile_width <? 0)%Z then Err ValueError
  else if (dim <? tile_width)%Z then Ok 0%Z else Ok (Z.log2 (dim / tile_width)).
(** gdal_tile_factory.py:236-244. *)
Definition clip (b : ZBox) : ZBox := let '(b0, b1, b2, b3) := b in (Z.max b0 0, Z.max b1 0, Z.min b2 xsize, Z.min b3 ysize).
Definition overview_bbox (b : ZBox) (r : Z) : ZBox := let '(b0, b1, b2, b3) := b in (b0 / 2 ^ r, b1 / 2 ^ r, b2 / 2 ^ r, b3 / 2 ^ r)%Z.

(** What is decided before pixels are read. *)
Record Plan := mkPlan { nodes : list (list Vertex); level : Z; clipped : ZBox; window : ZBox }.
(** gdal_tile_factory.py:164-244. *)
Definition plan (min_lon min_lat max_lon max_lat : R) (tile_width : Z) : res (option Plan) :=
  do elev <- default_elevation;
  match src_coords elev min_lon min_lat max_lon max_lat with
  | Err _ => Ok None
  | Ok grid =>
      let b := src_bbox grid in
      if misses b then Ok None
      else do r0 <- find_appropriate_r_level b tile_width;
           let r := Z.min r0 overviews in
           let c := clip b in
           Ok (Some (mkPlan grid r c (overview_bbox c r)))
  end.

Section Remap.
Variable spline : list R -> list R -> list (list R) -> res (R -> R -> R).
(** gdal_tile_factory.py:267-288: the arrays map1 and map2, as one array of pairs. *)
Definition to_source (r : Z) (origin : Z) (x : R) : R := (x - IZR origin) / 2 ^ Z.to_nat r + 2.
Definition maps (p : Plan) (width height : nat) : res (list (list (R * R))) :=
  let '(c0, c1, _, _) := clipped p in
  let pixel_x := linspace 0 (INR width - 1) 3 in
  let pixel_y := linspace 0 (INR height - 1) 3 in
  do fx <- spline pixel_x pixel_y (@List.map (list Vertex) (list R) (@List.map Vertex R (fun v : Vertex => to_source (level p) c0 (fst v))) (nodes p));
  do fy <- spline pixel_x pixel_y (@List.map (list Vertex) (list R) (@List.map Vertex R (fun v : Vertex => to_source (level p) c1 (snd v))) (nodes p));
  let dst_x := linspace 0 (INR width - 1) width in
  let dst_y := linspace 0 (INR height - 1) height in
  Ok (List.map (fun a => List.map (fun b => (fx a b, fy a b)) dst_y) dst_x).

Context {Img Pixel : Type}.
(** _read_from_rlevel_as_array, _normalize_image_for_display and copyMakeBorder *)
Variable read : Z -> ZBox -> res Img.
(** cv2.remap: the pixel at a location of the padded source *)
Variable sample : Img -> R * R -> Pixel.
(** gdal_tile_factory.py:149-297: the pixels of the tile. *)
Definition orthophoto (min_lon min_lat max_lon max_lat : R) (width height : nat) : res (option (list (list Pixel))) :=
  do p <- plan min_lon min_lat max_lon max_lat (Z.of_nat width);
  match p with
  | None => Ok None
  | Some p => do src <- read (level p) (window p); do m <- maps p width height; Ok (Some (List.map (List.map (sample src)) m))
  end.
End Remap.
End Ortho.

(** gdal_tile_factory.py:299-322: the channels of a pixel of the encoded image; a grey pixel has one
    channel. *)
Definition opaque (channels : list Z) : Z := if forallb (fun c => negb (c =? 0)%Z) channels then 255%Z else 0%Z.
Definition with_alpha (gray : bool) (channels : list Z) : list Z :=
  (if gray then channels ++ channels ++ channels else channels) ++ [opaque channels].

(** gdal_tile_factory.py:328-371 [_read_from_rlevel_as_array] *)
Section Read.
Context {A : Type}.
(** Band (from 1), overview (None for the band itself), window: the array read. *)
Variable read_as_array : nat -> option Z -> ZBox -> res A.
Variable raster_count : nat.
Inductive Stack := Grayscale (a : A) | Bands (l : list A).
(** The fourth argument of ReadAsArray is a height, the third a width: [window] here is
    (x, y, width, height). *)
Definition read_from_rlevel (bbox : ZBox) (r : Z) (band_numbers : list nat) : res Stack :=
  let bands := match band_numbers with [] => seq 1 raster_count | _ => band_numbers end in
  let '(x0, y0, x1, y1) := bbox in
  do l <- map_res (fun n => read_as_array n (if (r >? 0)%Z then Some (r - 1)%Z else None) (x0, y0, x1 - x0, y1 - y0)%Z) bands;
  if (1 <? raster_count)%nat then Ok (Bands l) else match l with a :: _ => Ok (Grayscale a) | [] => Err IndexError end.
End Read.
