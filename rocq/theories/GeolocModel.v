(** Geolocation of features from a grid of correspondences.
    Source: src/aws/osml/features/geolocation.py.
    Simplifications: coordinates are exact; geometries other than points are not empty, so that
    bounds and centroids are numbers; only x and y of an image vertex are kept, nothing else is
    read; the elevation model is a function; a feature has a property dictionary; printing and
    logging are left out. *)
Require Import Reals String List Bool.
Require Import Verif.Base Verif.TileModel Verif.CoordModel Verif.RsmModel Verif.BuilderModel Verif.ConfigModel Verif.FeatureModel.
Import ListNotations.
Local Open Scope R_scope.
Local Open Scope string_scope.

Definition Vertex : Type := R * R.

(** *** LocationGridInterpolator *)
(** numpy.linspace(a, b, n) *)
Definition linspace (a b : R) (n : nat) : list R :=
  match n with
  | O => []
  | 1%nat => [a]
  | S m => List.map (fun i => a + INR i * ((b - a) / INR m)) (seq 0 n)
  end.

Section Grid.
(** sensor_model.image_to_world with the elevation model of the geolocator *)
Variable image_to_world : Vertex -> res Geodetic.
(** RectBivariateSpline(xs, ys, values, kx=1, ky=1); the interpolator is then called with one point *)
Variable spline : list R -> list R -> list (list R) -> res (R -> R -> R).
(** elevation_model.set_elevation, if there is an elevation model *)
Variable set_elevation : option (Geodetic -> res Geodetic).

(** geolocation.py:51-58: x is the outer loop *)
Definition correspondences (xs ys : list R) : res (list (list Geodetic)) :=
  map_res (fun x => map_res (fun y => image_to_world (x, y)) ys) xs.

(** geolocation.py:23-66 [__init__] and 68-85 [__call__]. *)
Definition location_grid (ulx uly width height : R) (resolution : nat) : res (Vertex -> res Geodetic) :=
  let xs := linspace ulx (ulx + width) resolution in
  let ys := linspace uly (uly + height) resolution in
  do values <- correspondences xs ys;
  do lon <- spline xs ys (List.map (List.map longitude) values);
  do lat <- spline xs ys (List.map (List.map latitude) values);
  do elev <- spline xs ys (List.map (List.map elevation) values);
  Ok (fun v =>
        let w := mkGeo (lon (fst v) (snd v)) (lat (fst v) (snd v)) (elev (fst v) (snd v)) in
        match set_elevation with None => Ok w | Some set => set w end).
End Grid.

(** *** Geometries *)
(** A shapely geometry; [Unhandled] is any class the code does not know. *)
Inductive Geom :=
| Point (v : option Vertex)
| LineString (vs : list Vertex)
| LinearRing (vs : list Vertex)
| Polygon (exterior : list Vertex) (interiors : list (list Vertex))
| MultiPoint (ps : list (option Vertex))
| MultiLineString (ls : list (list Vertex))
| MultiPolygon (ps : list (list Vertex * list (list Vertex)))
| GeometryCollection (gs : list Geom)
| Unhandled.

Section Locate.
(** round(value, precision) of the geojson package *)
Variable rnd : R -> R.
Variable grid : Vertex -> res Geodetic.

(** geolocation.py:268-285 [radians_coordinate_to_degrees] *)
Definition radians_coordinate_to_degrees (w : Geodetic) : R * R * R :=
  (degrees (longitude w), degrees (latitude w), elevation w).
Definition locate_vertex (v : Vertex) : res (R * R * R) :=
  do w <- grid v; Ok (radians_coordinate_to_degrees w).
(** A position as a GeoJSON geometry stores it. *)
Definition position (c : R * R * R) : Json :=
  let '(x, y, z) := c in JArr [JNum (rnd x); JNum (rnd y); JNum (rnd z)].
Definition gj (type : string) (coordinates : Json) : Json := JObj [("type", JStr type); ("coordinates", coordinates)].
Definition locate_line (vs : list Vertex) : res Json := do cs <- map_res locate_vertex vs; Ok (JArr (List.map position cs)).

(** geolocation.py:239-257; the coordinates of the result *)
Definition locate_point (p : option Vertex) : res Json :=
  match p with None => Err IndexError | Some v => do c <- locate_vertex v; Ok (position c) end.
Definition locate_polygon (exterior : list Vertex) (interiors : list (list Vertex)) : res Json :=
  do b <- locate_line exterior; do hs <- map_res locate_line interiors; Ok (JArr (b :: hs)).

(** geolocation.py:222-266 [_geolocate_image_geometry].  A Multi* constructor of the geojson
    package takes the coordinates of its parts as they are. *)
Fixpoint geolocate_image_geometry (g : Geom) : res Json :=
  match g with
  | Point p => do c <- locate_point p; Ok (gj "Point" c)
  | LineString vs | LinearRing vs => do c <- locate_line vs; Ok (gj "LineString" c)
  | Polygon e is => do c <- locate_polygon e is; Ok (gj "Polygon" c)
  | MultiPoint ps => do cs <- map_res locate_point ps; Ok (gj "MultiPoint" (JArr cs))
  | MultiLineString ls => do cs <- map_res locate_line ls; Ok (gj "MultiLineString" (JArr cs))
  | MultiPolygon ps => do cs <- map_res (fun p => locate_polygon (fst p) (snd p)) ps; Ok (gj "MultiPolygon" (JArr cs))
  | GeometryCollection gs =>
      do js <- (fix go (l : list Geom) : res (list Json) :=
                  match l with [] => Ok [] | x :: r => do j <- geolocate_image_geometry x; do js <- go r; Ok (j :: js) end) gs;
      Ok (JObj [("type", JStr "GeometryCollection"); ("geometries", JArr js)])
  | Unhandled => Err ValueError
  end.
End Locate.

(** *** Features *)
(** A geojson.Feature; [members] are its members other than "properties". *)
Record Feature := mkFeature { members : Dict Json; properties : Dict Json }.

(** shapely.MultiPoint([...]).bounds *)
Definition points_bounds (p : R * R * R) (ps : list (R * R * R)) : Box :=
  let xs := List.map (fun q => fst (fst q)) ps in
  let ys := List.map (fun q => snd (fst q)) ps in
  let x := fst (fst p) in let y := snd (fst p) in
  (fold_left Rmin xs x, fold_left Rmin ys y, fold_left Rmax xs x, fold_left Rmax ys y).

Section Geolocator.
Variable sh : Shapely Geom.
Variable allow_deprecated : bool.
(** geometry.centroid *)
Variable centroid : Geom -> Vertex.
Variable rnd : R -> R.

(** geolocation.py:144-153; None stands for the initial infinities *)
Definition extend (acc : option Box) (b : Box) : option Box :=
  match acc with
  | None => Some b
  | Some (a0, a1, a2, a3) => let '(b0, b1, b2, b3) := b in Some (Rmin a0 b0, Rmin a1 b1, Rmax a2 b2, Rmax a3 b3)
  end.
Fixpoint feature_bounds (acc : option Box) (fs : list Feature) : res (option Box) :=
  match fs with
  | [] => Ok acc
  | f :: r =>
      do g <- find_image_geometry sh allow_deprecated (properties f);
      match g with None => feature_bounds acc r | Some g => feature_bounds (extend acc (bounds sh g)) r end
  end.

Section WithGrid.
Variable grid : Vertex -> res Geodetic.

(** geolocation.py:181-198: the feature with its "bbox", and the centre *)
Definition locate_bbox (f : Feature) (g : Geom) : res (Feature * Vertex) :=
  let '(x0, y0, x1, y1) := bounds sh g in
  do a <- locate_vertex grid (x0, y0); do b <- locate_vertex grid (x0, y1);
  do c <- locate_vertex grid (x1, y1); do d <- locate_vertex grid (x1, y0);
  Ok (mkFeature (put (members f) "bbox" (json_of_box (points_bounds a [b; c; d]))) (properties f), ((x0 + x1) / 2, (y0 + y1) / 2)).

(** geolocation.py:218-220 *)
Definition locate_center (f : Feature) (v : Vertex) : Feature * res unit :=
  match grid v with
  | Err e => (f, Err e)
  | Ok w => (mkFeature (members f) (put (put (properties f) "center_longitude" (JNum (degrees (longitude w)))) "center_latitude" (JNum (degrees (latitude w)))), Ok tt)
  end.
(** geolocation.py:212-214 *)
Definition locate_geometry (f : Feature) (g : Geom) : Feature * res unit :=
  match geolocate_image_geometry rnd grid g with
  | Err e => (f, Err e)
  | Ok j => locate_center (mkFeature (put (members f) "geometry" j) (properties f)) (centroid g)
  end.

(** geolocation.py:176-220, one feature; the feature afterwards, also when it raises. *)
Definition locate_feature (f : Feature) : Feature * res unit :=
  match get_image_bbox sh (properties f) with
  | Err e => (f, Err e)
  | Ok None =>
      match get_image_geometry sh (properties f) with
      | Err e => (f, Err e)
      | Ok (Some g) => locate_geometry f g
      | Ok None =>
          match find_image_geometry sh allow_deprecated (properties f) with
          | Err e => (f, Err e)
          | Ok None => (f, Ok tt)
          | Ok (Some g) => locate_geometry f g
          end
      end
  | Ok (Some b) =>
      match locate_bbox f b with
      | Err e => (f, Err e)
      | Ok (f1, center) =>
          match get_image_geometry sh (properties f) with
          | Err e => (f1, Err e)
          | Ok (Some g) => locate_geometry f1 g
          | Ok None => locate_center f1 center
          end
      end
  end.
Fixpoint locate_features (fs : list Feature) : list Feature * res unit :=
  match fs with
  | [] => ([], Ok tt)
  | f :: r =>
      match locate_feature f with
      | (f', Err e) => (f' :: r, Err e)
      | (f', Ok _) => let '(r', x) := locate_features r in (f' :: r', x)
      end
  end.
End WithGrid.

(** geolocation.py:116-220 [geolocate_features].  Without any geometry the grid area is not a
    number and the sensor model or the interpolator raises: [nan_grid]. *)
Definition geolocate_features (image_to_world : Vertex -> res Geodetic) (spline : list R -> list R -> list (list R) -> res (R -> R -> R))
    (set_elevation : option (Geodetic -> res Geodetic)) (nan_grid : exn) (grid_size : nat) (fs : list Feature) : list Feature * res unit :=
  match fs with
  | [] => ([], Ok tt)
  | _ =>
      match feature_bounds None fs with
      | Err e => (fs, Err e)
      | Ok None => (fs, Err nan_grid)
      | Ok (Some (x0, y0, x1, y1)) =>
          let ulx := x0 - 10 in let uly := y0 - 10 in
          match location_grid image_to_world spline set_elevation ulx uly ((x1 + 10) - ulx) ((y1 + 10) - uly) grid_size with
          | Err e => (fs, Err e)
          | Ok grid => locate_features grid fs
          end
      end
  end.
End Geolocator.
