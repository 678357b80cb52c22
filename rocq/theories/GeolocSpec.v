(** What geolocation should do, stated without the code. *)
Require Import Reals String List Bool Arith.
Require Import Verif.Base Verif.TileModel Verif.CoordSpec Verif.ConfigModel Verif.FeatureModel Verif.GeolocModel.
Import ListNotations.
Local Open Scope string_scope.
Local Open Scope R_scope.

(** *** Structure *)
Section Located.
Variable rnd : R -> R.
Variable grid : Vertex -> res Geodetic.
(** [p] is the GeoJSON position of image vertex [v]. *)
Definition position_of (v : Vertex) (p : Json) : Prop :=
  exists w, grid v = Ok w /\ p = JArr [JNum (rnd (in_degrees (longitude w))); JNum (rnd (in_degrees (latitude w))); JNum (rnd (elevation w))].
Definition line_of (vs : list Vertex) (j : Json) : Prop := exists ps, Forall2 position_of vs ps /\ j = JArr ps.
Definition rings_of (exterior : list Vertex) (interiors : list (list Vertex)) (j : Json) : Prop :=
  exists rs, Forall2 line_of (exterior :: interiors) rs /\ j = JArr rs.
(** [j] is the GeoJSON geometry of the type of the image geometry, with the same nesting of parts
    and vertices and each vertex at its position. *)
Inductive located : Geom -> Json -> Prop :=
| located_point v p : position_of v p -> located (Point (Some v)) (JObj [("type", JStr "Point"); ("coordinates", p)])
| located_line vs c : line_of vs c -> located (LineString vs) (JObj [("type", JStr "LineString"); ("coordinates", c)])
| located_ring vs c : line_of vs c -> located (LinearRing vs) (JObj [("type", JStr "LineString"); ("coordinates", c)])
| located_polygon e is c : rings_of e is c -> located (Polygon e is) (JObj [("type", JStr "Polygon"); ("coordinates", c)])
| located_points ps cs : Forall2 (fun p c => exists v, p = Some v /\ position_of v c) ps cs ->
    located (MultiPoint ps) (JObj [("type", JStr "MultiPoint"); ("coordinates", JArr cs)])
| located_lines ls cs : Forall2 line_of ls cs -> located (MultiLineString ls) (JObj [("type", JStr "MultiLineString"); ("coordinates", JArr cs)])
| located_polygons ps cs : Forall2 (fun p => rings_of (fst p) (snd p)) ps cs -> located (MultiPolygon ps) (JObj [("type", JStr "MultiPolygon"); ("coordinates", JArr cs)])
| located_collection gs js : Forall2 located gs js -> located (GeometryCollection gs) (JObj [("type", JStr "GeometryCollection"); ("geometries", JArr js)]).
End Located.

(** Every vertex of a geometry, without empty points and unknown geometries. *)
Inductive vertex_of : Geom -> Vertex -> Prop :=
| v_point v : vertex_of (Point (Some v)) v
| v_line vs v : In v vs -> vertex_of (LineString vs) v
| v_ring vs v : In v vs -> vertex_of (LinearRing vs) v
| v_polygon e is l v : In l (e :: is) -> In v l -> vertex_of (Polygon e is) v
| v_points ps v : In (Some v) ps -> vertex_of (MultiPoint ps) v
| v_lines ls l v : In l ls -> In v l -> vertex_of (MultiLineString ls) v
| v_polygons ps p l v : In p ps -> In l (fst p :: snd p) -> In v l -> vertex_of (MultiPolygon ps) v
| v_collection gs g v : In g gs -> vertex_of g v -> vertex_of (GeometryCollection gs) v.
Inductive supported : Geom -> Prop :=
| s_point v : supported (Point (Some v))
| s_line vs : supported (LineString vs)
| s_ring vs : supported (LinearRing vs)
| s_polygon e is : supported (Polygon e is)
| s_points ps : ~ In None ps -> supported (MultiPoint ps)
| s_lines ls : supported (MultiLineString ls)
| s_polygons ps : supported (MultiPolygon ps)
| s_collection gs : Forall supported gs -> supported (GeometryCollection gs).

(** *** Frame *)
Definition same_but_location (f f' : Feature) : Prop :=
  (forall k, k <> "bbox"%string -> k <> "geometry"%string -> get (members f') k = get (members f) k)
  /\ (forall k, k <> "center_longitude"%string -> k <> "center_latitude"%string -> get (properties f') k = get (properties f) k).

(** *** Interpolation *)
Definition value (z : list (list R)) (i j : nat) : option R := match nth_error z i with Some row => nth_error row j | None => None end.
(** The weighted mean of four corner values. *)
Definition bilinear (x0 x1 y0 y1 : R) (z00 z01 z10 z11 : R) (x y : R) : R :=
  ((x1 - x) * (y1 - y) * z00 + (x1 - x) * (y - y0) * z01 + (x - x0) * (y1 - y) * z10 + (x - x0) * (y - y0) * z11) / ((x1 - x0) * (y1 - y0)).
Definition interpolates (xs ys : list R) (z : list (list R)) (f : R -> R -> R) : Prop :=
  forall i j x0 x1 y0 y1 z00 z01 z10 z11,
    nth_error xs i = Some x0 -> nth_error xs (S i) = Some x1 -> nth_error ys j = Some y0 -> nth_error ys (S j) = Some y1 ->
    value z i j = Some z00 -> value z i (S j) = Some z01 -> value z (S i) j = Some z10 -> value z (S i) (S j) = Some z11 ->
    forall x y, x0 <= x <= x1 -> y0 <= y <= y1 -> f x y = bilinear x0 x1 y0 y1 z00 z01 z10 z11 x y.
Definition clamp (a b x : R) : R := Rmax a (Rmin b x).
(** Outside the grid the value at its edge is used. *)
Definition clamped (xs ys : list R) (f : R -> R -> R) : Prop :=
  forall x y, f x y = f (clamp (hd 0 xs) (last xs 0) x) (clamp (hd 0 ys) (last ys 0) y).
Fixpoint increasing (l : list R) : Prop :=
  match l with a :: ((b :: _) as r) => a < b /\ increasing r | _ => True end.
(** RectBivariateSpline of degree one. *)
Definition spline_law (spline : list R -> list R -> list (list R) -> res (R -> R -> R)) : Prop :=
  (forall xs ys z, increasing xs -> increasing ys -> (2 <= List.length xs)%nat -> (2 <= List.length ys)%nat ->
     List.length z = List.length xs -> Forall (fun row => List.length row = List.length ys) z ->
     exists f, spline xs ys z = Ok f /\ interpolates xs ys z f /\ clamped xs ys f)
  /\ (forall xs ys z, (List.length xs < 2)%nat \/ (List.length ys < 2)%nat \/ ~ increasing xs \/ ~ increasing ys -> exists e, spline xs ys z = Err e).

(** [lo, hi] is one of the n-1 equal parts of [a, b] and contains x. *)
Definition part_of (a b : R) (n : nat) (x lo hi : R) : Prop :=
  (exists i, (i < n - 1)%nat /\ lo = a + INR i * ((b - a) / INR (n - 1)) /\ hi = a + INR (S i) * ((b - a) / INR (n - 1))) /\ lo <= x <= hi.
Definition in_box (v : Vertex) (b : Box) : Prop := let '(x0, y0, x1, y1) := b in x0 <= fst v <= x1 /\ y0 <= snd v <= y1.

(** *** Extents *)
Definition within (a b : Box) : Prop := let '(a0, a1, a2, a3) := a in let '(b0, b1, b2, b3) := b in b0 <= a0 /\ b1 <= a1 /\ a2 <= b2 /\ a3 <= b3.
(** The least box containing all these boxes: it contains them and each side is a side of one. *)
Definition side (i : nat) (b : Box) : R := let '(b0, b1, b2, b3) := b in nth i [b0; b1; b2; b3] 0.
Definition hull_of (P : Box -> Prop) (b : Box) : Prop :=
  (forall a, P a -> within a b) /\ forall i, (i < 4)%nat -> exists a, P a /\ side i a = side i b.

(** *** One feature *)
Section FeatureSpec.
Variable sh : Shapely Geom.
Variable allow_deprecated : bool.
Variable centroid : Geom -> Vertex.
Variable rnd : R -> R.
Variable grid : Vertex -> res Geodetic.
(** The longitude and latitude of an image location, as a box of one point. *)
Definition point_box (v : Vertex) (b : Box) : Prop :=
  exists w, grid v = Ok w /\ b = (in_degrees (longitude w), in_degrees (latitude w), in_degrees (longitude w), in_degrees (latitude w)).
Definition corner_of (b : Box) (v : Vertex) : Prop :=
  let '(x0, y0, x1, y1) := b in v = (x0, y0) \/ v = (x0, y1) \/ v = (x1, y1) \/ v = (x1, y0).
(** The image geometry that gives the feature its geometry. *)
Definition source (f : Feature) : res (option Geom) :=
  match get (properties f) "imageGeometry", get (properties f) "imageBBox" with
  | Some v, _ => match shape sh v with Ok g => Ok (Some g) | Err e => Err e end
  | None, Some _ => Ok None
  | None, None => find_image_geometry sh allow_deprecated (properties f)
  end.
Definition centered (f' : Feature) (v : Vertex) : Prop :=
  exists w, grid v = Ok w /\ get (properties f') "center_longitude" = Some (JNum (in_degrees (longitude w)))
                          /\ get (properties f') "center_latitude" = Some (JNum (in_degrees (latitude w))).
Definition feature_located (f f' : Feature) : Prop :=
  same_but_location f f'
  (* the box *)
  /\ match get (properties f) "imageBBox" with
     | None => get (members f') "bbox" = get (members f) "bbox"
     | Some v => exists g b, box_of sh v = Ok g /\ (forall c, corner_of (bounds sh g) c -> exists pb, point_box c pb)
                   /\ hull_of (fun pb => exists c, corner_of (bounds sh g) c /\ point_box c pb) b /\ get (members f') "bbox" = Some (json_of_box b)
     end
  (* the geometry *)
  /\ (exists s, source f = Ok s
        /\ match s with
           | None => get (members f') "geometry" = get (members f) "geometry"
           | Some g => exists j, located rnd grid g j /\ get (members f') "geometry" = Some j
           end
  (* the centre *)
        /\ match s, get (properties f) "imageBBox" with
           | Some g, _ => centered f' (centroid g)
           | None, Some v => forall g, box_of sh v = Ok g -> let '(x0, y0, x1, y1) := bounds sh g in centered f' ((x0 + x1) / 2, (y0 + y1) / 2)
           | None, None => f' = f
           end).
End FeatureSpec.
