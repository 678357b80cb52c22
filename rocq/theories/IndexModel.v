(** Spatial index over features.  Source: src/aws/osml/features/feature_index.py.
    The R-tree of shapely is arbitrary; its results are lists of positions.
    Simplifications: geometries are not empty; distances are exact. *)
Require Import Reals String List Bool.
Require Import Verif.Base Verif.RsmModel Verif.BuilderModel Verif.ConfigModel Verif.FeatureModel Verif.GeolocModel.
Import ListNotations.
Local Open Scope R_scope.

Section Index.
Context {G : Type}.
Variable sh : Shapely G.
(** STRtree(geometries).query(geometry, predicate="intersects") *)
Variable query : list (option G) -> G -> list nat.
(** STRtree(geometries).query_nearest(geometry, max_distance=...) *)
Variable query_nearest : list (option G) -> G -> R -> res (list nat).

Record Index := mkIndex { use_image_geometries : bool; features : list Feature; tree : list (option G) }.

(** feature_index.py:43-56 [__init__]; [accessor] is None or allow_deprecated of the accessor.
    The second branch builds pairs of a geometry and a feature; numpy makes them a two-dimensional
    array, which STRtree refuses with TypeError, unless there are none.  A release of shapely
    without a function [shape] at the top level would raise AttributeError before that; no theorem
    depends on which of the two it is. *)
Definition make_index (fs : list Feature) (use : bool) (accessor : option bool) : res Index :=
  match use, accessor with
  | true, Some allow => do gs <- map_res (fun f => find_image_geometry sh allow (properties f)) fs; Ok (mkIndex use fs gs)
  | _, _ => do gs <- map_res (fun f => match get (members f) "geometry" with Some v => shape sh v | None => Err AttributeError end) fs;
            match gs with [] => Ok (mkIndex use fs []) | _ => Err TypeError end
  end.

(** [self.features[i] for i in result_indexes] *)
Definition select (ix : Index) (is : list nat) : res (list Feature) :=
  map_res (fun i => match nth_error (features ix) i with Some f => Ok f | None => Err IndexError end) is.
(** feature_index.py:58-60 [find_intersects]. *)
Definition find_intersects (ix : Index) (g : G) : res (list Feature) := select ix (query (tree ix) g).
(** feature_index.py:62-69 [find_nearest]. *)
Definition find_nearest (ix : Index) (g : G) (max_distance : option R) : res (list Feature) :=
  let d := match max_distance with Some d => d | None => if use_image_geometries ix then 50 else 1 end in
  do is <- query_nearest (tree ix) g d; select ix is.
End Index.
Arguments Index : clear implicits.
