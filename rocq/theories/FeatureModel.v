(** Image geometries of GeoJSON features.
    Source: src/aws/osml/features/imaged_feature_property_accessor.py.
    Simplifications: JSON numbers are exact and finite; geometries are not empty; subscripting a
    value that is neither list nor dictionary raises TypeError, and so does a box of values that are
    not numbers (shapely would accept booleans and numbers in text); shapely is arbitrary. *)
Require Import Reals String List Bool.
Require Import Verif.Base Verif.BuilderModel Verif.ConfigModel.
Import ListNotations.
Local Open Scope string_scope.

Inductive Json :=
| JNull | JBool (b : bool) | JNum (x : R) | JStr (s : string) | JArr (l : list Json) | JObj (d : list (string * Json)).

(** k in d, for a dictionary. *)
Definition has_key {A} (d : Dict A) (k : string) : bool := match get d k with Some _ => true | None => false end.
(** k in v, for any value. *)
Definition py_in (k : string) (v : Json) : res bool :=
  match v with
  | JObj d => Ok (has_key d k)
  | JArr l => Ok (existsb (fun x => match x with JStr s => String.eqb k s | _ => false end) l)
  | JStr s => Ok (contains k s)
  | _ => Err TypeError
  end.
(** v[k] *)
Definition subscript (v : Json) (k : string) : res Json :=
  match v with
  | JObj d => match get d k with Some x => Ok x | None => Err KeyError end
  | _ => Err TypeError
  end.
(** v[k] = x *)
Definition assign (v : Json) (k : string) (x : Json) : res Json :=
  match v with JObj d => Ok (JObj (put d k x)) | _ => Err TypeError end.
(** v[i] *)
Definition item (v : Json) (i : nat) : res Json :=
  match v with
  | JArr l => match nth_error l i with Some x => Ok x | None => Err IndexError end
  | JObj _ => Err KeyError
  | _ => Err TypeError
  end.
Definition number (v : Json) : res R := match v with JNum x => Ok x | _ => Err TypeError end.

(** [minx, miny, maxx, maxy] *)
Definition Box : Type := R * R * R * R.
Definition json_of_box (b : Box) : Json := let '(x0, y0, x1, y1) := b in JArr [JNum x0; JNum y0; JNum x1; JNum y1].

(** What is used of shapely. *)
Record Shapely (G : Type) := mkShapely {
  shape : Json -> res G;                    (** shapely.geometry.shape *)
  polygon : Json -> res G;                  (** shapely.geometry.Polygon(shell=...) *)
  box : Box -> G;                           (** shapely.geometry.box *)
  geojson : G -> Json;                      (** json.loads(shapely.to_geojson(...)) *)
  mapping_type : G -> string;               (** shapely.geometry.mapping(...)["type"] *)
  mapping_coordinates : G -> res Json;      (** shapely.geometry.mapping(...)["coordinates"] *)
  is_polygon : G -> bool;
  bounds : G -> Box }.
Arguments shape {G}. Arguments polygon {G}. Arguments box {G}. Arguments geojson {G}. Arguments mapping_type {G}.
Arguments mapping_coordinates {G}. Arguments is_polygon {G}. Arguments bounds {G}.

Section Accessor.
Context {G : Type}.
Variable sh : Shapely G.

(** shapely.geometry.box(minx=bbox[0], miny=bbox[1], maxx=bbox[2], maxy=bbox[3]) *)
Definition box_of (v : Json) : res G :=
  do a <- item v 0; do b <- item v 1; do c <- item v 2; do d <- item v 3;
  do x0 <- number a; do y0 <- number b; do x1 <- number c; do y1 <- number d;
  Ok (box sh (x0, y0, x1, y1)).

(** imaged_feature_property_accessor.py:36-85 [find_image_geometry]; [props] is feature.properties. *)
Definition find_image_geometry (allow_deprecated : bool) (props : Dict Json) : res (option G) :=
  match get props "imageGeometry" with
  | Some v => do g <- shape sh v; Ok (Some g)
  | None =>
  match get props "imageBBox" with
  | Some v => do g <- box_of v; Ok (Some g)
  | None =>
  if allow_deprecated then
    match get props "geom_imcoords" with
    | Some v => do g <- polygon sh v; Ok (Some g)
    | None =>
        do detected <- match get props "detection" with Some d => py_in "pixelCoordinates" d | None => Ok false end;
        if detected then
          match get props "detection" with
          | Some d => do t <- subscript d "type"; do c <- subscript d "pixelCoordinates";
                      do g <- shape sh (JObj [("type", t); ("coordinates", c)]); Ok (Some g)
          | None => Ok None
          end
        else match get props "bounds_imcoords" with
             | Some v => do g <- box_of v; Ok (Some g)
             | None => Ok None
             end
    end
  else Ok None
  end end.

(** imaged_feature_property_accessor.py:119-130 [get_image_geometry], [get_image_bbox]. *)
Definition get_image_geometry (props : Dict Json) : res (option G) :=
  match get props "imageGeometry" with Some v => do g <- shape sh v; Ok (Some g) | None => Ok None end.
Definition get_image_bbox (props : Dict Json) : res (option G) :=
  match get props "imageBBox" with Some v => do g <- box_of v; Ok (Some g) | None => Ok None end.

(** imaged_feature_property_accessor.py:132-151 [set_image_geometry], [set_image_bbox]. *)
Definition set_image_geometry (props : Dict Json) (g : G) : Dict Json := put props "imageGeometry" (geojson sh g).
Definition set_image_bbox (props : Dict Json) (g : G) : Dict Json := put props "imageBBox" (json_of_box (bounds sh g)).

(** imaged_feature_property_accessor.py:104-109: "geom_imcoords". *)
Definition update_geom_imcoords (props : Dict Json) (g : G) : res (Dict Json) :=
  if has_key props "geom_imcoords" then
    do c <- mapping_coordinates sh g;
    if is_polygon sh g then do ring <- item c 0; Ok (put props "geom_imcoords" ring)
    else Ok (put props "geom_imcoords" c)
  else Ok props.
(** imaged_feature_property_accessor.py:111-114: "detection"; the new value of the property. *)
Definition update_detection (d : Json) (g : G) : Json * res unit :=
  match assign d "type" (JStr (mapping_type sh g)) with
  | Err e => (d, Err e)
  | Ok d1 => match mapping_coordinates sh g with
             | Err e => (d1, Err e)
             | Ok c => match assign d1 "pixelCoordinates" c with Err e => (d1, Err e) | Ok d2 => (d2, Ok tt) end
             end
  end.
Definition update_detection_property (props : Dict Json) (g : G) : Dict Json * res unit :=
  match get props "detection" with
  | None => (props, Ok tt)
  | Some d => match py_in "pixelCoordinates" d with
              | Err e => (props, Err e)
              | Ok false => (props, Ok tt)
              | Ok true => let '(d', r) := update_detection d g in (put props "detection" d', r)
              end
  end.
(** imaged_feature_property_accessor.py:87-117 [update_existing_image_geometries]; the properties
    afterwards, also when it raises. *)
Definition update_existing_image_geometries (allow_deprecated : bool) (props : Dict Json) (g : G) : Dict Json * res unit :=
  let p1 := if has_key props "imageGeometry" then set_image_geometry props g else props in
  let p2 := if has_key p1 "imageBBox" then set_image_bbox p1 g else p1 in
  if allow_deprecated then
    match update_geom_imcoords p2 g with
    | Err e => (p2, Err e)
    | Ok p3 =>
        match update_detection_property p3 g with
        | (p4, Err e) => (p4, Err e)
        | (p4, Ok _) => (if has_key p4 "bounds_imcoords" then put p4 "bounds_imcoords" (json_of_box (bounds sh g)) else p4, Ok tt)
        end
    end
  else (p2, Ok tt).
End Accessor.
