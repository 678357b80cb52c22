(** Vocabulary of the elevation properties (C15 - C18), independent of the model's cache
    and interpolation code. *)
Require Import ZArith Reals String List.
Require Import Verif.Base Verif.DemModel.
Import ListNotations.
Local Open Scope R_scope.

(** The answer of one call computed from a tile loader alone, with no memory: load the tile,
    ask it. *)
Definition uncached_answer (find : Geodetic -> option string) (load : string -> res Tile) (o : call) : answer :=
  match o with
  | SetElevation w =>
      Located (match find w with
               | None | Some EmptyString => Ok w
               | Some id =>
                   bind (load id) (fun t => bind (make_grid t) (fun g =>
                     match g_interp g, g_sensor g with
                     | Some f, Some s => Ok (mkGeo (longitude w) (latitude w) (f (fst (s w)) (snd (s w))))
                     | _, _ => Ok w
                     end))
               end)
  | DescribeRegion w =>
      Described (match find w with
                 | None | Some EmptyString => Ok None
                 | Some id => bind (load id) (fun t => bind (make_grid t) (fun g => Ok (g_summary g)))
                 end)
  end.

(** The location a call asks about. *)
Definition location_of (o : call) : Geodetic :=
  match o with SetElevation w | DescribeRegion w => w end.

(** The tile a call uses, when it uses one that can be loaded. *)
Definition tile_used (find : Geodetic -> option string) (load : string -> res Tile) (o : call) : list string :=
  match find (location_of o) with
  | None | Some EmptyString => []
  | Some id => match bind (load id) make_grid with Ok _ => [id] | Err _ => [] end
  end.

(** Tiles used by a history, most recent first. *)
Definition tiles_used find load (h : list call) : list string :=
  List.concat (List.map (tile_used find load) (rev h)).

(** Keep the first occurrence of each element. *)
Fixpoint distinct (l : list string) : list string :=
  match l with
  | [] => []
  | x :: r => x :: filter (fun y => negb (String.eqb x y)) (distinct r)
  end.

(** A raster of [height] rows of [width] posts. *)
Definition rectangular (a : raster) (width height : nat) : Prop :=
  List.length a = height /\ forall row, In row a -> List.length row = width.

(** Post in row [y] and column [x]. *)
Definition post (a : raster) (x y : nat) : R := nth x (nth y a []) 0.
