(** One tile factory used by several threads: the metadata of NITF tiles.
    Source: src/aws/osml/image_processing/gdal_tile_factory.py:107-122 [create_encoded_tile].
    A request updates the document of the shared updater, then renders it; another thread may run in
    between.
    Simplifications: each of the two calls is one step; what a request does before and after concerns
    objects and files of its own (C53, C54). *)
Require Import ZArith String List.
Require Import Verif.Base Verif.SarMetaModel Verif.DemThreadModel.
Import ListNotations.

Inductive phase := Waiting | Updated | Encoded (des : string) | Failed (e : exn).

Section Shared.
Context {U : Type}.
Variable update : U -> request -> U * res unit.
Variable encode : U -> string.
Variable header : string.

(** gdal_tile_factory.py:111-112. *)
Definition tile_step (u : U) (t : request * phase) : U * (request * phase) :=
  let q := fst t in
  match snd t with
  | Waiting => let '(u', r) := update u q in (u', (q, match r with Ok _ => Updated | Err e => Failed e end))
  | Updated => (u, (q, Encoded (header ++ encode u)%string))
  | _ => (u, t)
  end.
Definition tiles_step (s : U * list (request * phase)) (i : nat) : U * list (request * phase) :=
  match nth_error (snd s) i with
  | None => s
  | Some t => let '(u, t') := tile_step (fst s) t in (u, replace_nth i t' (snd s))
  end.
Definition run_tiles (s : U * list (request * phase)) (schedule : list nat) : U * list (request * phase) := fold_left tiles_step schedule s.
Definition start_tiles (u : U) (qs : list request) : U * list (request * phase) := (u, List.map (fun q => (q, Waiting)) qs).
End Shared.
