(** What the tiles of an image with a SIDD document are meant to record, stated on the metadata that the
    builder reads and without the objects of the parser. *)
Require Import ZArith Reals String List.
Require Import Verif.Base Verif.EncodeModel Verif.EncodeSpec Verif.SarMetaModel.
Import ListNotations.

Section Rounded.
(** The number that a float near a real number stands for. *)
Variable rd : R -> R.
Definition rounded_corner (p : R * R) : R * R := (rd (fst p), rd (snd p)).
Definition rounded_chip (c : GeoChip) : GeoChip :=
  mkGeoChip (chip_cols c) (chip_rows c) (rounded_corner (upper_left c)) (rounded_corner (upper_right c)) (rounded_corner (lower_right c)) (rounded_corner (lower_left c)).
(** The document of a tile: the exact one (C42), with corners rounded when they are computed from the
    corners of a chip. *)
Definition sidd_tile (d : SiddMeta) (q : request) : res SiddMeta :=
  bind (sidd_update_doc d q) (fun d' =>
  Ok (match chip d, chip d' with Some _, Some c => with_chip d (rounded_chip c) | _, _ => d' end)).
(** The document that is kept after some requests, of which those that fail change nothing. *)
Definition sidd_kept (d : SiddMeta) (qs : list request) : SiddMeta :=
  fold_left (fun d q => match sidd_tile d q with Ok d' => d' | Err _ => d end) qs d.
End Rounded.

(** The requests of a history that reach the updater: those for whose windows the corners can be found. *)
Inductive tried (show_R : R -> string) (fac : Factory) : list (Gdal * (Call -> Files -> Files) * Files * request * string) -> list request -> Prop :=
| tried_nil : tried show_R fac [] []
| tried_skip g others fs q token l qs : (forall o, ~ location_options show_R fac (fst q) o) -> tried show_R fac l qs -> tried show_R fac ((g, others, fs, q, token) :: l) qs
| tried_next g others fs q token l qs o : location_options show_R fac (fst q) o -> tried show_R fac l qs -> tried show_R fac ((g, others, fs, q, token) :: l) (q :: qs).
