(** Tiles that carry a SICD or SIDD document: from the text found in an image to the text written into
    its tiles and back to the documents that the sensor model builders read.
    Source: src/aws/osml/image_processing/sicd_updater.py:19-72, image_processing/sidd_updater.py:17-145,
    gdal/sicd_sensor_model_builder.py:98-113 and gdal/sidd_sensor_model_builder.py:46-61, on the objects of
    SchemaModel.v, for the tile factory of EncodeModel.v and the opened images of OpenModel.v.
    Simplifications: reading and writing the characters of an XML document (lxml and xsdata's writer) are
    arbitrary functions [scan] and [print] between texts and trees; an absent FirstRow or FirstCol is an
    error when the updater is made, not when it is first used; the chip corners that the SIDD updater
    computes are the floats that [float_of] gives for the exact results. *)
Require Import ZArith Reals String List Bool.
Require Import Verif.Base Verif.SicdModel Verif.SarMetaModel Verif.SchemaModel Verif.SarDocModel Verif.OpenModel.
Import ListNotations.
Local Open Scope string_scope.

Section Tiles.
Context {F D T : Type}.
Variable L : Lexical F D T.
Variable S : Schema.
Variable num : F -> R.
Variable float_of : R -> F.
Variable scan : string -> res Xml.
Variable print : Xml -> string.
Notation Obj := (Obj F D T).

(** XmlParser().from_string (sicd_updater.py:28, sidd_updater.py:27, sicd_sensor_model_builder.py:107,
    sidd_sensor_model_builder.py:55). *)
Definition parse_text (x : string) : res Obj := bind (scan x) (parse_document L S).

(** A SICDUpdater with the first row and column it has kept, or a SIDDUpdater. *)
Inductive DocUpdater := SicdUpdating (row0 col0 : Z) (o : Obj) | SiddUpdating (o : Obj).
(** sicd_updater.py:19-33 and sidd_updater.py:18-27 [__init__]. *)
Definition make_sicd (x : string) : res DocUpdater :=
  bind (parse_text x) (fun o => bind (get S o "image_data") (fun im =>
  bind (get_integer S im "first_row") (fun r => bind (get_integer S im "first_col") (fun c => Ok (SicdUpdating r c o))))).
Definition make_sidd (x : string) : res DocUpdater := bind (parse_text x) (fun o => Ok (SiddUpdating o)).

(** sidd_updater.py:29-135 [update_image_data_for_chip]: corners are integers when the document has no
    chip and floats when it has one. *)
Definition sidd_update_object (o : Obj) (q : request) : res Obj :=
  let b := fst q in
  let size := match snd q with None => (bw b, bh b) | Some s => s end in
  bind (chip_of num S o) (fun found =>
  match found with
  | None =>
    let x0 := VInt (bx b) in let y0 := VInt (by_ b) in let x1 := VInt (bx b + bw b - 1) in let y1 := VInt (by_ b + bh b - 1) in
    sidd_put_chip S o size (x0, y0) (x1, y0) (x1, y1) (x0, y1)
  | Some c =>
    let x0 := IZR (bx b) in let y0 := IZR (by_ b) in let x1 := IZR (bx b + bw b - 1) in let y1 := IZR (by_ b + bh b - 1) in
    let to_full p := bind (chipped_coordinate_to_full p (chip_cols c) (chip_rows c) (upper_left c) (upper_right c) (lower_right c) (lower_left c))
                       (fun r => Ok (VFloat (float_of (fst r)), VFloat (float_of (snd r)))) in
    bind (to_full (x0, y0)) (fun ul => bind (to_full (x1, y0)) (fun ur => bind (to_full (x1, y1)) (fun lr => bind (to_full (x0, y1)) (fun ll =>
    sidd_put_chip S o size ul ur lr ll))))
  end).
Definition sidd_step_object (o : Obj) (q : request) : Obj * res unit :=
  match sidd_update_object o q with Ok o' => (o', Ok tt) | Err e => (o, Err e) end.

(** update_image_data_for_chip of either updater. *)
Definition update_document (u : DocUpdater) (q : request) : DocUpdater * res unit :=
  match u with
  | SicdUpdating r c o => let p := sicd_step_object S r c o q in (SicdUpdating r c (fst p), snd p)
  | SiddUpdating o => let p := sidd_step_object o q in (SiddUpdating (fst p), snd p)
  end.
(** sicd_updater.py:64-72 and sidd_updater.py:137-145 [encode_current_xml]. *)
Definition held (u : DocUpdater) : Obj := match u with SicdUpdating _ _ o | SiddUpdating o => o end.
Definition encode_document (u : DocUpdater) : string :=
  match render_document L S (held u) with Some y => print y | None => "" end.

(** What the builders read of a text. *)
Definition document_of (x : string) : res Document :=
  bind (parse_text x) (fun o =>
  match o with
  | Inst c _ =>
    if existsb (String.eqb c) ["sicd121.SICD"; "sicd130.SICD"] then bind (sicd_meta num S o) (fun d => Ok (SicdDocument d))
    else if existsb (String.eqb c) ["sidd100.SIDD"; "sidd200.SIDD"; "sidd300.SIDD"] then bind (sidd_meta num S o) (fun d => Ok (SiddDocument d))
    else Ok OtherDocument
  | Leaf _ => Ok OtherDocument
  end).
End Tiles.
Arguments DocUpdater : clear implicits.
