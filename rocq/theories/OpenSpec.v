(** What the metadata of a dataset says about its pixels (C90), written without the factory. *)
Require Import ZArith Reals String List.
Require Import Verif.Base Verif.Vec Verif.SensorBase Verif.TransformModel Verif.TransformSpec Verif.TreModel Verif.TreSpec Verif.BuilderModel
  Verif.BuilderSpec Verif.BuilderProps.
Import ListNotations.
Local Open Scope string_scope.

Section Dataset.
Variable decode : string -> res string.
Variable tostring : Element -> string.
Variable parse : string -> res Element.
Variable trim : string -> string.

(** The XML segments of the dataset, and the texts of the first of them. *)
Definition xml_segments (ds : Dataset) (segments : list Element) : Prop :=
  match ds_dess ds with
  | None => segments = []
  | Some l => exists es, Forall2 (fun s e => parse (trim (strip_prologs s)) = Ok e) l es /\
      segments = flat_map (fun e => List.filter (fun c => named "des" "XML_DATA_CONTENT" c) (children_of e)) es
  end.
Definition segment_texts (segments : list Element) (texts : list (option string)) : Prop :=
  Forall2 (fun s t => extract_desdata_xml decode tostring s = Ok t) segments texts.

Definition mentions_sar (t : option string) : Prop := exists x, t = Some x /\ (occurs "SIDD" x \/ occurs "SICD" x).

(** [x] is the first text that mentions SIDD or SICD. *)
Definition first_sar_text (ds : Dataset) (x : string) : Prop :=
  exists before after texts, xml_segments ds (before ++ after) /\ segment_texts before (texts ++ [Some x]) /\
  (forall t, In t texts -> ~ mentions_sar t) /\ mentions_sar (Some x).
Definition no_sar_text (ds : Dataset) : Prop :=
  exists segments texts, xml_segments ds segments /\ segment_texts segments texts /\ forall t, In t texts -> ~ mentions_sar t.

(** The TREs of the dataset: the first document. *)
Definition tres_of (ds : Dataset) (tres : Element) : Prop :=
  exists t rest, ds_tres ds = Some (t :: rest) /\ parse t = Ok tres.
Definition without_tre (tres : Element) (n : string) : Prop := forall e, ~ first_named tres "tre" n e.
End Dataset.

(** Pixel [p] of the full image is pixel [q] of the file: the same pixel without ICHIPB TRE; with
    one, where a projective transform puts it that fits the four corners of the TRE. *)
Definition chip_position (cv : Conv) (tres : Element) (p q : R * R) : Prop :=
  (without_tre tres "ICHIPB" /\ q = p) \/
  exists e t f11 f12 f21 f22 c11 c12 c21 c22,
    first_named tres "tre" "ICHIPB" e /\
    point_says cv e "11" f11 c11 /\ point_says cv e "12" f12 c12 /\ point_says cv e "21" f21 c21 /\ point_says cv e "22" f22 c22 /\
    let at_ i := (ix i, iy i) in
    takes t (at_ f11) (at_ c11) /\ takes t (at_ f12) (at_ c12) /\ takes t (at_ f21) (at_ c21) /\ takes t (at_ f22) (at_ c22) /\
    general_position (at_ f11) (at_ f12) (at_ f21) (at_ f22) /\ general_position (at_ c11) (at_ c12) (at_ c21) (at_ c22) /\
    determinant t <> 0%R /\ takes t p q.
