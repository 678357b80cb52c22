(** Vocabulary of the builder and factory properties (C50, C51, C52, C71, C72). *)
Require Import ZArith Reals String List.
Require Import Verif.Base Verif.Vec Verif.SensorBase Verif.RpcModel Verif.RsmModel Verif.TreModel Verif.TreSpec Verif.BuilderModel.
Import ListNotations.
Local Open Scope string_scope.

(** The field [n] of [e] says [x]. *)
Definition number_field (cv : Conv) (e : Element) (n : string) (x : R) : Prop :=
  exists s, field_text e n s /\ to_float cv s = Some x.
Definition integer_field (cv : Conv) (e : Element) (n : string) (z : Z) : Prop :=
  exists s, field_text e n s /\ to_int cv s = Some z.
Definition vector_field (cv : Conv) (e : Element) (x y z : string) (v : Vec) : Prop :=
  number_field cv e x (vx v) /\ number_field cv e y (vy v) /\ number_field cv e z (vz v).

(** [m] is the last element of [l] that satisfies [P]. *)
Definition last_with {A} (P : A -> Prop) (l : list A) (m : A) : Prop :=
  exists before after, l = (before ++ m :: after)%list /\ P m /\ forall x, In x after -> ~ P x.

(** *** The factory *)
Section Choice.
Variable M : Type.
Variable bs : Builders M.
Variable cv : Conv.
Variable decode : string -> res string.
Variable tostring : Element -> string.

Definition wants (md : Metadata) (t : SensorType) : Prop :=
  match md_selected md with Some l => In t l | None => True end.
Definition has_tre (md : Metadata) (n : string) : Prop :=
  exists tres e, md_tres md = Some tres /\ In e (children_of tres) /\ is_named "tre" n e.
Definition enough_gcps (md : Metadata) (gcps : list Gcp) : Prop := md_gcps md = Some gcps /\ 4 <= List.length gcps.

(** The chip description of the image and the size of the full image. *)
Definition chip_and_size (md : Metadata) (tres : Element) (chip : option Facade) (w h : Z) : Prop :=
  (~ has_tre md "ICHIPB" /\ chip = None /\ w = md_width md /\ h = md_height md)
  \/ (exists e f, first_named tres "tre" "ICHIPB" e /\ f = make_facade cv e /\ chip = Some f
        /\ full_image_width f = Some w /\ full_image_height f = Some h).
(** [m] seen through the chip. *)
Definition on_chip (chip : option Facade) (full m : option M) : Prop :=
  match full, chip with
  | Some x, Some f => exists c, b_chip bs (full_image_coordinates f) (chipped_image_coordinates f) x = Ok c /\ m = Some c
  | _, _ => m = full
  end.

(** Where the approximate model comes from: the corner TRE, else control points, else the
    geotransform, each only when its type is selected. *)
Definition approximate_is (md : Metadata) (a : option M) : Prop :=
  (wants md TPROJECTIVE /\ has_tre md "CSCRNA" /\
     exists tres chip w h p, md_tres md = Some tres /\ chip_and_size md tres chip w h
       /\ b_projective bs tres w h = Ok p /\ on_chip chip p a)
  \/ (~ (wants md TPROJECTIVE /\ has_tre md "CSCRNA") /\
       ((exists gcps, wants md TPROJECTIVE /\ enough_gcps md gcps /\ b_gcp bs gcps = Ok a)
        \/ (~ (wants md TPROJECTIVE /\ exists gcps, enough_gcps md gcps) /\
             ((exists gt, wants md TAFFINE /\ md_geo_transform md = Some gt /\ b_affine bs gt (md_proj_wkt md) = Ok a)
              \/ (~ (wants md TAFFINE /\ exists gt, md_geo_transform md = Some gt) /\ a = None))))).

(** The precise model of the TREs: RSM, else RPC. *)
Definition tre_precision_is (md : Metadata) (p : option M) : Prop :=
  match md_tres md with
  | None => p = None
  | Some tres => exists chip w h full, chip_and_size md tres chip w h /\ on_chip chip full p /\
      ((exists m, wants md TRSM /\ b_rsm bs tres = Ok (Some m) /\ full = Some m)
       \/ ((~ wants md TRSM \/ b_rsm bs tres = Ok None) /\
            ((wants md TRPC /\ b_rpc bs tres = Ok full) \/ (~ wants md TRPC /\ full = None))))
  end.

(** SAR metadata in the DES: the first segment with text that mentions SIDD, or SICD when that is
    selected. *)
Definition is_sidd (t : option string) : Prop := exists x, t = Some x /\ occurs "SIDD" x.
Definition is_sicd (md : Metadata) (t : option string) : Prop :=
  wants md TSICD /\ exists x, t = Some x /\ occurs "SICD" x.
Definition segments (md : Metadata) : list Element :=
  match md_dess md with Some l => get_segments_by_name l "XML_DATA_CONTENT" | None => [] end.
Definition visited (md : Metadata) (texts : list (option string)) : Prop :=
  exists done rest, segments md = (done ++ rest)%list
    /\ Forall2 (fun s t => extract_desdata_xml decode tostring s = Ok t) done texts.
Definition precision_is (md : Metadata) (p : option M) : Prop :=
  (exists texts x, visited md (texts ++ [Some x])
     /\ (forall t, In t texts -> ~ is_sidd t /\ ~ is_sicd md t)
     /\ ((occurs "SIDD" x /\ p = b_sidd bs x)
         \/ (~ occurs "SIDD" x /\ is_sicd md (Some x) /\ p = b_sicd bs x)))
  \/ (exists texts, Forall2 (fun s t => extract_desdata_xml decode tostring s = Ok t) (segments md) texts
     /\ (forall t, In t texts -> ~ is_sidd t /\ ~ is_sicd md t)
     /\ tre_precision_is md p).
End Choice.
