(** Opening an image: from the metadata of the file to a sensor model that locates pixels.
    Source: src/aws/osml/gdal/sicd_sensor_model_builder.py:98-113 and
    sidd_sensor_model_builder.py:46-61 (build), and the nesting of sensor models that
    sensor_model_factory.py:116-214 and gdal_utils.py:19-70 produce.
    Simplifications: those of BuilderModel, SarMetaModel and SicdModel; xsdata's XmlParser is an
    arbitrary function from text to documents. *)
Require Import ZArith Reals String List.
Require Import Verif.Base Verif.Vec Verif.SensorBase Verif.RpcModel Verif.RsmModel Verif.TransformModel Verif.SicdModel Verif.SarMetaModel
  Verif.TreModel Verif.BuilderModel.
Import ListNotations.

(** The sensor models the factory returns.  SAR models ask an elevation model for more than
    heights ([Terrain]) and may answer nan ([None]), so they are not a [Sensor]. *)
Inductive Opened :=
| Optical (s : Sensor)                        (* affine, projective, RPC or RSM *)
| SarSicd (b : Built)                         (* SICDSensorModelBuilder.from_dataclass *)
| SarSidd (m : SiddModel)                     (* SIDDSensorModelBuilder.from_dataclass *)
| OnChip (t : Projective) (full : Opened)     (* ChippedImageSensorModel *)
| Guided (approximate precise : Opened).      (* CompositeSensorModel *)

(** composite_sensor_model.py:49-54: the options handed to the precise model.  No approximate model
    of the project answers nan; if one did, the guess would not be a pair of numbers. *)
Definition guided_options (w : option Geodetic) (o : option dict) : dict :=
  dict_set INITIAL_SEARCH_DISTANCE (VNum (radians 0.005))
    (dict_set INITIAL_GUESS (match w with Some g => VList [longitude g; latitude g] | None => VOther 0 end)
       (match o with None => [] | Some d => d end)).

Section Locate.
(** coordinates.py geocentric_to_geodetic and geodetic_to_geocentric (pyproj). *)
Variable to_geodetic : Vec -> Geodetic.
Variable to_geocentric : Geodetic -> Vec.

(** image_to_world of the nested model: chipped_image_sensor_model.py:45-66 and
    composite_sensor_model.py:30-58. *)
Fixpoint opened_image_to_world (m : Opened) (i : Image) (em : option Terrain) (o : option dict) : res (option Geodetic) :=
  match m with
  | Optical s => bind (image_to_world s i (option_map set_elevation em) o) (fun g => Ok (Some g))
  | SarSicd b => built_image_to_world to_geodetic to_geocentric b i em
  | SarSidd d => sidd_image_to_world to_geodetic to_geocentric d i em
  | OnChip t full => let p := inverse1 t (ix i, iy i) in opened_image_to_world full (mkImage (fst p) (snd p)) em o
  | Guided a p => bind (opened_image_to_world a i em o) (fun w => opened_image_to_world p i em (Some (guided_options w o)))
  end.
(** world_to_image: chipped_image_sensor_model.py:68-79 and composite_sensor_model.py:60-69. *)
Fixpoint opened_world_to_image (m : Opened) (g : Geodetic) : res Image :=
  match m with
  | Optical s => world_to_image s g
  | SarSicd b => built_world_to_image to_geodetic to_geocentric b g
  | SarSidd d => sidd_world_to_image to_geodetic to_geocentric d g
  | OnChip t full => bind (opened_world_to_image full g) (fun i =>
      let p := forward1 t (ix i, iy i) in Ok (mkImage (fst p) (snd p)))
  | Guided a p => opened_world_to_image p g
  end.
End Locate.

(** What xsdata makes of a text: the root element decides which dataclass. *)
Inductive Document := SicdDocument (d : SicdMeta) | SiddDocument (d : SiddMeta) | OtherDocument.

(** sicd_sensor_model_builder.py:98-113 and sidd_sensor_model_builder.py:46-61 [build]: no text, a
    text that cannot be parsed and any exception of from_dataclass give None. *)
Definition xml_build (parse_xml : string -> res Document) (from_dataclass : Document -> res Opened) (xml : option string) : option Opened :=
  match xml with
  | None | Some EmptyString => None
  | Some x => match bind (parse_xml x) from_dataclass with Ok m => Some m | Err _ => None end
  end.
(** from_dataclass of a document of another kind: the first attribute it reads is missing
    (sicd.geo_data.scp, sidd.measurement.plane_projection). *)
Definition sicd_opened (d : Document) : res Opened :=
  match d with SicdDocument d => bind (sicd_from_dataclass d) (fun b => Ok (SarSicd b)) | _ => Err AttributeError end.
Definition sidd_opened (lstsq : list (list R) -> list R -> res (list R)) (d : Document) : res Opened :=
  match d with SiddDocument d => bind (sidd_from_dataclass lstsq d) (fun m => Ok (SarSidd m)) | _ => Err AttributeError end.

Section Builders.
Variable cv : Conv.
Variable caught : bool.
Variable to_geocentric : Geodetic -> Vec.
Variable to_geodetic : Vec -> Geodetic.
Variable lstsq : list (list R) -> list R -> res (list R).
Variable rpc_minimize : (R * R -> res R) -> R * R -> list (R * R) -> res (R * R).
Variable rsm_minimize : (R * R -> res R) -> R * R -> option TileModel.Bounds -> list (R * R) -> res (R * R).
Variable crs_of : string -> res Crs.
Variable parse_xml : string -> res Document.

(** chipped_image_sensor_model.py:20-43 [__init__] around any model. *)
Definition chip_opened (original chipped : list Image) (full : Opened) : res Opened :=
  match chipped with
  | [] => Err ValueError
  | _ => bind (estimate lstsq (List.map (fun i => (ix i, iy i)) original) (List.map (fun i => (ix i, iy i)) chipped))
           (fun t => Ok (OnChip t full))
  end.

(** The builders of the project, as the factory calls them (sensor_model_factory.py:127-204). *)
Definition open_builders : Builders Opened :=
  mkBuilders Opened
    (fun gt wkt => map_option Optical (affine_build crs_of gt wkt))
    (fun gcps => map_option (fun t => Optical (projective_sensor t)) (gcp_build lstsq gcps))
    (fun tres => map_option (fun b => Optical (rsm_built_sensor to_geocentric rsm_minimize b)) (rsm_build cv to_geodetic caught tres))
    (fun tres => map_option (fun m => Optical (rpc_sensor rpc_minimize m)) (rpc_build cv caught tres))
    (fun tres w h => map_option (fun t => Optical (projective_sensor t)) (projective_build cv lstsq tres (IZR w) (IZR h)))
    (fun x => xml_build parse_xml (sidd_opened lstsq) (Some x))
    (fun x => xml_build parse_xml sicd_opened (Some x))
    chip_opened Guided.
End Builders.
