(** Building sensor models from image metadata.
    Source: src/aws/osml/gdal/rpc_sensor_model_builder.py, rsm_sensor_model_builder.py,
    projective_sensor_model_builder.py, gdal_sensor_model_builder.py, sensor_model_factory.py and
    load_gdal_dataset in gdal_utils.py.
    Simplifications: as in TreModel; logging is left out; negative polynomial powers, which the
    one-digit TRE fields cannot hold, are rejected; XML parsing, GDAL, pyproj, np.linalg.lstsq and
    the optimiser are arbitrary functions. *)
Require Import ZArith NArith Reals String Ascii List Bool.
Require Import Verif.Base Verif.Vec Verif.SensorBase Verif.RpcModel Verif.RsmModel Verif.TransformModel Verif.TreModel.
Import ListNotations.
Local Open Scope string_scope.

(** Sequencing of calls that may raise. *)
Notation "'do' x <- m ; k" := (bind m (fun x => k)) (at level 200, x name, m at level 100, k at level 200).

(** [except ValueError: return None].  numpy.linalg.LinAlgError is a ValueError from numpy 1.25 on
    and was not before: [caught]. *)
Definition none_on_value_error {A} (caught : bool) (r : res (option A)) : res (option A) :=
  match r with
  | Err ValueError => Ok None
  | Err LinAlgError => if caught then Ok None else Err LinAlgError
  | _ => r
  end.

Section Builders.
Variable cv : Conv.
Definition float_field (tre : Element) (n : string) : res R := get_tre_field_value tre n (to_float cv).
Definition int_field (tre : Element) (n : string) : res Z := get_tre_field_value tre n (to_int cv).

(** *** RPC *)

(** rpc_sensor_model_builder.py:67-93 and 95-107 [build_rpc_sensor_model], in the order in which
    the arguments are evaluated. *)
Definition build_rpc_sensor_model (tre : Element) : res RPC :=
  do err_bias <- float_field tre "ERR_BIAS";
  do err_rand <- float_field tre "ERR_RAND";
  do line_off <- float_field tre "LINE_OFF";
  do samp_off <- float_field tre "SAMP_OFF";
  do lat_off <- float_field tre "LAT_OFF";
  do long_off <- float_field tre "LONG_OFF";
  do height_off <- float_field tre "HEIGHT_OFF";
  do line_scale <- float_field tre "LINE_SCALE";
  do samp_scale <- float_field tre "SAMP_SCALE";
  do lat_scale <- float_field tre "LAT_SCALE";
  do long_scale <- float_field tre "LONG_SCALE";
  do height_scale <- float_field tre "HEIGHT_SCALE";
  do line_num <- parse_rpc_coefficients cv tre "LINE_NUM_COEFF";
  do line_den <- parse_rpc_coefficients cv tre "LINE_DEN_COEFF";
  do samp_num <- parse_rpc_coefficients cv tre "SAMP_NUM_COEFF";
  do samp_den <- parse_rpc_coefficients cv tre "SAMP_DEN_COEFF";
  Ok (mkRPC line_off samp_off lat_off long_off height_off line_scale samp_scale lat_scale long_scale height_scale
            line_num line_den samp_num samp_den).
(** rpc_sensor_model_builder.py:36-65 [build]. *)
Definition rpc_build (caught : bool) (tres : Element) : res (option RPC) :=
  match find_named tres "tre" "RPC00B" with
  | None => Ok None
  | Some tre => none_on_value_error caught
      (do success <- int_field tre "SUCCESS";
       if Z.eqb success 1 then do m <- build_rpc_sensor_model tre; Ok (Some m) else Ok None)
  end.

(** *** RSM *)

(** The enumeration replacement_sensor_model.py:75-77 applied to a string. *)
Definition domain_form (s : string) : res DomainForm :=
  if String.eqb s "G" then Ok GEODETIC
  else if String.eqb s "H" then Ok GEODETIC_2PI
  else if String.eqb s "R" then Ok RECTANGULAR
  else Err ValueError.

Definition vec_fields (tre : Element) (x y z : string) : res Vec :=
  do a <- float_field tre x; do b <- float_field tre y; do c <- float_field tre z; Ok (mkVec a b c).

Definition vertex_numbers : list string := ["1"; "2"; "3"; "4"; "5"; "6"; "7"; "8"].

(** What the RSM builder needs from outside: coordinates.py geocentric_to_geodetic (pyproj). *)
Variable to_geodetic : Vec -> Geodetic.

(** rsm_sensor_model_builder.py:167-178: the optional ground reference point. *)
Definition reference_point (tre : Element) : res (option Vec) :=
  match vec_fields tre "GRPX" "GRPY" "GRPZ" with
  | Ok v => Ok (Some v)
  | Err ValueError => Ok None
  | Err e => Err e
  end.
(** rsm_sensor_model_builder.py:119-186 [_build_rsm_ground_domain]. *)
Definition build_rsm_ground_domain (tre : Element) : res GroundDomain :=
  do form_text <- get_tre_field_value tre "GRNDD" to_str;
  do form <- domain_form form_text;
  do vertices <- map_res (fun n => vec_fields tre ("V" ++ n ++ "X") ("V" ++ n ++ "Y") ("V" ++ n ++ "Z")) vertex_numbers;
  do rectangular <- match form with
                    | RECTANGULAR =>
                        do origin <- vec_fields tre "XUOR" "YUOR" "ZUOR";
                        do r1 <- vec_fields tre "XUXR" "YUXR" "ZUXR";
                        do r2 <- vec_fields tre "XUYR" "YUYR" "ZUYR";
                        do r3 <- vec_fields tre "XUZR" "YUZR" "ZUZR";
                        Ok (Some origin, Some (mkMat r1 r2 r3))
                    | _ => Ok (None, None)
                    end;
  do reference <- reference_point tre;
  make_ground_domain to_geodetic form vertices (fst rectangular) (snd rectangular) reference.
(** rsm_sensor_model_builder.py:188-201 [_build_rsm_image_domain]. *)
Definition build_rsm_image_domain (tre : Element) : res ImageDomain :=
  do a <- int_field tre "MINR"; do b <- int_field tre "MAXR";
  do c <- int_field tre "MINC"; do d <- int_field tre "MAXC"; Ok (mkImageDomain a b c d).
(** rsm_sensor_model_builder.py:203-215 [_build_rsm_context]. *)
Definition build_rsm_context (tre : Element) : res (GroundDomain * ImageDomain) :=
  do g <- build_rsm_ground_domain tre; do i <- build_rsm_image_domain tre; Ok (g, i).

Definition power_field (tre : Element) (n : string) : res nat :=
  do z <- int_field tre n; if (z <? 0)%Z then Err ValueError else Ok (Z.to_nat z).
(** rsm_sensor_model_builder.py:217-236 [_build_rsm_polynomial]; the prefixes are always valid. *)
Definition build_rsm_polynomial (tre : Element) (prefix : string) : res Poly :=
  do px <- power_field tre (prefix ++ "PWRX");
  do py <- power_field tre (prefix ++ "PWRY");
  do pz <- power_field tre (prefix ++ "PWRZ");
  do c <- parse_rpc_coefficients cv tre (prefix ++ "PCF");
  make_poly px py pz c.
(** rsm_sensor_model_builder.py:238-266 [_build_rsm_polynomial_sensor_model], with the section
    numbers that the object keeps. *)
Record SectionModel := mkSectionModel { section_row : Z; section_col : Z; section_poly : RsmPoly }.
Definition build_rsm_polynomial_sensor_model (ground : GroundDomain) (tre : Element) : res SectionModel :=
  do rsn <- int_field tre "RSN";
  do csn <- int_field tre "CSN";
  do row_off <- float_field tre "RNRMO";
  do column_off <- float_field tre "CNRMO";
  do x_off <- float_field tre "XNRMO";
  do y_off <- float_field tre "YNRMO";
  do z_off <- float_field tre "ZNRMO";
  do row_scale <- float_field tre "RNRMSF";
  do column_scale <- float_field tre "CNRMSF";
  do x_scale <- float_field tre "XNRMSF";
  do y_scale <- float_field tre "YNRMSF";
  do z_scale <- float_field tre "ZNRMSF";
  do rn <- build_rsm_polynomial tre "RN";
  do rd <- build_rsm_polynomial tre "RD";
  do cn <- build_rsm_polynomial tre "CN";
  do cd <- build_rsm_polynomial tre "CD";
  Ok (mkSectionModel rsn csn
       (mkRsmPoly ground row_off column_off x_off y_off z_off row_scale column_scale x_scale y_scale z_scale rn rd cn cd)).

(** rsm_sensor_model_builder.py:268-286 [_build_loworder_rsm_polynomial]. *)
Definition build_loworder (tre : Element) (prefix : string) : res (list R) :=
  do c <- map_res (fun suffix => float_field tre (prefix ++ suffix))
            ["0"; "X"; "Y"; "Z"; "XX"; "XY"; "XZ"; "YY"; "YZ"; "ZZ"];
  make_low_order c.

(** rsm_sensor_model_builder.py:306-308: the dictionary keeps the last model of a section. *)
Definition grid_lookup (models : list SectionModel) (r c : Z) : res RsmPoly :=
  match List.find (fun m => Z.eqb (section_row m) r && Z.eqb (section_col m) c)%bool (rev models) with
  | Some m => Ok (section_poly m)
  | None => Err KeyError
  end.
(** range(1, n + 1). *)
Definition one_to (n : Z) : list Z := List.map Z.of_nat (seq 1 (Z.to_nat n)).
Record Sections := mkSections {
  ss_ground : GroundDomain; ss_image : ImageDomain; ss_rows : Z; ss_cols : Z;
  ss_row_size : R; ss_col_size : R; ss_row_poly : list R; ss_col_poly : list R;
  ss_grid : list (list RsmPoly) }.
(** rsm_sensor_model_builder.py:288-326 [_build_rsm_sectioned_polynomial_sensor_model]. *)
Definition build_rsm_sections (tre : Element) (context : GroundDomain * ImageDomain) (models : list SectionModel) : res Sections :=
  do rows <- int_field tre "RNIS";
  do cols <- int_field tre "CNIS";
  do grid <- map_res (fun r => map_res (fun c => grid_lookup models r c) (one_to cols)) (one_to rows);
  do row_size <- float_field tre "RSSIZ";
  do col_size <- float_field tre "CSSIZ";
  do row_poly <- build_loworder tre "R";
  do col_poly <- build_loworder tre "C";
  Ok (mkSections (fst context) (snd context) rows cols row_size col_size row_poly col_poly grid).

(** The two kinds of RSM sensor model. *)
Inductive RsmBuilt := OnePolynomial (m : RsmPoly) | SectionedPolynomials (s : Sections).
(** rsm_sensor_model_builder.py:59-117 [build]. *)
Definition rsm_build (caught : bool) (tres : Element) : res (option RsmBuilt) :=
  match find_named tres "tre" "RSMIDA" with
  | None => Ok None
  | Some rsmid => none_on_value_error caught
      (do context <- build_rsm_context rsmid;
       do models <- map_res (build_rsm_polynomial_sensor_model (fst context)) (findall_named tres "tre" "RSMPCA");
       match models with
       | [] => Ok None
       | [m] => Ok (Some (OnePolynomial (section_poly m)))
       | _ => match find_named tres "tre" "RSMPIA" with
              | None => Ok None
              | Some rsmpi => do s <- build_rsm_sections rsmpi context models; Ok (Some (SectionedPolynomials s))
              end
       end)
  end.

(** *** Projective and affine models *)

Variable lstsq : list (list R) -> list R -> res (list R).

(** projective_sensor_model_builder.py:71-80 for one corner; the height goes through radians() as
    well (line 76), which has no effect because the model uses longitude and latitude only. *)
Definition corner (tre : Element) (c : string) : res Geodetic :=
  do lon <- float_field tre (c ++ "CNR_LONG");
  do lat <- float_field tre (c ++ "CNR_LAT");
  do ht <- float_field tre (c ++ "CNR_HT");
  Ok (mkGeo (radians lon) (radians lat) (radians ht)).
(** projective_sensor_model_builder.py:57-87 [build_projective_sensor_model]. *)
Definition build_projective_sensor_model (tre : Element) (width height : R) : res Projective :=
  do world <- map_res (corner tre) ["UL"; "UR"; "LR"; "LL"];
  make_projective_sensor lstsq world [mkImage 0 0; mkImage width 0; mkImage width height; mkImage 0 height].
(** projective_sensor_model_builder.py:38-55 [build]. *)
Definition projective_build (tres : Element) (width height : R) : res (option Projective) :=
  match find_named tres "tre" "CSCRNA" with
  | None => Ok None
  | Some tre => do p <- build_projective_sensor_model tre width height; Ok (Some p)
  end.

(** gdal.GCP *)
Record Gcp := mkGcp { gcp_x : R; gcp_y : R; gcp_z : R; gcp_pixel : R; gcp_line : R }.
(** gdal_sensor_model_builder.py:58-71 [GDALGCPSensorModelBuilder.build]. *)
Definition gcp_build (gcps : list Gcp) : res (option Projective) :=
  if Nat.ltb (List.length gcps) 4 then Ok None else
  do p <- make_projective_sensor lstsq
            (List.map (fun g => mkGeo (radians (gcp_x g)) (radians (gcp_y g)) (gcp_z g)) gcps)
            (List.map (fun g => mkImage (gcp_pixel g) (gcp_line g)) gcps);
  Ok (Some p).

(** *** ChippedImageInfoFacade *)

(** sensor_model_factory.py:28-53: what the constructor leaves behind; [None] is an attribute that
    was never set. *)
Record Facade := mkFacade {
  full_image_coordinates : list Image; chipped_image_coordinates : list Image;
  full_image_width : option Z; full_image_height : option Z }.
(** sensor_model_factory.py:42-47 for one grid point. *)
Definition grid_point (tre : Element) (p : string) : res (Image * Image) :=
  do op_col <- float_field tre ("OP_COL_" ++ p);
  do op_row <- float_field tre ("OP_ROW_" ++ p);
  do fi_col <- float_field tre ("FI_COL_" ++ p);
  do fi_row <- float_field tre ("FI_ROW_" ++ p);
  Ok (mkImage fi_col fi_row, mkImage op_col op_row).
(** The loop: the pairs read before the first exception, and whether it got to the end. *)
Fixpoint grid_points (tre : Element) (ps : list string) : list (Image * Image) * bool :=
  match ps with
  | [] => ([], true)
  | p :: r => match grid_point tre p with
              | Ok q => let (l, done) := grid_points tre r in (q :: l, done)
              | Err _ => ([], false)
              end
  end.
Definition grid_point_names : list string := ["11"; "12"; "21"; "22"].
(** sensor_model_factory.py:28-53 [__init__]; only ValueError can occur, and it ends the block. *)
Definition make_facade (tre : Element) : Facade :=
  let (l, done) := grid_points tre grid_point_names in
  let full := List.map fst l in let chip := List.map snd l in
  if done then
    match int_field tre "FI_COL" with
    | Err _ => mkFacade full chip None None
    | Ok w => match int_field tre "FI_ROW" with
              | Err _ => mkFacade full chip (Some w) None
              | Ok h => mkFacade full chip (Some w) (Some h)
              end
    end
  else mkFacade full chip None None.
(** Reading an attribute. *)
Definition attribute {A} (a : option A) : res A := match a with Some x => Ok x | None => Err AttributeError end.
End Builders.

(** *** SensorModelFactory *)

(** sensor_model_factory.py:56-68 [SensorModelTypes]. *)
Inductive SensorType := TAFFINE | TPROJECTIVE | TRPC | TRSM | TSICD.
Definition sensor_type_eqb (a b : SensorType) : bool :=
  match a, b with
  | TAFFINE, TAFFINE | TPROJECTIVE, TPROJECTIVE | TRPC, TRPC | TRSM, TRSM | TSICD, TSICD => true
  | _, _ => false
  end.
Definition selected (l : list SensorType) (t : SensorType) : bool := existsb (sensor_type_eqb t) l.
Definition ALL_SENSOR_MODEL_TYPES : list SensorType := [TAFFINE; TPROJECTIVE; TRPC; TRSM; TSICD].

(** [sub in s] *)
Fixpoint contains (sub s : string) : bool :=
  String.prefix sub s || match s with EmptyString => false | String _ r => contains sub r end.

(** The builders and wrappers the factory calls, over any type [M] of sensor models. *)
Record Builders (M : Type) := mkBuilders {
  b_affine : list R -> option string -> res (option M);        (* GDALAffineSensorModelBuilder(...).build() *)
  b_gcp : list Gcp -> res (option M);                          (* GDALGCPSensorModelBuilder(...).build() *)
  b_rsm : Element -> res (option M);                           (* RSMSensorModelBuilder(...).build() *)
  b_rpc : Element -> res (option M);                           (* RPCSensorModelBuilder(...).build() *)
  b_projective : Element -> Z -> Z -> res (option M);          (* ProjectiveSensorModelBuilder(...).build() *)
  b_sidd : string -> option M;                                 (* SIDDSensorModelBuilder(...).build(), catches everything *)
  b_sicd : string -> option M;                                 (* SICDSensorModelBuilder(...).build(), catches everything *)
  b_chip : list Image -> list Image -> M -> res M;             (* ChippedImageSensorModel(...) *)
  b_composite : M -> M -> M }.                                 (* CompositeSensorModel(approximate, precision) *)
Arguments b_affine {M}. Arguments b_gcp {M}. Arguments b_rsm {M}. Arguments b_rpc {M}. Arguments b_projective {M}.
Arguments b_sidd {M}. Arguments b_sicd {M}. Arguments b_chip {M}. Arguments b_composite {M}.

(** sensor_model_factory.py:78-114: what the factory is given.  [md_dess] are the DES documents
    after parsing (NITFDESAccessor.__init__). *)
Record Metadata := mkMetadata {
  md_width : Z; md_height : Z; md_tres : option Element; md_dess : option (list Element);
  md_geo_transform : option (list R); md_proj_wkt : option string; md_gcps : option (list Gcp);
  md_selected : option (list SensorType) }.

Section Factory.
Variable M : Type.
Variable bs : Builders M.
Variable cv : Conv.
Variable decode : string -> res string.
Variable tostring : Element -> string.

Definition selection (md : Metadata) : list SensorType :=
  match md_selected md with Some l => l | None => ALL_SENSOR_MODEL_TYPES end.

(** sensor_model_factory.py:127-133. *)
Definition approximate_from_gdal (md : Metadata) : res (option M) :=
  do a <- (if selected (selection md) TAFFINE
           then match md_geo_transform md with
                | Some gt => b_affine bs gt (md_proj_wkt md)
                | None => Ok None
                end
           else Ok None);
  if selected (selection md) TPROJECTIVE
  then match md_gcps md with
       | Some gcps => if Nat.ltb 3 (List.length gcps) then b_gcp bs gcps else Ok a
       | None => Ok a
       end
  else Ok a.

(** sensor_model_factory.py:159-164 and 174-179. *)
Definition wrap_chip (chip : option Facade) (m : option M) : res (option M) :=
  match m, chip with
  | Some m, Some f => do c <- b_chip bs (full_image_coordinates f) (chipped_image_coordinates f) m; Ok (Some c)
  | _, _ => Ok m
  end.

(** sensor_model_factory.py:135-179: (approximate, precision). *)
Definition models_from_tres (md : Metadata) (tres : Element) (approximate : option M) : res (option M * option M) :=
  do info <- (match find_named tres "tre" "ICHIPB" with
              | None => Ok (None, md_width md, md_height md)
              | Some tre => let f := make_facade cv tre in
                  do w <- attribute (full_image_width f); do h <- attribute (full_image_height f); Ok (Some f, w, h)
              end);
  let '(chip, w, h) := info in
  do rsm <- (if selected (selection md) TRSM then b_rsm bs tres else Ok None);
  do rpc <- (match rsm with
             | Some m => Ok (Some m)
             | None => if selected (selection md) TRPC then b_rpc bs tres else Ok None
             end);
  do precision <- wrap_chip chip rpc;
  do approximate <- (if selected (selection md) TPROJECTIVE
                     then match find_named tres "tre" "CSCRNA" with
                          | None => Ok approximate
                          | Some _ => do p <- b_projective bs tres w h; wrap_chip chip p
                          end
                     else Ok approximate);
  Ok (approximate, precision).

(** sensor_model_factory.py:189-201: the loop over the segments; [precision] is kept when no segment
    applies. *)
Fixpoint precision_from_segments (sicd_selected : bool) (segments : list Element) (precision : option M) : res (option M) :=
  match segments with
  | [] => Ok precision
  | s :: r =>
      do xml <- extract_desdata_xml decode tostring s;
      match xml with
      | None | Some EmptyString => precision_from_segments sicd_selected r precision
      | Some x => if contains "SIDD" x then Ok (b_sidd bs x)
                  else if (contains "SICD" x && sicd_selected)%bool then Ok (b_sicd bs x)
                  else precision_from_segments sicd_selected r precision
      end
  end.

(** sensor_model_factory.py:206-214. *)
Definition combine_models (approximate precision : option M) : option M :=
  match approximate, precision with
  | Some a, Some p => Some (b_composite bs a p)
  | _, Some p => Some p
  | a, None => a
  end.

(** sensor_model_factory.py:116-214 [build]. *)
Definition factory_build (md : Metadata) : res (option M) :=
  do approximate <- approximate_from_gdal md;
  do models <- (match md_tres md with
                | None => Ok (approximate, None)
                | Some tres => models_from_tres md tres approximate
                end);
  do precision <- (match md_dess md with
                   | None | Some [] => Ok (snd models)
                   | Some lists => precision_from_segments (selected (selection md) TSICD)
                                     (get_segments_by_name lists "XML_DATA_CONTENT") (snd models)
                   end);
  Ok (combine_models (fst models) precision).
End Factory.

(** *** load_gdal_dataset *)

(** A GDAL dataset as load_gdal_dataset sees it (gdal_utils.py:37-49); [ds_tres] is the list of
    xml:TRE documents. *)
Record Dataset := mkDataset {
  ds_width : Z; ds_height : Z; ds_tres : option (list string); ds_dess : option (list string);
  ds_geo_transform : option (list R); ds_proj_wkt : option string; ds_gcps : option (list Gcp) }.
Section Load.
Variable M : Type.
Variable bs : Builders M.
Variable cv : Conv.
Variable decode : string -> res string.
Variable tostring : Element -> string.
(** defusedxml.ElementTree.fromstring. *)
Variable parse : string -> res Element.
(** str.strip(). *)
Variable trim : string -> string.
(** gdal.Open. *)
Variable open_dataset : string -> res (option Dataset).

(** gdal_utils.py:19-70 [load_gdal_dataset].  Simplification: the DES documents are parsed before the
    factory runs instead of in the middle of build, which changes nothing but which of two errors
    is reported. *)
Definition load_gdal_dataset (path : string) : res (Dataset * option M) :=
  match open_dataset path with
  | Ok None | Err RuntimeError => Err ValueError
  | Err e => Err e
  | Ok (Some ds) =>
      do tres <- (match ds_tres ds with
                  | Some (t :: _) => do e <- parse t; Ok (Some e)
                  | _ => Ok None
                  end);
      do dess <- (match ds_dess ds with
                  | None => Ok None
                  | Some l => do es <- map_res (fun s => parse (trim (strip_prologs s))) l; Ok (Some es)
                  end);
      do m <- factory_build M bs cv decode tostring
                (mkMetadata (ds_width ds) (ds_height ds) tres dess (ds_geo_transform ds) (ds_proj_wkt ds) (ds_gcps ds)
                   (Some [TAFFINE; TPROJECTIVE; TRPC; TSICD; TRSM]));
      Ok (ds, m)
  end.
End Load.

(** *** The builders of the project *)
Section Concrete.
Variable to_geocentric : Geodetic -> Vec.
Variable rsm_minimize : (R * R -> res R) -> R * R -> option Bounds -> list (R * R) -> res (R * R).
(** pyproj.Transformer.from_crs for a non-empty WKT (gdal_sensor_model.py:55-59). *)
Variable crs_of : string -> res Crs.

Definition rsm_built_sensor (b : RsmBuilt) : Sensor :=
  match b with
  | OnePolynomial m => rsm_sensor to_geocentric rsm_minimize m
  | SectionedPolynomials s => sectioned_sensor to_geocentric
      (mkSectioned (ss_ground s) (ss_image s) (ss_rows s) (ss_cols s) (ss_row_size s) (ss_col_size s) (ss_row_poly s) (ss_col_poly s)
         (List.map (List.map (rsm_sensor to_geocentric rsm_minimize)) (ss_grid s)))
  end.
(** gdal_sensor_model_builder.py:31-39 [GDALAffineSensorModelBuilder.build] with
    gdal_sensor_model.py:52-59. *)
Definition affine_build (gt : list R) (wkt : option string) : res (option Sensor) :=
  do plain <- make_affine gt None;
  match wkt with
  | None | Some EmptyString => Ok (Some (affine_sensor plain))
  | Some w => do crs <- crs_of w; do m <- make_affine gt (Some crs); Ok (Some (affine_sensor m))
  end.
Definition map_option {A B} (f : A -> B) (r : res (option A)) : res (option B) :=
  do o <- r; Ok (option_map f o).
End Concrete.
