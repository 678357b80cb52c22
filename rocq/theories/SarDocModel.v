(** SICD and SIDD documents as the sensor model builders and the updaters read and change them.
    Source: src/aws/osml/gdal/sicd_sensor_model_builder.py:30-192, gdal/sidd_sensor_model_builder.py:63-138,
    image_processing/sicd_updater.py:19-72 and image_processing/sidd_updater.py:17-145, on the objects
    of SchemaModel.v.  The results are the records of SarMetaModel.v, which the models of the builders
    and updaters there start from.
    Simplifications: a number that is absent or is a text is an error where the code reads it (numpy
    would make an array of objects or of texts of it, which fails where it is used); of the chip
    coordinates only their values are kept (an integer and the float equal to it are the same number). *)
Require Import ZArith Reals String List Bool.
Require Import Verif.Base Verif.Vec Verif.SicdModel Verif.SarMetaModel Verif.SchemaModel.
Import ListNotations.
Local Open Scope string_scope.

Section Documents.
Context {F D T : Type}.
Notation Obj := (Obj F D T).
Notation Value := (Value F D T).
(** The number that a float is. *)
Variable num : F -> R.
Variable S : Schema.

Definition value_number (v : Value) : res R :=
  match v with VFloat f => Ok (num f) | VInt z => Ok (IZR z) | _ => Err TypeError end.
Definition number (o : Obj) : res R := match o with Leaf v => value_number v | Inst _ _ => Err TypeError end.
Definition integer (o : Obj) : res Z := match o with Leaf (VInt z) => Ok z | _ => Err TypeError end.
(** .value of a member of an enumeration. *)
Definition enum_value (o : Obj) : res string := match o with Leaf (VEnum _ m) => Ok m | _ => Err AttributeError end.
Definition get_number (o : Obj) (a : string) : res R := bind (get S o a) number.
Definition get_integer (o : Obj) (a : string) : res Z := bind (get S o a) integer.
Definition get_enum (o : Obj) (a : string) : res string := bind (get S o a) enum_value.

(** sicd_sensor_model_builder.py:30-37 [xyztype_to_ndarray]. *)
Definition vector (o : Obj) : res Vec :=
  bind (get_number o "x") (fun x => bind (get_number o "y") (fun y => bind (get_number o "z") (fun z => Ok (mkVec x y z)))).
(** sicd_sensor_model_builder.py:47-49: what is read of a polynomial of one variable. *)
Definition coef1 (o : Obj) : res Coef1 :=
  bind (get_integer o "exponent1") (fun e => bind (get_number o "value") (fun v => Ok (mkCoef1 v e))).
Definition poly1 (o : Obj) : res Poly1 :=
  bind (get_integer o "order1") (fun n => bind (get_slot S o "coef") (fun cs => bind (collect coef1 cs) (fun l => Ok (mkPoly1 l n)))).
(** sicd_sensor_model_builder.py:60-64: what is read of a polynomial of two variables. *)
Definition coef2 (o : Obj) : res Coef2 :=
  bind (get_integer o "exponent1") (fun i => bind (get_integer o "exponent2") (fun j => bind (get_number o "value") (fun v => Ok (mkCoef2 v i j)))).
Definition poly2 (o : Obj) : res Poly2 :=
  bind (get_integer o "order1") (fun n => bind (get_integer o "order2") (fun m =>
  bind (get_slot S o "coef") (fun cs => bind (collect coef2 cs) (fun l => Ok (mkPoly2 l n m))))).
(** sicd_sensor_model_builder.py:68-79 [xyzpoly_to_native]. *)
Definition xyzpoly (o : Obj) : res XyzPoly :=
  bind (bind (get S o "x") poly1) (fun x => bind (bind (get S o "y") poly1) (fun y => bind (bind (get S o "z") poly1) (fun z => Ok (mkXyzPoly x y z)))).

Definition or_none {A} (r : res A) : option A := match r with Ok a => Some a | Err _ => None end.
Definition or_zero (r : res Z) : Z := match r with Ok z => z | Err _ => 0%Z end.

(** sicd_sensor_model_builder.py:141-168: the values the branches test for. *)
Definition grid_type_of (m : string) : option GridType :=
  if String.eqb m "RGAZIM" then Some RGAZIM else if String.eqb m "RGZERO" then Some RGZERO
  else if String.eqb m "PLANE" then Some GridPLANE else if String.eqb m "XCTYAT" then Some XCTYAT
  else if String.eqb m "XRGYCR" then Some XRGYCR else None.
Definition form_algo_of (m : string) : FormAlgo :=
  if String.eqb m "PFA" then AlgoPFA else if String.eqb m "RGAZCOMP" then AlgoRGAZCOMP else if String.eqb m "RMA" then AlgoRMA else AlgoOTHER.

(** sicd_sensor_model_builder.py:143-150 and 156-161: the parts that only some branches read. *)
Definition pfa_of (o : Obj) : res PfaMeta :=
  bind (get S o "pfa") (fun p => bind (bind (get S p "fpn") vector) (fun n =>
  bind (bind (get S p "polar_ang_poly") poly1) (fun a => bind (bind (get S p "spatial_freq_sfpoly") poly1) (fun f => Ok (mkPfaMeta n a f))))).
Definition az_sf_of (o : Obj) : res R := bind (get S o "rg_az_comp") (fun p => get_number p "az_sf").
Definition inca_of (o : Obj) : res IncaMeta :=
  bind (get S o "rma") (fun m => bind (get S m "inca") (fun i =>
  bind (get_number i "r_ca_scp") (fun r => bind (bind (get S i "time_capoly") poly1) (fun t =>
  bind (bind (get S i "drate_sfpoly") poly2) (fun d => Ok (mkIncaMeta r t d)))))).

(** sicd_sensor_model_builder.py:115-192: everything [from_dataclass] reads of a document.  The
    algorithm is looked at only for the grid RGAZIM.  NumRows and NumCols are not read; they are kept
    because the updater writes them. *)
Definition sicd_meta (o : Obj) : res SicdMeta :=
  bind (get_path S o ["geo_data"; "scp"; "ecf"]) (fun e => bind (vector e) (fun scp =>
  bind (get S o "image_data") (fun im =>
  bind (get S im "scppixel") (fun px => bind (get_integer px "col") (fun sc => bind (get_integer px "row") (fun sr =>
  bind (get S o "grid") (fun g =>
  bind (bind (get S g "time_coapoly") poly2) (fun coa =>
  bind (bind (get_path S o ["position"; "arppoly"]) xyzpoly) (fun arp =>
  bind (get S g "row") (fun gr => bind (get S g "col") (fun gc =>
  bind (bind (get S gr "uvect_ecf") vector) (fun ur => bind (bind (get S gc "uvect_ecf") vector) (fun uc =>
  bind (get_number gr "ss") (fun rs => bind (get_number gc "ss") (fun cs =>
  bind (get_integer im "first_col") (fun fc => bind (get_integer im "first_row") (fun fr =>
  bind (get_enum g "type_value") (fun tv =>
  match grid_type_of tv with
  | None => Err OtherError
  | Some t =>
    bind (match t, get_path S o ["image_formation"; "image_form_algo"] with
          | RGAZIM, Err e => Err e
          | RGAZIM, Ok a => bind (enum_value a) (fun m => Ok (form_algo_of m))
          | _, Ok a => Ok (match enum_value a with Ok m => form_algo_of m | Err _ => AlgoOTHER end)
          | _, Err _ => Ok AlgoOTHER
          end) (fun algo =>
    bind (get S o "scpcoa") (fun coa_ => bind (bind (get S coa_ "arppos") vector) (fun pos => bind (bind (get S coa_ "arpvel") vector) (fun vel =>
    bind (get_enum coa_ "side_of_track") (fun side =>
    Ok (mkSicdMeta (mkImageData (or_zero (get_integer im "num_rows")) (or_zero (get_integer im "num_cols")) fr fc) sr sc scp ur uc rs cs
          coa arp t algo (or_none (pfa_of o)) (or_none (az_sf_of o)) (or_none (inca_of o)) pos vel side))))))
  end)))))))))))))))))).

(** sicd_updater.py:35-62 [update_image_data_for_chip] on the document [o], for the first row and
    column that __init__ (sicd_updater.py:19-33) has kept. *)
Definition sicd_update_object (row0 col0 : Z) (o : Obj) (q : request) : res Obj :=
  let b := fst q in
  if match snd q with Some (w, h) => (negb (w =? bw b) || negb (h =? bh b))%Z | None => false end then Err ValueError else
  bind (get S o "image_data") (fun im =>
  bind (set_slot S im "first_row" [Leaf (VInt (row0 + by_ b))]) (fun im =>
  bind (set_slot S im "first_col" [Leaf (VInt (col0 + bx b))]) (fun im =>
  bind (set_slot S im "num_rows" [Leaf (VInt (bh b))]) (fun im =>
  bind (set_slot S im "num_cols" [Leaf (VInt (bw b))]) (fun im =>
  set_slot S o "image_data" [im]))))).

(** The document afterwards; only an absent ImageData or a document of another class can stop the
    update halfway. *)
Definition sicd_step_object (row0 col0 : Z) (o : Obj) (q : request) : Obj * res unit :=
  match sicd_update_object row0 col0 o q with Ok o' => (o', Ok tt) | Err e => (o, Err e) end.
Definition sicd_run_object (row0 col0 : Z) (o : Obj) (qs : list request) : Obj := fold_left (fun o q => fst (sicd_step_object row0 col0 o q)) qs o.

(** *** SIDD *)

Definition corner (o : Obj) : res (R * R) := bind (get_number o "col") (fun c => bind (get_number o "row") (fun r => Ok (c, r))).
(** sidd_sensor_model_builder.py:109-132: the chip, None when either element is absent. *)
Definition chip_of (o : Obj) : res (option GeoChip) :=
  bind (get_slot S o "downstream_reprocessing") (fun ds =>
  match ds with
  | [d] =>
    bind (get_slot S d "geometric_chip") (fun cs =>
    match cs with
    | [g] =>
      bind (get S g "chip_size") (fun size => bind (get_integer size "row") (fun rows => bind (get_integer size "col") (fun cols =>
      bind (bind (get S g "original_upper_left_coordinate") corner) (fun ul => bind (bind (get S g "original_upper_right_coordinate") corner) (fun ur =>
      bind (bind (get S g "original_lower_right_coordinate") corner) (fun lr => bind (bind (get S g "original_lower_left_coordinate") corner) (fun ll =>
      Ok (Some (mkGeoChip cols rows ul ur lr ll)))))))))
    | _ => Ok None
    end)
  | _ => Ok None
  end).
(** sidd_sensor_model_builder.py:74-138: everything [from_dataclass] reads of a document. *)
Definition sidd_meta (o : Obj) : res SiddMeta :=
  bind (get S o "measurement") (fun m => bind (get S m "plane_projection") (fun p =>
  bind (get S p "reference_point") (fun rp => bind (bind (get S rp "ecef") vector) (fun e =>
  bind (bind (get S rp "point") corner) (fun pt =>
  bind (bind (get S p "time_coapoly") poly2) (fun coa => bind (bind (get S m "arppoly") xyzpoly) (fun arp =>
  bind (get S p "product_plane") (fun pp => bind (bind (get S pp "row_unit_vector") vector) (fun ur => bind (bind (get S pp "col_unit_vector") vector) (fun uc =>
  bind (bind (get S p "sample_spacing") corner) (fun sp =>
  bind (chip_of o) (fun c =>
  Ok (mkSiddMeta e (snd pt) (fst pt) ur uc (snd sp) (fst sp) coa arp c))))))))))))).

(** sidd_updater.py:66-75: the types the updater makes objects of: DownstreamReprocessingType,
    GeometricChipType, RowColIntType and RowColDoubleType under the names they have in the module of
    the document's version (the last two come from sicommon_types.py or sicommon_types_v1_0.py). *)
Definition chip_classes (c : string) : string * string * string * string :=
  if String.eqb c "sidd100.SIDD" then ("sidd100.DownstreamReprocessingType", "sidd100.GeometricChipType", "common01.RowColIntType", "common01.RowColDoubleType")
  else if String.eqb c "sidd200.SIDD" then ("sidd200.DownstreamReprocessingType", "sidd200.GeometricChipType", "common10.RowColIntType", "common10.RowColDoubleType")
  else ("sidd300.DownstreamReprocessingType", "sidd300.GeometricChipType", "common10.RowColIntType", "common10.RowColDoubleType").
(** A call of a dataclass with keyword arguments. *)
Definition construct (c : string) (args : list (string * list Obj)) : Obj :=
  match find_class S c with
  | None => Inst c []
  | Some k => Inst c (map (fun f => match find (fun p => String.eqb (fst p) (attr f)) args with Some p => snd p | None => default_slot (default f) end) (c_fields k))
  end.
Definition row_col (c : string) (row col : Value) : Obj := construct c [("row", [Leaf row]); ("col", [Leaf col])].
(** sidd_updater.py:77-79 and 117-135: DownstreamReprocessing is made when it is absent, and gets the
    new chip; sizes and corners are (col, row). *)
Definition sidd_put_chip (o : Obj) (size : Z * Z) (ul ur lr ll : Value * Value) : res Obj :=
  match o with
  | Leaf _ => Err AttributeError
  | Inst c _ =>
    let '(ds_class, chip_class, int_class, double_class) := chip_classes c in
    bind (get_slot S o "downstream_reprocessing") (fun ds =>
    let d := match ds with [d] => d | _ => construct ds_class [] end in
    let point p := [row_col double_class (snd p) (fst p)] in
    bind (set_slot S d "geometric_chip"
            [construct chip_class [ ("chip_size", [row_col int_class (VInt (snd size)) (VInt (fst size))]);
               ("original_upper_left_coordinate", point ul); ("original_upper_right_coordinate", point ur);
               ("original_lower_left_coordinate", point ll); ("original_lower_right_coordinate", point lr) ]])
         (fun d' => set_slot S o "downstream_reprocessing" [d']))
  end.
End Documents.
