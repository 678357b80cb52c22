(** SICD and SIDD metadata: building sensor models from it and updating it for chips.
    Source: src/aws/osml/gdal/sicd_sensor_model_builder.py, gdal/sidd_sensor_model_builder.py,
    image_processing/sicd_updater.py and image_processing/sidd_updater.py.
    Simplifications: the metadata is the dataclass tree that xsdata makes of the XML, restricted
    to the elements the code reads; required elements are present; numbers are exact (Python's
    float(n) of an integer beyond 2^53 would round).  Parsing and rendering XML is not modelled. *)
Require Import ZArith Reals String List Bool.
Require Import Verif.Base Verif.Vec Verif.SicdModel Verif.TransformModel.
Import ListNotations.
Local Open Scope R_scope.

(** *** Python lists *)

(** The position that a Python index means in a list of length [n]. *)
Definition py_index (n : nat) (i : Z) : option nat :=
  if ((0 <=? i) && (i <? Z.of_nat n))%Z then Some (Z.to_nat i)
  else if ((- Z.of_nat n <=? i) && (i <? 0))%Z then Some (Z.to_nat (Z.of_nat n + i))
  else None.
Fixpoint replace_nth {A} (k : nat) (v : A) (l : list A) : list A :=
  match l, k with
  | [], _ => []
  | _ :: r, O => v :: r
  | x :: r, S k' => x :: replace_nth k' v r
  end.
(** l[i] = v. *)
Definition py_set {A} (l : list A) (i : Z) (v : A) : res (list A) :=
  match py_index (List.length l) i with Some k => Ok (replace_nth k v l) | None => Err IndexError end.
(** l[i]. *)
Definition py_get {A} (l : list A) (i : Z) : res A :=
  match py_index (List.length l) i with
  | Some k => match nth_error l k with Some x => Ok x | None => Err IndexError end
  | None => Err IndexError
  end.

(** *** Polynomials (sicd_v1_2_1.py:365-420 and their 1.3.0 and SIDD counterparts) *)
Record Coef1 := mkCoef1 { value1 : R; exponent1 : Z }.
Record Poly1 := mkPoly1 { coefs1 : list Coef1; order1 : Z }.
Record Coef2 := mkCoef2 { value2 : R; exponent2_1 : Z; exponent2_2 : Z }.
Record Poly2 := mkPoly2 { coefs2 : list Coef2; order2_1 : Z; order2_2 : Z }.
Record XyzPoly := mkXyzPoly { poly_x : Poly1; poly_y : Poly1; poly_z : Poly1 }.

(** sicd_sensor_model_builder.py:48-49 and 63-64: the loop over the coefficients. *)
Fixpoint set_all {A B} (set : list A -> B -> res (list A)) (cs : list B) (l : list A) : res (list A) :=
  match cs with
  | [] => Ok l
  | c :: r => bind (set l c) (set_all set r)
  end.
Definition set_coef1 (l : list R) (c : Coef1) : res (list R) := py_set l (exponent1 c) (value1 c).
Definition set_coef2 (l : list (list R)) (c : Coef2) : res (list (list R)) :=
  bind (py_get l (exponent2_1 c)) (fun row =>
  bind (py_set row (exponent2_2 c) (value2 c)) (fun row' => py_set l (exponent2_1 c) row')).

(** sicd_sensor_model_builder.py:40-50 [poly1d_to_native]; numpy rejects an empty list of
    coefficients. *)
Definition poly1d_to_native (p : Poly1) : res (list R) :=
  bind (set_all set_coef1 (coefs1 p) (repeat 0 (Z.to_nat (order1 p + 1)))) (fun l =>
  match l with [] => Err ValueError | _ => Ok l end).

(** sicd_sensor_model_builder.py:53-65 [poly2d_to_native]. *)
Definition poly2d_to_native (p : Poly2) : res (list (list R)) :=
  bind (set_all set_coef2 (coefs2 p) (repeat (repeat 0 (Z.to_nat (order2_2 p + 1))) (Z.to_nat (order2_1 p + 1)))) make_poly2d.

(** sicd_sensor_model_builder.py:68-79 [xyzpoly_to_native]. *)
Definition xyzpoly_to_native (p : XyzPoly) : res PolyXYZ :=
  bind (poly1d_to_native (poly_x p)) (fun x =>
  bind (poly1d_to_native (poly_y p)) (fun y =>
  bind (poly1d_to_native (poly_z p)) (fun z => Ok (mkPolyXYZ x y z)))).

(** *** SICD *)

(** sicd_v1_2_1.py:126-131 and 187-191; 1.3.0 has the same members. *)
Inductive GridType := RGAZIM | RGZERO | XRGYCR | XCTYAT | GridPLANE.
Inductive FormAlgo := AlgoPFA | AlgoRMA | AlgoRGAZCOMP | AlgoOTHER.

Record PfaMeta := mkPfaMeta { fpn : Vec; polar_ang : Poly1; spatial_freq_sf : Poly1 }.
Record IncaMeta := mkIncaMeta { r_ca_scp : R; time_ca : Poly1; drate_sf : Poly2 }.
(** sicd_v1_2_1.py:1990-2030: the numbers of SICD.ImageData that describe a chip. *)
Record ImageData := mkImageData { num_rows : Z; num_cols : Z; first_row : Z; first_col : Z }.
Record SicdMeta := mkSicdMeta {
  image_data : ImageData;
  scp_row : Z; scp_col : Z;
  scp_position : Vec; row_uvect : Vec; col_uvect : Vec; row_spacing : R; col_spacing : R;
  time_coa : Poly2; arppoly : XyzPoly;
  grid_type : GridType; form_algo : FormAlgo;
  pfa_meta : option PfaMeta; az_sf : option R; inca_meta : option IncaMeta;
  arppos : Vec; arpvel : Vec; side : string }.

(** What from_dataclass makes: a complete sensor model, or one whose projection set is None. *)
Inductive Built := Complete (m : Sicd) | NoProjection (c : Converter).

(** An optional element that is read without a check: AttributeError when it is absent. *)
Definition require {A} (o : option A) : res A := match o with Some a => Ok a | None => Err AttributeError end.

(** sicd_sensor_model_builder.py:139-177: the projection set and the ground plane normal.
    [Ok (None, _)] is the branch RGAZIM with another algorithm, which leaves the set at None.
    The offsets and the range bias keep their defaults. *)
Definition projection_set (d : SicdMeta) (coa : list (list R)) (arp : PolyXYZ) : res (option ProjectionSet * option Vec) :=
  let set g := mkProjectionSet g coa arp vzero vzero 0 in
  match grid_type d with
  | RGAZIM =>
    match form_algo d with
    | AlgoPFA =>
      bind (require (pfa_meta d)) (fun p =>
      bind (poly1d_to_native (polar_ang p)) (fun polar =>
      bind (poly1d_to_native (spatial_freq_sf p)) (fun sf =>
      Ok (Some (set (PFA (scp_position d) polar sf)), Some (fpn p)))))
    | AlgoRGAZCOMP => bind (require (az_sf d)) (fun k => Ok (Some (set (RGAZCOMP (scp_position d) k)), None))
    | _ => Ok (None, None)
    end
  | RGZERO =>
    bind (require (inca_meta d)) (fun i =>
    bind (poly1d_to_native (time_ca i)) (fun t =>
    bind (poly2d_to_native (drate_sf i)) (fun r => Ok (Some (set (INCA (r_ca_scp i) t r)), None))))
  | XRGYCR | XCTYAT | GridPLANE => Ok (Some (set (PLANE (scp_position d) (row_uvect d) (col_uvect d))), None)
  end.

(** sicd_sensor_model_builder.py:124-137. *)
Definition sicd_converter (d : SicdMeta) : Converter :=
  mkConverter (mkImage (IZR (scp_col d)) (IZR (scp_row d))) (scp_position d) (row_uvect d) (col_uvect d) (row_spacing d) (col_spacing d)
    (mkImage (IZR (first_col (image_data d))) (IZR (first_row (image_data d)))).

(** sicd_sensor_model_builder.py:115-192 [from_dataclass].  The last else branch (an unknown grid
    type) cannot be reached: the enumeration has no other members. *)
Definition sicd_from_dataclass (d : SicdMeta) : res Built :=
  bind (poly2d_to_native (time_coa d)) (fun coa =>
  bind (xyzpoly_to_native (arppoly d)) (fun arp =>
  bind (projection_set d coa arp) (fun pg =>
  match fst pg with
  | None => Ok (NoProjection (sicd_converter d))
  | Some p =>
    Ok (Complete (mkSicd (sicd_converter d) p (compute_u_spn (scp_position d) (arppos d) (arpvel d) (side d)) (side d) (snd pg)))
  end))).

(** sicd_sensor_model_builder.py:98-113 [build] for metadata that xsdata has parsed: every
    exception is logged and becomes None. *)
Definition sicd_build (d : SicdMeta) : option Built :=
  match sicd_from_dataclass d with Ok b => Some b | Err _ => None end.

(** Using a model without projection set calls a method of None. *)
Definition built_image_to_world tg tc (b : Built) (i : Image) (em : option Terrain) : res (option Geodetic) :=
  match b with Complete m => sicd_image_to_world tg tc m i em | NoProjection _ => Err AttributeError end.
Definition built_world_to_image tg tc (b : Built) (w : Geodetic) : res Image :=
  match b with Complete m => sicd_world_to_image tg tc m w | NoProjection _ => Err AttributeError end.

(** *** SICD updater *)

(** [col, row, width, height] of a chip. *)
Record Bounds := mkBounds { bx : Z; by_ : Z; bw : Z; bh : Z }.
(** A chip request: bounds and optional output size (width, height). *)
Definition request : Type := Bounds * option (Z * Z).

(** sicd_updater.py:19-33 [SICDUpdater.__init__]. *)
Record SicdUpdater := mkSicdUpdater { sicd_doc : SicdMeta; original_first_row : Z; original_first_col : Z }.
Definition sicd_updater (d : SicdMeta) : SicdUpdater :=
  mkSicdUpdater d (first_row (image_data d)) (first_col (image_data d)).

Definition with_image_data (d : SicdMeta) (i : ImageData) : SicdMeta :=
  mkSicdMeta i (scp_row d) (scp_col d) (scp_position d) (row_uvect d) (col_uvect d) (row_spacing d) (col_spacing d)
    (time_coa d) (arppoly d) (grid_type d) (form_algo d) (pfa_meta d) (az_sf d) (inca_meta d) (arppos d) (arpvel d) (side d).

(** sicd_updater.py:35-62 [update_image_data_for_chip]; first rows and columns are integers, so
    floor(float(.)) is the identity. *)
Definition sicd_update (u : SicdUpdater) (q : request) : SicdUpdater * res unit :=
  let b := fst q in
  match snd q with
  | Some (w, h) =>
    if (negb (w =? bw b) || negb (h =? bh b))%Z then (u, Err ValueError) else
    (mkSicdUpdater (with_image_data (sicd_doc u) (mkImageData (bh b) (bw b) (original_first_row u + by_ b) (original_first_col u + bx b)))
       (original_first_row u) (original_first_col u), Ok tt)
  | None =>
    (mkSicdUpdater (with_image_data (sicd_doc u) (mkImageData (bh b) (bw b) (original_first_row u + by_ b) (original_first_col u + bx b)))
       (original_first_row u) (original_first_col u), Ok tt)
  end.
(** The updater after a list of requests, whether they succeed or not. *)
Definition sicd_run (u : SicdUpdater) (qs : list request) : SicdUpdater := fold_left (fun u q => fst (sicd_update u q)) qs u.

(** *** SIDD *)

(** sidd_v1_0_0.py:611-670 [GeometricChipType]: size (col, row) and corners as (col, row). *)
Record GeoChip := mkGeoChip { chip_cols : Z; chip_rows : Z; upper_left : R * R; upper_right : R * R; lower_right : R * R; lower_left : R * R }.
(** The elements of SIDD.Measurement that the builder reads; [chip] is
    DownstreamReprocessing.GeometricChip, None also when DownstreamReprocessing is absent. *)
Record SiddMeta := mkSiddMeta {
  ref_position : Vec; ref_row : R; ref_col : R; plane_urow : Vec; plane_ucol : Vec; spacing_row : R; spacing_col : R;
  sidd_time_coa : Poly2; sidd_arppoly : XyzPoly; chip : option GeoChip }.

(** The full image model, or a ChippedImageSensorModel around it. *)
Record SiddModel := mkSiddModel { sidd_full : Sicd; chip_transform : option Projective }.

Section Sidd_builder.
Variable lstsq : list (list R) -> list R -> res (list R).

(** sidd_sensor_model_builder.py:74-107. *)
Definition sidd_full_model (d : SiddMeta) : res Sicd :=
  bind (poly2d_to_native (sidd_time_coa d)) (fun coa =>
  bind (xyzpoly_to_native (sidd_arppoly d)) (fun arp =>
  let c := mkConverter (mkImage (ref_col d) (ref_row d)) (ref_position d) (plane_urow d) (plane_ucol d) (spacing_row d) (spacing_col d) (mkImage 0 0) in
  let gpn := compute_u_gpn (ref_position d) (plane_urow d) (plane_ucol d) in
  Ok (mkSicd c (mkProjectionSet (PLANE (ref_position d) (plane_urow d) (plane_ucol d)) coa arp vzero vzero 0) gpn "L" (Some gpn)))).

(** sidd_sensor_model_builder.py:117-132: the chip corners as the builder understands them. *)
Definition chip_corners (c : GeoChip) : list (R * R) :=
  [ (0, 0); (IZR (chip_cols c), 0); (IZR (chip_cols c), IZR (chip_rows c)); (0, IZR (chip_rows c)) ].
Definition full_corners (c : GeoChip) : list (R * R) :=
  [ upper_left c; upper_right c; lower_right c; lower_left c ].

(** sidd_sensor_model_builder.py:63-138 [from_dataclass] with the construction of the chipped
    sensor model (chipped_image_sensor_model.py:20-43). *)
Definition sidd_from_dataclass (d : SiddMeta) : res SiddModel :=
  bind (sidd_full_model d) (fun m =>
  match chip d with
  | None => Ok (mkSiddModel m None)
  | Some c => bind (estimate lstsq (full_corners c) (chip_corners c)) (fun t => Ok (mkSiddModel m (Some t)))
  end).
End Sidd_builder.

(** chipped_image_sensor_model.py:45-79 around the SICD model. *)
Definition sidd_image_to_world tg tc (m : SiddModel) (i : Image) (em : option Terrain) : res (option Geodetic) :=
  match chip_transform m with
  | None => sicd_image_to_world tg tc (sidd_full m) i em
  | Some t => let p := inverse1 t (ix i, iy i) in sicd_image_to_world tg tc (sidd_full m) (mkImage (fst p) (snd p)) em
  end.
Definition sidd_world_to_image tg tc (m : SiddModel) (w : Geodetic) : res Image :=
  match chip_transform m with
  | None => sicd_world_to_image tg tc (sidd_full m) w
  | Some t => bind (sicd_world_to_image tg tc (sidd_full m) w) (fun i =>
              let p := forward1 t (ix i, iy i) in Ok (mkImage (fst p) (snd p)))
  end.

(** *** SIDD updater *)

(** sidd_updater.py:147-193 [chipped_coordinate_to_full]; coordinates are (x, y), corners in the
    order upper left, upper right, lower right, lower left.  A size of one divides by zero. *)
Definition chipped_coordinate_to_full (p : R * R) (cols rows : Z) (ul ur lr ll : R * R) : res (R * R) :=
  if (rows =? 1)%Z then Err ZeroDivisionError else
  if (cols =? 1)%Z then Err ZeroDivisionError else
  let u := snd p / (IZR rows - 1) in
  let v := fst p / (IZR cols - 1) in
  let a_r := snd ul in
  let b_r := snd ll - snd ul in
  let d_r := snd ur - snd ul in
  let f_r := snd ul + snd lr - snd ur - snd ll in
  let a_c := fst ul in
  let b_c := fst ll - fst ul in
  let d_c := fst ur - fst ul in
  let f_c := fst ul + fst lr - fst ur - fst ll in
  let r := a_r + u * b_r + v * d_r + u * v * f_r in
  let c := a_c + u * b_c + v * d_c + u * v * f_c in
  Ok (c, r).

Definition with_chip (d : SiddMeta) (c : GeoChip) : SiddMeta :=
  mkSiddMeta (ref_position d) (ref_row d) (ref_col d) (plane_urow d) (plane_ucol d) (spacing_row d) (spacing_col d)
    (sidd_time_coa d) (sidd_arppoly d) (Some c).

(** sidd_updater.py:29-135 [update_image_data_for_chip]: the new document.  The three SIDD versions
    have equal chip types; which one is instantiated is not modelled. *)
Definition sidd_update_doc (d : SiddMeta) (q : request) : res SiddMeta :=
  let b := fst q in
  let size := match snd q with None => (bw b, bh b) | Some s => s end in
  let x0 := IZR (bx b) in let y0 := IZR (by_ b) in
  let x1 := IZR (bx b + bw b - 1) in let y1 := IZR (by_ b + bh b - 1) in
  let to_full p := match chip d with
                   | None => Ok p
                   | Some c => chipped_coordinate_to_full p (chip_cols c) (chip_rows c) (upper_left c) (upper_right c) (lower_right c) (lower_left c)
                   end in
  bind (to_full (x0, y0)) (fun ul =>
  bind (to_full (x1, y0)) (fun ur =>
  bind (to_full (x1, y1)) (fun lr =>
  bind (to_full (x0, y1)) (fun ll =>
  Ok (with_chip d (mkGeoChip (fst size) (snd size) ul ur lr ll)))))).

(** The updater keeps one document and overwrites it (sidd_updater.py:24-27 and 121). *)
Definition sidd_update (d : SiddMeta) (q : request) : SiddMeta * res unit :=
  match sidd_update_doc d q with Ok d' => (d', Ok tt) | Err e => (d, Err e) end.
Definition sidd_run (d : SiddMeta) (qs : list request) : SiddMeta := fold_left (fun d q => fst (sidd_update d q)) qs d.
