(** Elevation tiles read with GDAL.
    Source: src/aws/osml/gdal/gdal_dem_tile_factory.py.
    Simplifications: as in DemModel and TransformModel; an opened dataset has at least one row;
    logging is left out. *)
Require Import Reals String List.
Require Import Verif.Base Verif.Vec Verif.SensorBase Verif.TransformModel Verif.DemModel.
Import ListNotations.
Local Open Scope R_scope.

(** What the code asks of an opened dataset: geotransform, first band as array, the band's (min,
    max) statistics and its no-data value. *)
Record DemDataset := mkDemDataset {
  dd_transform : option (list R); dd_array : raster; dd_stats : R * R; dd_no_data : option R }.

(** world_to_image of the affine sensor model, which never raises. *)
Definition pixel_of (m : Affine) : sensor :=
  fun w => match affine_world_to_image m w with Ok i => (ix i, iy i) | Err _ => (0, 0) end.

Section Factory.
(** gdal.Open: None when there is no such file, or RuntimeError if GDAL's exceptions are enabled. *)
Variable gdal_open : string -> res (option DemDataset).
(** coordinates.py:258-275 [geodetic_to_geocentric] (pyproj). *)
Variable to_geocentric : Geodetic -> Vec.

(** gdal_dem_tile_factory.py:68-74. *)
Definition approximate_post_spacing (m : Affine) (width height : R) : res R :=
  bind (affine_image_to_world m (mkImage 0 0) None None) (fun ul =>
  bind (affine_image_to_world m (mkImage width height) None None) (fun lr =>
  Ok (vnorm (vsub (to_geocentric ul) (to_geocentric lr)) / sqrt (width * width + height * height)))).

(** gdal_dem_tile_factory.py:36-84 [get_tile]. *)
Definition gdal_get_tile (directory path : string) : res Tile :=
  bind (gdal_open (tile_location directory path)) (fun opened =>
  match opened with
  | None => Ok (mkLoaded None None None)
  | Some ds =>
      match dd_transform ds with
      | None => Ok (mkLoaded None None None)
      | Some t =>
          let a := dd_array ds in
          bind (make_affine t None) (fun m =>
          bind (approximate_post_spacing m (INR (List.length (hd [] a))) (INR (List.length a))) (fun spacing =>
          Ok (mkLoaded (Some a) (Some (pixel_of m))
                (Some (mkSummary (fst (dd_stats ds)) (snd (dd_stats ds)) (dd_no_data ds) spacing)))))
      end
  end).
End Factory.
