(** Vocabulary of the configuration properties (C46). *)
Require Import String List Ascii NArith.
Require Import Verif.Base Verif.Text Verif.ConfigModel.
Import ListNotations.

(** The names of the dictionary are different options to GDAL. *)
Definition distinct (g : Gdal) {A} (o : Dict A) : Prop := NoDup (List.map (fold g) (keys o)).
(** [k] is another spelling of one of the names in [o]. *)
Definition names (g : Gdal) {A} (o : Dict A) (k : string) : Prop := In (fold g k) (List.map (fold g) (keys o)).
(** Nobody can tell the two states apart by asking for options. *)
Definition same (g : Gdal) (a b : Options) : Prop := forall k, get_option g a k = get_option g b k.
(** Environment variables do not distinguish spellings that GDAL takes for one option. *)
Definition env_folded (g : Gdal) : Prop := forall a b, fold g a = fold g b -> getenv g a = getenv g b.

(** A program whose own statements leave the options alone and whose dictionaries name each
    option once. *)
Fixpoint quiet (g : Gdal) (s : stmt) : Prop :=
  match s with
  | Run f => forall st, same g (fst (f st)) st
  | Then a b => quiet g a /\ quiet g b
  | With o b => distinct g o /\ quiet g b
  end.

(** GDAL's own comparison: ASCII letters without regard to case. *)
Definition plain_gdal : Gdal := mkGdal upper (fun _ => None).
Definition nothing_set : Options := fun _ => None.

(** What the default configuration is meant to be. *)
Definition default_values : list (string * string) :=
  [ ("VSI_CACHE", "YES"); ("VSI_CACHE_SIZE", "10000000000"); ("GDAL_DISABLE_READDIR_ON_OPEN", "EMPTY_DIR");
    ("GDAL_CACHEMAX", "75%"); ("GDAL_NUM_THREADS", "1"); ("GDAL_GCPS_TO_GEOTRANSFORM_APPROX_OK", "YES");
    ("GDAL_MAX_DATASET_POOL_SIZE", "1000"); ("BIGTIFF_OVERVIEW", "YES"); ("USE_TILE_AS_BLOCK", "YES"); ("CPL_DEBUG", "OFF");
    ("CPL_VSIL_CURL_CHUNK_SIZE", "10485760"); ("CPL_VSIL_CURL_CACHE_SIZE", "5242880000") ]%string.
