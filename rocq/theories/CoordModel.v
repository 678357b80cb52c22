(** Model of coordinate formatting and DEM tile naming.
    Source: src/aws/osml/photogrammetry/coordinates.py (GeodeticWorldCoordinate),
            src/aws/osml/photogrammetry/generic_dem_tile_set.py,
            src/aws/osml/photogrammetry/srtm_dem_tile_set.py,
            src/aws/osml/image_processing/gdal_tile_factory.py (_create_new_igeolo).
    Simplifications: binary64 arithmetic is replaced by exact reals; [str] of a
    float is the section variable [show_float]. *)
Require Import ZArith NArith Reals String Ascii List.
Require Import Verif.Base Verif.Text.
Require Export Verif.TileModel.
Import ListNotations.
Local Open Scope R_scope.

(** [np.degrees] / [math.degrees] and [math.radians], exactly. *)
Definition degrees (r : R) : R := r * 180 / PI.
Definition radians (d : R) : R := d * PI / 180.

(** Python's [int] on a float: truncation towards zero. *)
Definition py_int (r : R) : Z := if Rlt_dec r 0 then Rceil r else Rfloor r.

(** Round to the nearest integer, ties to even ([numpy.rint]). *)
Definition rint (r : R) : Z :=
  let f := Rfloor r in
  if Rlt_dec (r - IZR f) (1 / 2) then f
  else if Rlt_dec (1 / 2) (r - IZR f) then (f + 1)%Z
  else if Z.even f then f else (f + 1)%Z.

(** [round(x, 6)] on a numpy float. *)
Definition round6 (r : R) : R := IZR (rint (r * 1000000)) / 1000000.

(** Sign split, degrees, minutes and seconds of one angle. *)
Record dms := mkDms { dms_neg : bool; dms_abs : R; dms_d : Z; dms_m : Z; dms_s : Z }.

(** coordinates.py:157-164 (latitude) and 166-173 (longitude): the same statements. *)
Definition split_dms (angle : R) : dms :=
  let deg := degrees angle in
  let neg := if Rlt_dec deg 0 then true else false in
  let deg := if Rlt_dec deg 0 then deg * -1 else deg in
  let d := py_int deg in
  let m := py_int (round6 (deg - IZR d) * 60) in
  let s := py_int (round6 (deg - IZR d - IZR m / 60) * 3600) in
  mkDms neg deg d m s.

Section Format.
(** [str(float)]. *)
Variable show_float : R -> string.

Definition percent : ascii := "%"%char.

(** coordinates.py:186 and 203: [format_spec[i + 1] in ["d", "m", "s", "h", "H"]]. *)
Definition is_part (c : ascii) : bool :=
  existsb (Ascii.eqb c) ["d"; "m"; "s"; "h"; "H"]%char.

(** coordinates.py:189-199 and 206-216: text of one part; [w] is the width of the
    degrees field, [lo]/[up] the hemisphere letters. *)
Definition part_text (a : dms) (w : nat) (pos neg pos_l neg_l : string) (p : ascii) : string :=
  if Ascii.eqb p "d" then fmt0 w (dms_d a)
  else if Ascii.eqb p "m" then fmt0 2 (dms_m a)
  else if Ascii.eqb p "s" then fmt0 2 (dms_s a)
  else if Ascii.eqb p "h" then (if dms_neg a then neg_l else pos_l)
  else (if dms_neg a then neg else pos).

Definition lat_part (w : Geodetic) : ascii -> string :=
  part_text (split_dms (latitude w)) 2 "N" "S" "n" "s".
Definition lon_part (w : Geodetic) : ascii -> string :=
  part_text (split_dms (longitude w)) 3 "E" "W" "e" "w".

(** coordinates.py:175-226: the while loop over the format specification, as
    recursion on the rest of the specification. *)
Fixpoint format_loop (w : Geodetic) (spec : string) : string :=
  match spec with
  | EmptyString => ""
  | String c rest =>
      if Ascii.eqb c percent then
        match rest with
        | EmptyString => String c (format_loop w rest)
        | String d rest' =>
            if Ascii.eqb d "L" then show_float (latitude w) ++ format_loop w rest'
            else if Ascii.eqb d "O" then show_float (longitude w) ++ format_loop w rest'
            else if Ascii.eqb d "l" then
              match rest' with
              | String p rest'' =>
                  if is_part p then lat_part w p ++ format_loop w rest''
                  else show_float (dms_abs (split_dms (latitude w))) ++ format_loop w rest'
              | EmptyString => show_float (dms_abs (split_dms (latitude w))) ++ format_loop w rest'
              end
            else if Ascii.eqb d "o" then
              match rest' with
              | String p rest'' =>
                  if is_part p then lon_part w p ++ format_loop w rest''
                  else show_float (dms_abs (split_dms (longitude w))) ++ format_loop w rest'
              | EmptyString => show_float (dms_abs (split_dms (longitude w))) ++ format_loop w rest'
              end
            else if Ascii.eqb d "E" then show_float (elevation w) ++ format_loop w rest'
            else if Ascii.eqb d percent then String percent (format_loop w rest')
            else format_loop w rest'
        end
      else String c (format_loop w rest)
  end%string.

(** coordinates.py:153-155: the default specification. *)
Definition default_spec : string := "%ld%lm%ls%lH %od%om%os%oH %E".

(** coordinates.py:153-226 [__format__]. *)
Definition format_coord (w : Geodetic) (spec : string) : string :=
  format_loop w (if String.eqb spec "" then default_spec else spec).

(** coordinates.py:139-148 [to_dms_string]. *)
Definition to_dms_string (w : Geodetic) : string := format_coord w "%ld%lm%ls%lH%od%om%os%oH".

(** gdal_tile_factory.py:490-515 [_create_new_igeolo]; [image_to_world] is the sensor
    model's method on integer pixel coordinates (x, y). *)
Definition create_new_igeolo (image_to_world : Z -> Z -> Geodetic) (x y w h : Z) : string :=
  let corners := [(x, y); (x + w, y); (x + w, y + h); (x, y + h)]%Z in
  String.concat "" (map (fun c => to_dms_string (image_to_world (fst c) (snd c))) corners).

(** generic_dem_tile_set.py:15-40: constructor attributes. *)
Record generic_tile_set := mkGeneric {
  g_format : string; g_min_lat : R; g_max_lat : R; g_min_lon : R; g_max_lon : R }.

(** generic_dem_tile_set.py:15-22: constructor defaults. *)
Definition generic_default : generic_tile_set := mkGeneric "%od%oh/%ld%lh.dt2" (-90) 90 (-180) 180.

(** generic_dem_tile_set.py:42-64 [find_tile_id]. *)
Definition generic_find_tile_id (g : generic_tile_set) (w : Geodetic) : option string :=
  let lon := Rfloor (degrees (longitude w)) in
  let lat := Rfloor (degrees (latitude w)) in
  if Rlt_dec (g_max_lat g) (IZR lat) then None
  else if Rlt_dec (IZR lat) (g_min_lat g) then None
  else if Rlt_dec (g_max_lon g) (IZR lon) then None
  else if Rlt_dec (IZR lon) (g_min_lon g) then None
  else Some (format_coord (mkGeo (radians (IZR lon)) (radians (IZR lat)) 0) (g_format g)).

(** srtm_dem_tile_set.py:15-29: constructor attributes. *)
Record srtm_tile_set := mkSrtm { s_prefix : string; s_version : string; s_extension : string }.

(** srtm_dem_tile_set.py:31-66 [find_tile_id]. *)
Definition srtm_find_tile_id (t : srtm_tile_set) (w : Geodetic) : option string :=
  let lon := Rfloor (degrees (longitude w)) in
  let lat := Rfloor (degrees (latitude w)) in
  if ((lat >? 59) || (lat <? -56))%Z%bool then None
  else
    let lon_dir := (if (lon <? 0)%Z then "w" else "e")%string in
    let lat_dir := (if (lat <? 0)%Z then "s" else "n")%string in
    Some (s_prefix t ++ lat_dir ++ fmt0 2 (Z.abs lat) ++ "_"
          ++ lon_dir ++ fmt0 3 (Z.abs lon) ++ "_" ++ s_version t ++ s_extension t)%string.
End Format.
