(** Image file name extensions.
    Source: src/aws/osml/gdal/gdal_utils.py:182-261.
    Simplifications: strings of 8-bit characters, of which only the ASCII letters have two cases;
    str.strip removes ASCII white space; gdal.Info and the driver registry are arbitrary (the registry
    gives every driver a long name). *)
Require Import NArith String Ascii List Bool.
Require Import Verif.Base Verif.Text Verif.BuilderModel.
Import ListNotations.
Local Open Scope string_scope.

(** gdal_utils.py:197-212 [select_extension]: the loop after its first round. *)
Fixpoint select_later (image_path : string) (extensions : list string) (selected : string) : string :=
  match extensions with
  | [] => selected
  | e :: r => select_later image_path r
                (if contains (upper ("." ++ e)) (upper image_path) then upper e else selected)
  end.
(** gdal_utils.py:197-212 [select_extension]. *)
Definition select_extension (image_path : string) (extensions : list string) : string :=
  match extensions with
  | [] => "UNKNOWN"
  | e :: r => select_later image_path r (upper e)
  end.

(** re.search of any of the words, ignoring case. *)
Definition search (words : list string) (s : string) : bool := existsb (fun w => contains w (upper s)) words.
(** gdal_utils.py:215-230 [normalize_extension]; ni?tf, tif{1,2} and jpe?g spelled out. *)
Definition normalize_extension (extension : string) : string :=
  let s := upper extension in
  if search ["NITF"; "NTF"] s then "NITF"
  else if search ["TIF"; "TIFF"] s then "TIFF"
  else if search ["JPEG"; "JPG"] s then "JPEG"
  else s.

(** str.strip() *)
Definition is_space (c : ascii) : bool :=
  let n := N_of_ascii c in (((9 <=? n) && (n <=? 13)) || ((28 <=? n) && (n <=? 32)))%N%bool.
Fixpoint lstrip (s : string) : string :=
  match s with String c r => if is_space c then lstrip r else s | EmptyString => "" end.
Fixpoint rstrip (s : string) : string :=
  match s with
  | EmptyString => ""
  | String c r => match rstrip r with
                  | EmptyString => if is_space c then "" else String c ""
                  | r' => String c r'
                  end
  end.
Definition strip (s : string) : string := rstrip (lstrip s).
(** s.split(" ") *)
Fixpoint split_space (s : string) : list string :=
  match s with
  | EmptyString => [""]
  | String c r => if Ascii.eqb c " " then "" :: split_space r
                  else match split_space r with
                       | w :: ws => String c w :: ws
                       | [] => [String c ""]
                       end
  end.
(** A driver: DMD_LONGNAME and DMD_EXTENSIONS. *)
Record Driver := mkDriver { driver_long_name : string; driver_extensions : option string }.
(** gdal_utils.py:247-261 [get_gdal_driver_extensions]: the dictionary as a list whose last entry for
    a key counts. *)
Definition get_gdal_driver_extensions (drivers : list Driver) : list (string * list string) :=
  flat_map (fun d => match driver_extensions d with
                     | None | Some "" => []
                     | Some e => [(driver_long_name d, split_space (strip e))]
                     end) drivers.
(** gdal_utils.py:233-244 [get_extensions_from_driver]; [info] is gdal.Info(...).get("driverLongName"). *)
Definition get_extensions_from_driver (drivers : list Driver) (info : option string) : list string :=
  match info with
  | None => []
  | Some name => match List.find (fun p => String.eqb (fst p) name) (rev (get_gdal_driver_extensions drivers)) with
                 | Some p => snd p
                 | None => []
                 end
  end.
(** gdal_utils.py:182-194 [get_image_extension]; [info] is gdal.Info(image_path).get("driverLongName") or
    the exception for a file that GDAL cannot open. *)
Definition get_image_extension (drivers : list Driver) (info : string -> res (option string)) (image_path : string) : res string :=
  bind (info image_path) (fun name =>
  Ok (normalize_extension (select_extension image_path (get_extensions_from_driver drivers name)))).
