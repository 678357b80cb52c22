(** Encoded tiles.
    Source: src/aws/osml/image_processing/gdal_tile_factory.py:30-147 and 517-581.
    Simplifications: window and size are integers; GDAL (Translate and the /vsimem file operations)
    and the SAR updaters are arbitrary; GetDriverByName finds the driver of the tile format; the file
    name's extension (which depends on the Python version) is an arbitrary text per format. *)
Require Import ZArith Reals String Ascii List Bool.
Require Import Verif.Base Verif.Text Verif.CoordModel Verif.DisplayModel Verif.SarMetaModel Verif.TreModel Verif.BuilderModel.
Import ListNotations.
Local Open Scope string_scope.

(** gdal/typing.py:6-28 *)
Inductive Compression := CNone | CJpeg | CJ2k | CLzw.
Inductive Format := Nitf | Jpeg | Png | Gtiff.

(** gdal_tile_factory.py:539-577: creation options by format, compression and output type. *)
Definition creation_options (f : Format) (c : option Compression) (t : GdalType) : list string :=
  match f with
  | Nitf => match c with
            | None | Some CJ2k => match t with Float32 | Float64 => ["IC=NC"] | _ => ["IC=C8"] end
            | Some CJpeg => ["IC=C3"]
            | Some CNone => ["IC=NC"]
            | Some CLzw => ["IC=C8"]
            end
  | Gtiff => match c with
             | None | Some CLzw => ["COMPRESS=LZW"]
             | Some CJpeg => ["COMPRESS=JPEG"]
             | Some CNone => ["COMPRESS=NONE"]
             | Some CJ2k => ["COMPRESS=LZW"]
             end
  | Jpeg | Png => []
  end.

(** *** Python objects: the dictionary of keyword arguments and the list it refers to *)
Record Kwargs := mkKwargs {
  kw_scales : list Scale; kw_type : GdalType; kw_format : Format;
  kw_size : option (Z * Z);  (** "width" and "height" *)
  kw_options : nat           (** reference to the list "creationOptions" *)
}.
Record Heap := mkHeap { dicts : list Kwargs; lists : list (list string) }.
Definition no_kwargs : Kwargs := mkKwargs [] Byte Nitf None 0.
Definition get_dict (h : Heap) (d : nat) : Kwargs := nth d (dicts h) no_kwargs.
Definition get_list (h : Heap) (l : nat) : list string := nth l (lists h) [].
Definition new_list (h : Heap) (v : list string) : Heap * nat := (mkHeap (dicts h) (lists h ++ [v])%list, List.length (lists h)).
Definition new_dict (h : Heap) (k : Kwargs) : Heap * nat := (mkHeap (dicts h ++ [k])%list (lists h), List.length (dicts h)).
Definition set_dict (h : Heap) (d : nat) (k : Kwargs) : Heap := mkHeap (replace_nth d k (dicts h)) (lists h).
(** d["creationOptions"].append(s) *)
Definition append_option (h : Heap) (d : nat) (s : string) : Heap :=
  let l := kw_options (get_dict h d) in mkHeap (dicts h) (replace_nth l (get_list h l ++ [s])%list (lists h)).
Definition with_options (k : Kwargs) (l : nat) : Kwargs := mkKwargs (kw_scales k) (kw_type k) (kw_format k) (kw_size k) l.
Definition with_size (k : Kwargs) (s : Z * Z) : Kwargs := mkKwargs (kw_scales k) (kw_type k) (kw_format k) (Some s) (kw_options k).
(** copy.deepcopy *)
Definition deepcopy (h : Heap) (d : nat) : Heap * nat :=
  let k := get_dict h d in
  let (h1, l) := new_list h (get_list h (kw_options k)) in
  new_dict h1 (with_options k l).

(** What gdal.Translate receives. *)
Record Args := mkArgs {
  a_name : string; a_window : Bounds; a_scales : list Scale; a_type : GdalType; a_format : Format;
  a_size : option (Z * Z); a_options : list string }.
(** **kwargs, read from the heap *)
Definition call_args (h : Heap) (d : nat) (name : string) (w : Bounds) : Args :=
  let k := get_dict h d in
  mkArgs name w (kw_scales k) (kw_type k) (kw_format k) (kw_size k) (get_list h (kw_options k)).

(** gdal_tile_factory.py:490-515 [_create_new_igeolo] with a sensor model that may raise. *)
Definition checked_igeolo (show_R : R -> string) (image_to_world : Z -> Z -> res Geodetic) (b : Bounds) : res string :=
  let corners := [(bx b, by_ b); (bx b + bw b, by_ b); (bx b + bw b, by_ b + bh b); (bx b, by_ b + bh b)]%Z in
  bind (map_res (fun c => image_to_world (fst c) (snd c)) corners) (fun ws => Ok (String.concat "" (List.map (to_dms_string show_R) ws))).

Section Factory.
(** A SICD or SIDD updater: update_image_data_for_chip and encode_current_xml. *)
Variable U : Type.
Variable update : U -> request -> U * res unit.
Variable encode : U -> string.
(** str(float), used for the %E directive of coordinate formats only. *)
Variable show_R : R -> string.

(** The attributes of a GDALTileFactory that never change, and those that do. *)
Record Factory := mkFactory {
  f_format : Format; f_sensor : option (Z -> Z -> res Geodetic); f_header : string; f_defaults : nat;
  f_extension : string }.
Record State := mkState { heap : Heap; updater : option U }.

(** gdal_tile_factory.py:528-581 [_create_gdal_translate_kwargs]. *)
Definition create_gdal_translate_kwargs (h : Heap) (bands : list Band) (desired : option GdalType) (adjust : RangeAdjustment)
    (f : Format) (c : option Compression) : res (Heap * nat) :=
  do ts <- get_type_and_scales bands desired adjust;
  let (h1, l) := new_list h (creation_options f c (fst ts)) in
  Ok (new_dict h1 (mkKwargs (snd ts) (fst ts) f None l)).

(** gdal_tile_factory.py:63-80: the SAR metadata of the dataset, header and updater. *)
Section Select.
Variable cv : Conv.
Variable decode : string -> res string.
Variable tostring : Element -> string.
Variable make_sidd make_sicd : string -> res U.
Fixpoint find_sar (segments : list Element) : res (option (U * string)) :=
  match segments with
  | [] => Ok None
  | s :: r =>
      do t <- extract_desdata_xml decode tostring s;
      match t with
      | None | Some "" => find_sar r
      | Some x =>
          if contains "SIDD" x then
            do h <- extract_des_header cv s; do u <- make_sidd x; Ok (Some (u, h))
          else if contains "SICD" x then
            do h <- extract_des_header cv s; do u <- make_sicd x; Ok (Some (u, h))
          else find_sar r
      end
  end.
(** gdal_tile_factory.py:30-82 [__init__]; [dess] are the parsed xml:DES documents. *)
Definition tile_factory (driver : string) (dess : list Element) (bands : list Band) (sensor : option (Z -> Z -> res Geodetic))
    (f : Format) (c : option Compression) (desired : option GdalType) (adjust : RangeAdjustment) (ext : string)
  : res (Factory * State) :=
  do sar <- (if String.eqb driver "NITF" then find_sar (get_segments_by_name dess "XML_DATA_CONTENT") else Ok None);
  do hd <- create_gdal_translate_kwargs (mkHeap [] []) bands desired adjust f c;
  Ok (mkFactory f sensor (match sar with Some p => snd p | None => "" end) (snd hd) ext,
      mkState (fst hd) (match sar with Some p => Some (fst p) | None => None end)).
End Select.

(** gdal_tile_factory.py:95-122: the arguments for gdal.Translate. *)
Definition is_nitf (f : Format) : bool := match f with Nitf => true | _ => false end.
Definition temp_name (fac : Factory) (token : string) : string := "/vsimem/" ++ token ++ "." ++ f_extension fac.
Definition add_location (fac : Factory) (h : Heap) (d : nat) (w : Bounds) : Heap * res unit :=
  match f_sensor fac with
  | Some itw =>
      if is_nitf (f_format fac) then
        let h1 := append_option h d "ICORDS=G" in
        match checked_igeolo show_R itw w with
        | Err e => (h1, Err e)
        | Ok s => (append_option h1 d ("IGEOLO=" ++ s), Ok tt)
        end
      else (h, Ok tt)
  | None => (h, Ok tt)
  end.
Definition add_sar (fac : Factory) (h : Heap) (u : option U) (d : nat) (q : request) : Heap * option U * res unit :=
  match u with
  | Some u =>
      if is_nitf (f_format fac) then
        match update u q with
        | (u1, Err e) => (h, Some u1, Err e)
        | (u1, Ok _) =>
            let des := f_header fac ++ encode u1 in
            (append_option (append_option (append_option (append_option (append_option h
               d "ICAT=SAR") d "IREP=NODISPLY") d "IREPBAND= , ") d "ISUBCAT=I,Q") d ("DES=XML_DATA_CONTENT=" ++ des),
             Some u1, Ok tt)
        end
      else (h, Some u, Ok tt)
  | None => (h, None, Ok tt)
  end.
Definition prepare (fac : Factory) (st : State) (q : request) (token : string) : State * res Args :=
  let (h1, d) := deepcopy (heap st) (f_defaults fac) in
  let h2 := match snd q with Some s => set_dict h1 d (with_size (get_dict h1 d) s) | None => h1 end in
  match add_location fac h2 d (fst q) with
  | (h3, Err e) => (mkState h3 (updater st), Err e)
  | (h3, Ok _) =>
      match add_sar fac h3 (updater st) d q with
      | (h4, u, Err e) => (mkState h4 u, Err e)
      | (h4, u, Ok _) => (mkState h4 u, Ok (call_args h4 d (temp_name fac token) (fst q)))
      end
  end.

(** *** GDAL's virtual files *)
Definition Files : Type := string -> option string.
Inductive Call := Translate (a : Args) | Open (n : string) | Stat (n : string) | Read (n : string) (size : Z) | Close (n : string) | Delete (n : string).
Record Gdal := mkGdal {
  g_translate : Files -> Args -> Files * res unit;
  g_open : Files -> string -> res bool;       (** false: the handle is None *)
  g_stat : Files -> string -> res Z;
  g_read : Files -> string -> Z -> res string;
  g_close : Files -> string -> res unit;
  g_delete : Files -> string -> Files * res unit }.

Section Requests.
Variable g : Gdal.
(** Other threads may change the files before each call. *)
Variable others : Call -> Files -> Files.

(** gdal_tile_factory.py:135-143: the try block; calls, whether the file was opened, result. *)
Definition read_tile (fs : Files) (n : string) : list Call * Files * bool * res (option string) :=
  let fs1 := others (Open n) fs in
  match g_open g fs1 n with
  | Err e => ([Open n], fs1, false, Err e)
  | Ok false => ([Open n], fs1, false, Ok None)
  | Ok true =>
      let fs2 := others (Stat n) fs1 in
      match g_stat g fs2 n with
      | Err e => ([Open n; Stat n], fs2, true, Err e)
      | Ok size =>
          let fs3 := others (Read n size) fs2 in
          match g_read g fs3 n size with
          | Err e => ([Open n; Stat n; Read n size], fs3, true, Err e)
          | Ok bytes => ([Open n; Stat n; Read n size], fs3, true, Ok (Some bytes))
          end
      end
  end.
(** gdal_tile_factory.py:144-147: the finally block. *)
Definition clean_up (fs : Files) (n : string) (opened : bool) : list Call * Files * res unit :=
  let fs1 := if opened then others (Close n) fs else fs in
  match (if opened then g_close g fs1 n else Ok tt) with
  | Err e => ([Close n], fs1, Err e)
  | Ok _ =>
      match g_delete g (others (Delete n) fs1) n with
      | (fs2, r) => ((if opened then [Close n; Delete n] else [Delete n]), fs2, r)
      end
  end.
(** gdal_tile_factory.py:84-147 [create_encoded_tile]; [token] is token_hex(16). *)
Definition create_encoded_tile (fac : Factory) (st : State) (fs : Files) (q : request) (token : string)
  : State * Files * list Call * res (option string) :=
  match prepare fac st q token with
  | (st1, Err e) => (st1, fs, [], Err e)
  | (st1, Ok a) =>
      match g_translate g (others (Translate a) fs) a with
      | (fs1, Err e) => (st1, fs1, [Translate a], Err e)
      | (fs1, Ok _) =>
          let n := a_name a in
          let '(calls, fs2, opened, r) := read_tile fs1 n in
          let '(calls', fs3, c) := clean_up fs2 n opened in
          (st1, fs3, Translate a :: (calls ++ calls')%list, match c with Err e => Err e | Ok _ => r end)
      end
  end.
End Requests.

(** The factory after a list of requests with arbitrary GDAL behaviour, interference and tokens. *)
Fixpoint serve (fac : Factory) (st : State) (l : list (Gdal * (Call -> Files -> Files) * Files * request * string)) : State :=
  match l with
  | [] => st
  | (g, others, fs, q, token) :: r =>
      let '(st1, _, _, _) := create_encoded_tile g others fac st fs q token in serve fac st1 r
  end.
End Factory.
Arguments heap {U}. Arguments updater {U}. Arguments mkState {U}. Arguments find_sar {U}. Arguments tile_factory {U}.
Arguments add_sar {U}. Arguments prepare {U}. Arguments create_encoded_tile {U}. Arguments serve {U}.
