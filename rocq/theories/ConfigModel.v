(** Temporary GDAL configuration.
    Source: src/aws/osml/gdal/gdal_config.py.
    Simplifications: option values are the strings that str(val) gives; logging is left out; the
    options that GDAL keeps per thread are not used (the code never sets one). *)
Require Import String List Bool.
Require Import Verif.Base.
Import ListNotations.
Local Open Scope string_scope.

(** *** GDAL's configuration options (outside the project)

    GDAL looks a name up among the options that were set, ignoring case ([fold] is the spelling
    under which it files a name), and falls back to the environment variable of that name. *)
Record Gdal := mkGdal { fold : string -> string; getenv : string -> option string }.
(** The options that are set, by filed name. *)
Definition Options := string -> option string.
(** gdal.GetConfigOption(key). *)
Definition get_option (g : Gdal) (st : Options) (key : string) : option string :=
  match st (fold g key) with Some v => Some v | None => getenv g key end.
(** gdal.SetConfigOption(key, value); None removes the setting. *)
Definition set_option (g : Gdal) (st : Options) (key : string) (v : option string) : Options :=
  fun x => if String.eqb x (fold g key) then v else st x.

(** *** Python dictionaries with string keys, in insertion order *)
Definition Dict (A : Type) := list (string * A).
Fixpoint get {A} (d : Dict A) (k : string) : option A :=
  match d with
  | [] => None
  | (k', v) :: r => if String.eqb k k' then Some v else get r k
  end.
Fixpoint put {A} (d : Dict A) (k : string) (v : A) : Dict A :=
  match d with
  | [] => [(k, v)]
  | (k', v') :: r => if String.eqb k k' then (k', v) :: r else (k', v') :: put r k v
  end.
Definition keys {A} (d : Dict A) : list string := List.map fst d.
(** d.update(u) *)
Definition update {A} (d u : Dict A) : Dict A :=
  fold_left (fun acc kv => put acc (fst kv) (snd kv)) u d.

(** Dictionaries live in a heap, because the constructor's point is to copy the caller's. *)
Definition Heap := list (Dict string).
Definition deref (h : Heap) (r : nat) : Dict string := nth r h [].
Fixpoint store (h : Heap) (r : nat) (d : Dict string) : Heap :=
  match h, r with
  | [], _ => []
  | _ :: t, O => d :: t
  | x :: t, S r' => x :: store t r' d
  end.

(** *** GDALConfigEnv *)

(** gdal_config.py:56-61: [self.options] (a reference) and [self.old_options]. *)
Record Env := mkEnv { env_options : nat; old_options : Dict (option string) }.

(** gdal_config.py:56-61 [__init__]; an empty dictionary counts as no options. *)
Definition make_env (h : Heap) (options : option nat) : Heap * Env :=
  let copy := match options with
              | Some r => match deref h r with [] => [] | d => d end
              | None => []
              end in
  (h ++ [copy], mkEnv (List.length h) [])%list.

(** gdal_config.py:63-79 [with_aws_credentials]: the new dictionary is complete before anything
    is updated. *)
Definition aws_options (c : Dict string) : res (Dict string) :=
  match get c "SecretAccessKey" with
  | None => Err KeyError
  | Some secret =>
      match get c "AccessKeyId" with
      | None => Err KeyError
      | Some id =>
          match get c "SessionToken" with
          | None => Err KeyError
          | Some token => Ok [("AWS_SECRET_ACCESS_KEY", secret); ("AWS_ACCESS_KEY_ID", id); ("AWS_SESSION_TOKEN", token)]
          end
      end
  end.
Definition with_aws_credentials (h : Heap) (e : Env) (c : option (Dict string)) : res Heap :=
  match c with
  | None => Ok h
  | Some c => bind (aws_options c) (fun u => Ok (store h (env_options e) (update (deref h (env_options e)) u)))
  end.

(** gdal_config.py:81-84 [__enter__]. *)
Definition enter_step (g : Gdal) (acc : Dict (option string) * Options) (kv : string * string)
  : Dict (option string) * Options :=
  let (old, st) := acc in
  (put old (fst kv) (get_option g st (fst kv)), set_option g st (fst kv) (Some (snd kv))).
Definition enter (g : Gdal) (options : Dict string) (old : Dict (option string)) (st : Options)
  : Dict (option string) * Options := fold_left (enter_step g) options (old, st).

(** gdal_config.py:86-88 [__exit__]: stops with KeyError at an option it has no old value for. *)
Fixpoint leave (g : Gdal) (options : Dict string) (old : Dict (option string)) (st : Options)
  : Options * option exn :=
  match options with
  | [] => (st, None)
  | (k, _) :: r => match get old k with
                   | None => (st, Some KeyError)
                   | Some v => leave g r old (set_option g st k v)
                   end
  end.

(** *** Programs that use the environment *)

(** A statement: anything that acts on the options and may raise; two statements; and
    "with GDALConfigEnv(options): body".  [__exit__] returns None, so an exception of the body is
    raised again after the options are restored. *)
Inductive stmt :=
| Run (f : Options -> Options * option exn)
| Then (a b : stmt)
| With (options : Dict string) (body : stmt).

Fixpoint exec (g : Gdal) (s : stmt) (st : Options) : Options * option exn :=
  match s with
  | Run f => f st
  | Then a b => match exec g a st with
                | (st', None) => exec g b st'
                | r => r
                end
  | With o b => let (old, st1) := enter g o [] st in
                let (st2, raised) := exec g b st1 in
                let (st3, broken) := leave g o old st2 in
                (st3, match broken with Some e => Some e | None => raised end)
  end.

(** gdal_config.py:11-43 [set_gdal_default_configuration]. *)
Definition default_configuration : Dict string :=
  [ ("VSI_CACHE", "YES"); ("VSI_CACHE_SIZE", "10000000000");
    ("GDAL_DISABLE_READDIR_ON_OPEN", "EMPTY_DIR"); ("GDAL_CACHEMAX", "75%");
    ("GDAL_NUM_THREADS", "1"); ("GDAL_GCPS_TO_GEOTRANSFORM_APPROX_OK", "YES");
    ("GDAL_MAX_DATASET_POOL_SIZE", "1000"); ("BIGTIFF_OVERVIEW", "YES");
    ("USE_TILE_AS_BLOCK", "YES"); ("CPL_DEBUG", "OFF");
    ("CPL_VSIL_CURL_CHUNK_SIZE", "10485760"); ("CPL_VSIL_CURL_CACHE_SIZE", "5242880000") ].
Definition set_gdal_default_configuration (g : Gdal) (st : Options) : Options :=
  fold_left (fun st kv => set_option g st (fst kv) (Some (snd kv))) default_configuration st.
