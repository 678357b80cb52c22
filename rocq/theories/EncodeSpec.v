(** Vocabulary of the tile encoding properties (C53, C54, C74, C75). *)
Require Import ZArith Reals String List Bool.
Require Import Verif.Base Verif.Text Verif.CoordModel Verif.DisplayModel Verif.SarMetaModel Verif.TreModel Verif.TreSpec Verif.EncodeModel.
Import ListNotations.
Local Open Scope string_scope.

Section Spec.
Context {U : Type}.
Variable update : U -> request -> U * res unit.
Variable encode : U -> string.
Variable show_R : R -> string.

(** The options that give the corners of the tile. *)
Definition location_options (fac : Factory) (w : Bounds) (o : list string) : Prop :=
  match f_sensor fac, f_format fac with
  | Some itw, Nitf =>
      exists a b c d, itw (bx w) (by_ w) = Ok a /\ itw (bx w + bw w)%Z (by_ w) = Ok b
        /\ itw (bx w + bw w)%Z (by_ w + bh w)%Z = Ok c /\ itw (bx w) (by_ w + bh w)%Z = Ok d
        /\ o = ["ICORDS=G"; "IGEOLO=" ++ to_dms_string show_R a ++ to_dms_string show_R b
                              ++ to_dms_string show_R c ++ to_dms_string show_R d]
  | _, _ => o = []
  end.
(** The options that give the SAR metadata, and the updater afterwards. *)
Definition sar_options (fac : Factory) (u : option U) (q : request) (o : list string) (u' : option U) : Prop :=
  match u, f_format fac with
  | Some v, Nitf =>
      exists v', update v q = (v', Ok tt) /\ u' = Some v'
        /\ o = ["ICAT=SAR"; "IREP=NODISPLY"; "IREPBAND= , "; "ISUBCAT=I,Q";
                "DES=XML_DATA_CONTENT=" ++ f_header fac ++ encode v']
  | _, _ => o = [] /\ u' = u
  end.

(** What a new factory asks of GDAL for every tile. *)
Definition defaults_are (fac : Factory) (st : State U) (sc : list Scale) (t : GdalType) (o : list string) : Prop :=
  exists l, get_dict (heap st) (f_defaults fac) = mkKwargs sc t (f_format fac) None l
    /\ get_list (heap st) l = o
    /\ (f_defaults fac < List.length (dicts (heap st)))%nat /\ (l < List.length (lists (heap st)))%nat.
End Spec.

(** GDAL's file operations act on the named file only. *)
Definition translate_local (g : Gdal) : Prop :=
  forall fs a n, n <> a_name a -> fst (g_translate g fs a) n = fs n.
Definition delete_removes (g : Gdal) : Prop :=
  forall fs n, (forall m, m <> n -> fst (g_delete g fs n) m = fs m)
            /\ (forall u, snd (g_delete g fs n) = Ok u -> fst (g_delete g fs n) n = None).
(** Nobody else touches file [n]. *)
Definition leaves_alone (others : Call -> Files -> Files) (n : string) : Prop := forall c fs, others c fs n = fs n.
(** Nobody else changes anything. *)
Definition nobody : Call -> Files -> Files := fun _ fs => fs.
(** What GDAL does with a file depends on that file only. *)
Definition same_file (a b : Files) (n : string) : Prop := a n = b n.
Record depends_on_file (g : Gdal) : Prop := mkDepends {
  dep_translate : forall a fs fs', same_file fs fs' (a_name a) ->
    snd (g_translate g fs a) = snd (g_translate g fs' a) /\ same_file (fst (g_translate g fs a)) (fst (g_translate g fs' a)) (a_name a);
  dep_open : forall n fs fs', same_file fs fs' n -> g_open g fs n = g_open g fs' n;
  dep_stat : forall n fs fs', same_file fs fs' n -> g_stat g fs n = g_stat g fs' n;
  dep_read : forall n z fs fs', same_file fs fs' n -> g_read g fs n z = g_read g fs' n z;
  dep_close : forall n fs fs', same_file fs fs' n -> g_close g fs n = g_close g fs' n;
  dep_delete : forall n fs fs', same_file fs fs' n ->
    snd (g_delete g fs n) = snd (g_delete g fs' n) /\ same_file (fst (g_delete g fs n)) (fst (g_delete g fs' n)) n }.
