(** Specification vocabulary for coordinates as objects. *)
Require Import Reals String List Lia.
Require Import Verif.Base Verif.Vec Verif.RpcModel Verif.RsmModel Verif.TransformModel Verif.SicdModel Verif.HeapModel.
Require Verif.DemModel.
Import ListNotations.

(** Every array among the first [n] has the content it had. *)
Definition unchanged_below (n : nat) (h h' : cells) : Prop :=
  (List.length h <= List.length h')%nat /\ forall k, (k < n)%nat -> nth_error h' k = nth_error h k.

(** A call that writes to no array that existed before it, whether it returns or raises. *)
Definition writes_nothing_old {A} (m : M A) : Prop :=
  forall h h' r, m h = (h', r) -> unchanged_below (List.length h) h h'.
(** A call whose answer is an object made by it. *)
Definition answers_new (m : M nat) : Prop :=
  forall h h' l, m h = (h', Ok l) -> (List.length h <= l < List.length h')%nat.

(** What an elevation model may do to the coordinate it is given and to the others. *)
Definition polite (e : Elevation) : Prop :=
  forall h l h' r, (l < List.length h)%nat -> e l h = (h', r) ->
  (List.length h <= List.length h')%nat
  /\ (forall k, (k < List.length h)%nat -> k <> l -> nth_error h' k = nth_error h k)
  /\ (forall v, nth_error h l = Some v -> exists v', nth_error h' l = Some v'
        /\ List.length v' = List.length v /\ firstn 2 v' = firstn 2 v).
Definition polite_option (em : option Elevation) : Prop := match em with None => True | Some e => polite e end.

(** A sensor model that leaves all coordinates of its callers alone and answers with new ones. *)
Definition harmless (s : HSensor) : Prop :=
  (forall i em o, polite_option em -> writes_nothing_old (h_image_to_world s i em o) /\ answers_new (h_image_to_world s i em o))
  /\ (forall l, writes_nothing_old (h_world_to_image s l) /\ answers_new (h_world_to_image s l)).

(** *** Agreement with the models in which coordinates are values *)
Definition extends (h0 h : cells) : Prop := exists t, h = (h0 ++ t)%list.
(** Starting in [h], the code adds arrays, changes none, and ends as [r] says; [rep] relates its
    answer to the value it stands for. *)
Definition computes {A B} (rep : cells -> A -> B -> Prop) (m : M A) (h : cells) (r : res B) : Prop :=
  exists t x, m h = ((h ++ t)%list, x) /\
  match r, x with Ok b, Ok a => rep (h ++ t)%list a b | Err e, Err e' => e' = e | _, _ => False end.
Definition value {A} (h : cells) (a b : A) : Prop := a = b.
Definition new_world (n : nat) (h : cells) (l : nat) (g : Geodetic) : Prop :=
  (n <= l)%nat /\ nth_error h l = Some (geo_array g).
Definition new_image (n : nat) (h : cells) (l : nat) (i : Image) : Prop :=
  (n <= l)%nat /\ nth_error h l = Some (image_array i).

(** The elevation model object does what the function [f] says, to this coordinate only. *)
Definition implements (e : Elevation) (f : emodel) : Prop :=
  forall h l g, nth_error h l = Some (geo_array g) ->
  exists t, e l h = ((replace_nth l (geo_array (f g)) h ++ t)%list, Ok tt).
Definition implements_option (e : option Elevation) (f : option emodel) : Prop :=
  match e, f with None, None => True | Some e, Some f => implements e f | _, _ => False end.

(** In every heap that extends [h0], the sensor model object answers as the model [s] says. *)
Definition faithful (h0 : cells) (S : HSensor) (s : Sensor) : Prop :=
  (forall h i p em f o, extends h0 h -> nth_error h i = Some (image_array p) -> implements_option em f ->
     computes (new_world (List.length h)) (h_image_to_world S i em o) h (image_to_world s p f o))
  /\ (forall h l g, extends h0 h -> nth_error h l = Some (geo_array g) ->
     computes (new_image (List.length h)) (h_world_to_image S l) h (world_to_image s g)).

(** The optimiser as a function of the objective. *)
Fixpoint outcome (s : search) (f : R * R -> res R) : res (R * R) :=
  match s with
  | Found x => Ok x
  | Failed e => Err e
  | Ask x next => bind (f x) (fun d => outcome (next d) f)
  end.

(** The origin object of a ground domain holds the origin. *)
Definition origin_is (h0 : cells) (origin : option nat) (o : option Vec) : Prop :=
  match origin, o with
  | None, None => True
  | Some l, Some v => nth_error h0 l = Some (vec_array v)
  | _, _ => False
  end.

(** A history: calls of the library, and assignments of the caller to its coordinates.  It goes on
    after an exception; the answers are in order. *)
Inductive event := Call (m : M nat) | Assign (l i : nat) (x : R).
Fixpoint run_events (es : list event) (h : cells) : cells * list nat :=
  match es with
  | [] => (h, [])
  | Call m :: rest =>
      let '(h1, r) := m h in let '(h2, answers) := run_events rest h1 in
      (h2, match r with Ok l => l :: answers | Err _ => answers end)
  | Assign l i x :: rest => run_events rest (fst (set_item l i x h))
  end.
Definition well_behaved (e : event) : Prop := match e with Call m => writes_nothing_old m /\ answers_new m | Assign _ _ _ => True end.
Definition assigned (e : event) (k : nat) : Prop := match e with Call _ => False | Assign l _ _ => l = k end.
(** A grid of the heap model and one of C15: the same interpolator, and a sensor model that answers
    with new coordinates as its function says. *)
Definition grid_implements (g : res HGrid) (g' : res DemModel.Grid) : Prop :=
  match g, g' with
  | Err e, Err e' => e = e'
  | Ok a, Ok b => hg_interp a = DemModel.g_interp b /\
      match hg_sensor a, DemModel.g_sensor b with
      | None, None => True
      | Some s, Some f => forall h l w, nth_error h l = Some (geo_array w) ->
          computes (new_image (List.length h)) (s l) h (Ok (mkImage (fst (f w)) (snd (f w))))
      | _, _ => False
      end
  | _, _ => False
  end.
(** A new coordinate, or none where the model has a coordinate of nan. *)
Definition new_world_option (n : nat) (h : cells) (l : option nat) (g : option Geodetic) : Prop :=
  match l, g with None, None => True | Some l, Some g => new_world n h l g | _, _ => False end.
