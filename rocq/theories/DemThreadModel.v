(** One digital elevation model used by several threads.
    Source: src/aws/osml/photogrammetry/digital_elevation_model.py:105-166; the decorator cachedmethod
    of cachetools is given no lock there.
    A call that needs a tile is up to three steps, between which other threads run: look the tile up,
    load it, store it.
    Simplifications: each access to the LRUCache is one step (what its own methods do when interrupted
    is not modelled), and so is loading a tile; evaluating the interpolator shares nothing. *)
Require Import Reals String List.
Require Import Verif.Base Verif.DemModel.
Import ListNotations.

(** Where the first call of [todo] is. *)
Inductive stage := Ready | Loading (id : string) | Storing (id : string) (g : Grid).
(** [answered] are the calls answered so far, latest first. *)
Record Thread := mkThread { todo : list call; doing : stage; answered : list (call * answer) }.

(** The rest of set_elevation and describe_region once the grid is there
    (digital_elevation_model.py:122-124, 139). *)
Definition answer_with (o : call) (r : res Grid) : answer :=
  match o with
  | SetElevation w =>
      Located (bind r (fun g => match g_interp g, g_sensor g with
                                | Some f, Some s => let '(x, y) := s w in Ok (mkGeo (longitude w) (latitude w) (f x y))
                                | _, _ => Ok w
                                end))
  | DescribeRegion w => Described (bind r (fun g => Ok (g_summary g)))
  end.
(** digital_elevation_model.py:117-118, 135-136. *)
Definition answer_without (o : call) : answer :=
  match o with SetElevation w => Located (Ok w) | DescribeRegion _ => Described (Ok None) end.
Definition asked_at (o : call) : Geodetic := match o with SetElevation w | DescribeRegion w => w end.

(** LRUCache.__setitem__ when another thread may have stored the key meanwhile: the value of a key
    that is there is replaced, and nothing is evicted. *)
Definition store_again (m : nat) (k : string) (v : Grid) (l : list (string * Grid)) : list (string * Grid) :=
  match lookup k l with
  | Some _ => remove_key k l ++ [(k, v)]
  | None => store m k v l
  end.

Section Threads.
Variable find_tile_id : Geodetic -> option string.
Variable get_tile : nat -> string -> res Tile.

(** One step of one thread. *)
Definition thread_step (c : Cache) (t : Thread) : Cache * Thread :=
  match todo t with
  | [] => (c, t)
  | o :: r =>
      let finish a := mkThread r Ready ((o, a) :: answered t) in
      match doing t with
      | Ready =>
          match truthy (find_tile_id (asked_at o)) with
          | None => (c, finish (answer_without o))
          | Some id =>
              match lookup id (entries c) with
              | Some v => (mkCache (maxsize c) (remove_key id (entries c) ++ [(id, v)]) (loads c), finish (answer_with o (Ok v)))
              | None => (c, mkThread (todo t) (Loading id) (answered t))
              end
          end
      | Loading id =>
          let c' := mkCache (maxsize c) (entries c) (id :: loads c) in
          match load_grid get_tile (List.length (loads c)) id with
          | Ok v => (c', mkThread (todo t) (Storing id v) (answered t))
          | Err e => (c', finish (answer_with o (Err e)))
          end
      | Storing id v => (mkCache (maxsize c) (store_again (maxsize c) id v (entries c)) (loads c), finish (answer_with o (Ok v)))
      end
  end.

Fixpoint replace_nth {A} (i : nat) (x : A) (l : list A) : list A :=
  match l, i with
  | [], _ => []
  | _ :: r, O => x :: r
  | y :: r, S j => y :: replace_nth j x r
  end.
(** A schedule is the list of the threads whose turn it is. *)
Definition system_step (s : Cache * list Thread) (i : nat) : Cache * list Thread :=
  match nth_error (snd s) i with
  | None => s
  | Some t => let '(c, t') := thread_step (fst s) t in (c, replace_nth i t' (snd s))
  end.
Definition run_threads (s : Cache * list Thread) (schedule : list nat) : Cache * list Thread := fold_left system_step schedule s.
(** Threads that are going to make the given calls. *)
Definition start (size : nat) (programs : list (list call)) : Cache * list Thread :=
  (new_cache size, List.map (fun h => mkThread h Ready []) programs).
End Threads.
