(** Property theorems for the digital elevation model: C15 - C18 and C65. *)
Require Import ZArith Reals Ascii String List Lra Lia Bool.
Require Import Verif.Base Verif.BaseFacts Verif.TextFacts Verif.DemModel Verif.DemSpec Verif.DemProofs.
Import ListNotations.
Local Open Scope R_scope.

(** ** C15: caching is transparent *)

(** Every call of every history answers what a model without memory would. *)
Theorem C15_cache_transparent :
  forall (find : Geodetic -> option string) (load : string -> res Tile) (size : nat) (h : list call),
  snd (run find (fun _ => load) (new_cache size) h) = List.map (uncached_answer find load) h.
Proof.
  intros find load size h.
  pose proof (run_answers find (fun _ => load) (new_cache size) h (new_cache_sound _ _)) as A.
  revert A. generalize (loads (fst (run find (fun _ => load) (new_cache size) h))).
  generalize (snd (run find (fun _ => load) (new_cache size) h)). intros l n A.
  induction A as [|o a h l [k [_ E]] _ IH]; cbn; congruence.
Qed.
Print Assumptions C15_cache_transparent.

(** Without assuming that the factory is stable: each answer is the one that a factory
    answer given at or before that time leads to. *)
Theorem C15_answers_come_from_a_load :
  forall (find : Geodetic -> option string) (get_tile : nat -> string -> res Tile) (size : nat) (h : list call),
  Forall2 (fun o a => exists n, (n <= List.length (loads (fst (run find get_tile (new_cache size) h))))%nat /\
                                a = uncached_answer find (get_tile n) o)
          h (snd (run find get_tile (new_cache size) h)).
Proof. intros. apply run_answers, new_cache_sound. Qed.
Print Assumptions C15_answers_come_from_a_load.

(** A tile reported missing stays missing as long as it is held, even if the factory would
    deliver it now; a tile whose loading raised is asked for again. *)
Theorem C15_missing_tile_is_remembered :
  forall (find : Geodetic -> option string) (get_tile : nat -> string -> res Tile) (size : nat)
         (w : Geodetic) (id : string),
  find w = Some id -> id <> ""%string -> (0 < size)%nat ->
  get_tile 0%nat id = Ok (mkLoaded None None None) ->
  snd (run find get_tile (new_cache size) [SetElevation w; SetElevation w])
  = [Located (Ok w); Located (Ok w)].
Proof.
  intros find get_tile size w id F NE P G. cbn. unfold set_elevation. rewrite F.
  destruct id as [|a s]; [congruence|]. set (id := String a s) in *. cbn.
  unfold get_interpolation_grid, load_grid. cbn. rewrite G. cbn.
  destruct size as [|m]; [lia|]. cbn. rewrite ?Ascii.eqb_refl, ?String.eqb_refl. reflexivity.
Qed.
Print Assumptions C15_missing_tile_is_remembered.

Theorem C15_failed_load_is_retried :
  forall (find : Geodetic -> option string) (get_tile : nat -> string -> res Tile) (size : nat)
         (w : Geodetic) (id : string) (e : exn),
  find w = Some id -> id <> ""%string -> get_tile 0%nat id = Err e ->
  snd (run find get_tile (new_cache size) [SetElevation w; SetElevation w])
  = [Located (Err e); uncached_answer find (get_tile 1%nat) (SetElevation w)].
Proof.
  intros find get_tile size w id e F NE G. cbn. unfold set_elevation. rewrite F.
  destruct id as [|a s]; [congruence|]. set (id := String a s) in *. cbn.
  unfold get_interpolation_grid, load_grid. cbn. rewrite G. cbn.
  destruct (get_tile 1%nat id) as [t|e']; cbn; [|reflexivity].
  destruct (make_grid t) as [g|]; cbn; [|reflexivity].
  destruct (g_interp g), (g_sensor g) as [s'|]; try reflexivity. destruct (s' w); reflexivity.
Qed.
Print Assumptions C15_failed_load_is_retried.

(** A tile of a single row or column cannot be interpolated: asking for elevations there raises. *)
Theorem C17_thin_tile :
  forall (find : Geodetic -> option string) (get_tile : nat -> string -> res Tile) (size : nat) (w : Geodetic) (id : string) a s sm,
  find w = Some id -> id <> ""%string -> get_tile 0%nat id = Ok (mkLoaded (Some a) (Some s) sm) ->
  (List.length a < 2)%nat \/ (List.length (hd [] a) < 2)%nat ->
  snd (run find get_tile (new_cache size) [SetElevation w]) = [Located (Err OtherError)].
Proof.
  intros find get_tile size w id a s sm F NE G T.
  assert (M : make_grid (mkLoaded (Some a) (Some s) sm) = Err OtherError).
  { unfold make_grid. cbn [t_array t_sensor]. destruct (Nat.ltb_spec (List.length (hd [] a)) 2); [reflexivity|].
    destruct (Nat.ltb_spec (List.length a) 2); [reflexivity|lia]. }
  cbn. unfold set_elevation. rewrite F. destruct id as [|c id]; [congruence|].
  unfold get_interpolation_grid, load_grid. cbn. rewrite G. cbn [bind]. rewrite M. reflexivity.
Qed.
Print Assumptions C17_thin_tile.
(** Two of each are enough. *)
Theorem C17_thick_tile :
  forall a s sm, (2 <= List.length a)%nat -> (2 <= List.length (hd [] a))%nat -> exists g f, make_grid (mkLoaded (Some a) (Some s) sm) = Ok g /\ g_interp g = Some f.
Proof.
  intros a s sm L1 L2. unfold make_grid. cbn [t_array t_sensor].
  destruct (Nat.ltb_spec (List.length (hd [] a)) 2); [lia|]. destruct (Nat.ltb_spec (List.length a) 2); [lia|]. eexists _, _. split; reflexivity.
Qed.
Print Assumptions C17_thick_tile.

(** A two-by-three tile, a world with two tiles and a gap, and a cache of one. *)
Definition demo_raster : raster := [[10; 20; 30]; [40; 50; 60]].
Definition demo_tile : Tile :=
  mkLoaded (Some demo_raster) (Some (fun w => (longitude w, latitude w))) (Some (mkSummary 10 60 None 30)).
Definition demo_find (w : Geodetic) : option string :=
  if Rlt_dec (longitude w) 0 then None
  else if Rlt_dec (longitude w) 10 then Some "a"%string else Some "b"%string.
Definition demo_load (id : string) : res Tile :=
  if String.eqb id "a" then Ok demo_tile else Ok (mkLoaded None None None).

Example C15_non_vacuous :
  snd (run demo_find (fun _ => demo_load) (new_cache 1)
         [SetElevation (mkGeo 2 1 7); SetElevation (mkGeo 11 1 7); SetElevation (mkGeo 0 1 7)])
  = [Located (Ok (mkGeo 2 1 60)); Located (Ok (mkGeo 11 1 7)); Located (Ok (mkGeo 0 1 40))].
Proof.
  rewrite C15_cache_transparent. cbn [List.map uncached_answer]. unfold demo_find. cbn [longitude].
  destruct (Rlt_dec 2 0); [lra|]. destruct (Rlt_dec 2 10); [|lra].
  destruct (Rlt_dec 11 0); [lra|]. destruct (Rlt_dec 11 10); [lra|].
  destruct (Rlt_dec 0 0); [lra|]. destruct (Rlt_dec 0 10); [|lra].
  unfold demo_load. cbn.
  pose proof (bilinear_node demo_raster 3 2 2 1 ltac:(lia) ltac:(lia) ltac:(lia) ltac:(lia)) as A.
  pose proof (bilinear_node demo_raster 3 2 0 1 ltac:(lia) ltac:(lia) ltac:(lia) ltac:(lia)) as B.
  cbn [INR] in A, B. unfold value_T in A, B. cbn in A, B.
  replace (1 + 1) with 2 in A by ring. rewrite A, B. reflexivity.
Qed.

Lemma demo_at_2 : demo_find (mkGeo 2 1 7) = Some "a"%string.
Proof. unfold demo_find. cbn [longitude]. destruct (Rlt_dec 2 0); [lra|]. destruct (Rlt_dec 2 10); [reflexivity|lra]. Qed.
(** A factory without the tile at first, one whose first load raises, and one with a single row. *)
Example C15_memory_non_vacuous :
  let w := mkGeo 2 1 7 in
  let late (n : nat) (id : string) := match n with O => Ok (mkLoaded None None None) | _ => Ok demo_tile end in
  let shaky (n : nat) (id : string) := match n with O => Err RuntimeError | _ => Ok demo_tile end in
  snd (run demo_find late (new_cache 3) [SetElevation w; SetElevation w]) = [Located (Ok w); Located (Ok w)] /\
  snd (run demo_find shaky (new_cache 3) [SetElevation w; SetElevation w]) = [Located (Err RuntimeError); Located (Ok (mkGeo 2 1 60))].
Proof.
  intros w late shaky. split.
  - apply (C15_missing_tile_is_remembered demo_find late 3 w "a"); [apply demo_at_2|discriminate|lia|reflexivity].
  - rewrite (C15_failed_load_is_retried demo_find shaky 3 w "a" RuntimeError); [|apply demo_at_2|discriminate|reflexivity].
    do 2 f_equal. unfold uncached_answer, w. rewrite demo_at_2. cbn.
    pose proof (bilinear_node demo_raster 3 2 2 1 ltac:(lia) ltac:(lia) ltac:(lia) ltac:(lia)) as A.
    cbn [INR] in A. unfold value_T in A. cbn in A. replace (1 + 1) with 2 in A by ring. rewrite A. reflexivity.
Qed.
Example C17_thin_non_vacuous :
  let thin (n : nat) (id : string) := Ok (mkLoaded (Some [[10; 20; 30]]) (Some (fun w => (longitude w, latitude w))) None) in
  snd (run demo_find thin (new_cache 3) [SetElevation (mkGeo 2 1 7)]) = [Located (Err OtherError)] /\
  exists g f, make_grid demo_tile = Ok g /\ g_interp g = Some f.
Proof.
  intros thin. split; [|apply C17_thick_tile; cbn; lia].
  apply (C17_thin_tile demo_find thin 3 (mkGeo 2 1 7) "a" [[10; 20; 30]] (fun w => (longitude w, latitude w)) None);
    [apply demo_at_2|discriminate|reflexivity|left; cbn; lia].
Qed.

(** ** C16: the cache is bounded and least-recently-used *)

(** Whatever the factory does: no more tiles than configured, none twice. *)
Theorem C16_bounded_without_duplicates :
  forall (find : Geodetic -> option string) (get_tile : nat -> string -> res Tile) (size : nat) (h : list call),
  let held := List.map fst (entries (fst (run find get_tile (new_cache size) h))) in
  (List.length held <= size)%nat /\ NoDup held.
Proof.
  intros find get_tile size h. cbn.
  destruct (run_tidy find get_tile (new_cache size) h (new_cache_tidy size)) as [L N].
  rewrite run_maxsize in L. unfold keys in *. rewrite map_rev in *. rewrite rev_length in L.
  split; [exact L|]. apply NoDup_rev in N. now rewrite rev_involutive in N.
Qed.
Print Assumptions C16_bounded_without_duplicates.

(** What is held, most recently used first, is exactly the most recently used distinct tiles. *)
Theorem C16_holds_most_recently_used :
  forall (find : Geodetic -> option string) (load : string -> res Tile) (size : nat) (h : list call),
  List.map fst (rev (entries (fst (run find (fun _ => load) (new_cache size) h))))
  = firstn size (distinct (tiles_used find load h)).
Proof. intros. exact (held_keys find load (new_cache size) h eq_refl (new_cache_sound _ _)). Qed.
Print Assumptions C16_holds_most_recently_used.

(** Seen from the factory: a call that needs a tile makes one request for it exactly when the
    tile is not among the most recently used ones; other calls make no request. *)
Theorem C16_loads_only_when_not_recent :
  forall (find : Geodetic -> option string) (load : string -> res Tile) (size : nat) (h : list call) (o : call),
  let before := loads (fst (run find (fun _ => load) (new_cache size) h)) in
  let after := loads (fst (run find (fun _ => load) (new_cache size) (h ++ [o]))) in
  match find (location_of o) with
  | None | Some EmptyString => after = before
  | Some id => (In id (firstn size (distinct (tiles_used find load h))) -> after = before) /\
               (~ In id (firstn size (distinct (tiles_used find load h))) -> after = id :: before)
  end.
Proof.
  intros find load size h o before after. subst after before. rewrite run_snoc_cache, step_cache.
  rewrite <- C16_holds_most_recently_used.
  destruct (find (location_of o)) as [[|a s]|]; try reflexivity. cbn [truthy].
  split; [apply get_held | apply get_not_held].
Qed.
Print Assumptions C16_loads_only_when_not_recent.

(** Three tiles a, b, c with a cache of two: after a b a c the tiles held are c and a. *)
Example C16_non_vacuous :
  let find := fun w => if Rlt_dec (longitude w) 0 then Some "a"%string
                       else if Rlt_dec (longitude w) 1 then Some "b"%string else Some "c"%string in
  let at_ x := SetElevation (mkGeo x 0 0) in
  List.map fst (rev (entries (fst (run find (fun _ _ => Ok demo_tile) (new_cache 2)
                                    [at_ (-1); at_ (1/2); at_ (-1); at_ 3]))))
  = ["c"; "a"]%string.
Proof.
  cbv zeta. rewrite C16_holds_most_recently_used. unfold tiles_used, tile_used. cbn.
  destruct (Rlt_dec (-1) 0); [|lra]. destruct (Rlt_dec (1/2) 0); [lra|]. destruct (Rlt_dec (1/2) 1); [|lra].
  destruct (Rlt_dec 3 0); [lra|]. destruct (Rlt_dec 3 1); [lra|]. reflexivity.
Qed.

(** ** C17: lookups touch only the elevation *)

(** Any factory, any cache contents. *)
Theorem C17_location_unchanged :
  forall (find : Geodetic -> option string) (get_tile : nat -> string -> res Tile) (c : Cache) (w w' : Geodetic),
  snd (set_elevation find get_tile c w) = Ok w' ->
  longitude w' = longitude w /\ latitude w' = latitude w.
Proof.
  intros find get_tile c w w'. unfold set_elevation. destruct (truthy (find w)) as [id|]; cbn.
  - destruct (get_interpolation_grid get_tile c id) as [c' [g|e]]; cbn; [|discriminate].
    destruct (g_interp g), (g_sensor g) as [s|]; try (intros [= <-]; now split).
    destruct (s w); intros [= <-]; now split.
  - intros [= <-]. now split.
Qed.
Print Assumptions C17_location_unchanged.

(** No tile for the location: nothing changes and nothing is loaded or remembered. *)
Theorem C17_no_tile_no_effect :
  forall (find : Geodetic -> option string) (get_tile : nat -> string -> res Tile) (c : Cache) (w : Geodetic),
  find w = None -> set_elevation find get_tile c w = (c, Ok w) /\ describe_region find get_tile c w = (c, Ok None).
Proof. intros find get_tile c w F. unfold set_elevation, describe_region. rewrite F. now split. Qed.
Print Assumptions C17_no_tile_no_effect.

(** The factory has no such tile: the elevation stays as it is, after any history. *)
Theorem C17_missing_tile_leaves_elevation :
  forall (find : Geodetic -> option string) (load : string -> res Tile) (size : nat) (h : list call)
         (w : Geodetic) (id : string) (sm : option Summary) (s : option sensor),
  find w = Some id -> load id = Ok (mkLoaded None s sm) ->
  snd (set_elevation find (fun _ => load) (fst (run find (fun _ => load) (new_cache size) h)) w) = Ok w.
Proof.
  intros find load size h w id sm s F G.
  destruct (step_answer find (fun _ => load) (fst (run find (fun _ => load) (new_cache size) h)) (SetElevation w))
    as [n [_ A]]; [apply run_sound, new_cache_sound|].
  cbn in A. rewrite F in A.
  destruct (set_elevation find (fun _ => load) _ w) as [c' r]. cbn in *. destruct id as [|a t]; [congruence|].
  rewrite G in A. cbn in A. congruence.
Qed.
Print Assumptions C17_missing_tile_leaves_elevation.

Example C17_non_vacuous : demo_find (mkGeo (-1) 0 3) = None /\ demo_find (mkGeo 11 0 3) = Some "b"%string /\
  demo_load "b" = Ok (mkLoaded None None None).
Proof.
  unfold demo_find; cbn. destruct (Rlt_dec (-1) 0); [|lra]. destruct (Rlt_dec 11 0); [lra|].
  destruct (Rlt_dec 11 10); [lra|]. repeat split.
Qed.

(** The documentation promises an unchanged elevation where the DEM has no elevation values.
    A post holding the tile's no-data value is assigned as if it were an elevation. *)
Theorem C17_no_data_post_refuted :
  exists (find : Geodetic -> option string) (load : string -> res Tile) (w : Geodetic) (v : R),
  (exists t sm, load "t"%string = Ok t /\ find w = Some "t"%string /\
                t_summary t = Some sm /\ no_data_value sm = Some v /\
                forall a row x, t_array t = Some a -> In row a -> In x row -> x = v) /\
  elevation w <> v /\
  snd (set_elevation find (fun _ => load) (new_cache 10) w) = Ok (mkGeo (longitude w) (latitude w) v).
Proof.
  set (a := [[-32767; -32767]; [-32767; -32767]]).
  exists (fun _ => Some "t"%string),
         (fun _ => Ok (mkLoaded (Some a) (Some (fun _ => (0, 0))) (Some (mkSummary 0 0 (Some (-32767)) 30)))),
         (mkGeo 1 1 5), (-32767).
  split; [|split].
  - eexists _, _. repeat split.
    intros a' row x [= <-] Hr Hx. unfold a in Hr. cbn in Hr.
    destruct Hr as [<-|[<-|[]]]; cbn in Hx; intuition congruence.
  - cbn. lra.
  - unfold set_elevation, get_interpolation_grid, load_grid. cbn.
    pose proof (bilinear_node a 2 2 0 0 ltac:(lia) ltac:(lia) ltac:(lia) ltac:(lia)) as A. cbn [INR] in A.
    rewrite A. reflexivity.
Qed.
Print Assumptions C17_no_data_post_refuted.

(** Constant elevation models. *)
Theorem C17_constant_model :
  forall (e : R) (w : Geodetic),
  let w' := constant_set_elevation e w in
  longitude w' = longitude w /\ latitude w' = latitude w /\ elevation w' = e /\
  constant_describe_region e w = Some (mkSummary e e (Some (-32767)) 30).
Proof. intros. cbn. repeat split. Qed.
Print Assumptions C17_constant_model.

(** ** C18: rasters are read the right way round *)

(** After any history, at a location whose pixel in the tile is (x, y). *)
Lemma set_elevation_interpolates find load size h w id a s sm width height :
  find w = Some id -> id <> ""%string -> load id = Ok (mkLoaded (Some a) (Some s) sm) ->
  rectangular a width height -> (2 <= width)%nat -> (2 <= height)%nat ->
  snd (set_elevation find (fun _ => load) (fst (run find (fun _ => load) (new_cache size) h)) w)
  = Ok (mkGeo (longitude w) (latitude w) (bilinear a width height (fst (s w)) (snd (s w)))).
Proof.
  intros F NE G [Hh Hw] W H.
  destruct (step_answer find (fun _ => load) (fst (run find (fun _ => load) (new_cache size) h)) (SetElevation w))
    as [n [_ A]]; [apply run_sound, new_cache_sound|].
  cbn in A. rewrite F in A. destruct id as [|c0 t]; [congruence|]. rewrite G in A. cbn in A.
  destruct a as [|r0 rest]; [cbn in Hh; lia|].
  assert (Hr0 : List.length r0 = width) by (apply Hw; now left).
  cbn [hd] in A. rewrite Hr0, Hh in A.
  replace (Nat.leb width 1) with false in A by (symmetry; apply Nat.leb_gt; lia).
  replace (Nat.leb height 1) with false in A by (symmetry; apply Nat.leb_gt; lia).
  cbn [orb bind g_interp g_sensor] in A. destruct (set_elevation find (fun _ => load) _ w) as [c' r].
  cbn in *. congruence.
Qed.

Theorem C18_post_is_returned :
  forall (find : Geodetic -> option string) (load : string -> res Tile) (size : nat) (h : list call)
         (w : Geodetic) (id : string) (a : raster) (s : sensor) (sm : option Summary) (width height x y : nat),
  find w = Some id -> id <> ""%string -> load id = Ok (mkLoaded (Some a) (Some s) sm) ->
  rectangular a width height -> (2 <= width)%nat -> (2 <= height)%nat ->
  (x < width)%nat -> (y < height)%nat -> s w = (INR x, INR y) ->
  snd (set_elevation find (fun _ => load) (fst (run find (fun _ => load) (new_cache size) h)) w)
  = Ok (mkGeo (longitude w) (latitude w) (post a x y)).
Proof.
  intros find load size h w id a s sm width height x y F NE G Rc W H Hx Hy E.
  rewrite (set_elevation_interpolates find load size h w id a s sm width height F NE G Rc W H).
  rewrite E. cbn. rewrite bilinear_node by assumption. reflexivity.
Qed.
Print Assumptions C18_post_is_returned.

(** Between posts the four neighbours are blended in proportion to the distance from the
    opposite side. *)
Theorem C18_between_posts :
  forall (find : Geodetic -> option string) (load : string -> res Tile) (size : nat) (h : list call)
         (w : Geodetic) (id : string) (a : raster) (s : sensor) (sm : option Summary)
         (width height x y : nat) (u v : R),
  find w = Some id -> id <> ""%string -> load id = Ok (mkLoaded (Some a) (Some s) sm) ->
  rectangular a width height ->
  (x + 1 < width)%nat -> (y + 1 < height)%nat -> 0 <= u < 1 -> 0 <= v < 1 -> s w = (INR x + u, INR y + v) ->
  snd (set_elevation find (fun _ => load) (fst (run find (fun _ => load) (new_cache size) h)) w)
  = Ok (mkGeo (longitude w) (latitude w)
          ((1 - v) * ((1 - u) * post a x y + u * post a (x + 1) y) +
           v * ((1 - u) * post a x (y + 1) + u * post a (x + 1) (y + 1)))).
Proof.
  intros find load size h w id a s sm width height x y u v F NE G Rc Hx Hy Hu Hv E.
  rewrite (set_elevation_interpolates find load size h w id a s sm width height F NE G Rc ltac:(lia) ltac:(lia)).
  rewrite E. cbn [fst snd]. rewrite bilinear_cell by assumption. reflexivity.
Qed.
Print Assumptions C18_between_posts.

(** Wherever the pixel is, also outside the raster, the elevation is within the range of the
    posts. *)
Theorem C18_within_posts :
  forall (find : Geodetic -> option string) (load : string -> res Tile) (size : nat) (h : list call)
         (w w' : Geodetic) (id : string) (a : raster) (s : sensor) (sm : option Summary)
         (width height : nat) (lo hi : R),
  find w = Some id -> id <> ""%string -> load id = Ok (mkLoaded (Some a) (Some s) sm) ->
  rectangular a width height -> (2 <= width)%nat -> (2 <= height)%nat ->
  (forall row v, In row a -> In v row -> lo <= v <= hi) ->
  snd (set_elevation find (fun _ => load) (fst (run find (fun _ => load) (new_cache size) h)) w) = Ok w' ->
  lo <= elevation w' <= hi.
Proof.
  intros find load size h w w' id a s sm width height lo hi F NE G Rc W H B.
  rewrite (set_elevation_interpolates find load size h w id a s sm width height F NE G Rc W H).
  intros [= <-]. cbn [elevation]. apply bilinear_bounds; try assumption.
  intros i j Hi Hj. destruct Rc as [R1 R2]. unfold value_T.
  assert (I : In (nth j a []) a) by (apply nth_In; lia).
  apply (B (nth j a [])); [exact I|]. apply nth_In. rewrite (R2 _ I). exact Hi.
Qed.
Print Assumptions C18_within_posts.

Example C18_non_vacuous : rectangular demo_raster 3 2 /\ post demo_raster 2 0 = 30 /\ post demo_raster 0 1 = 40.
Proof. repeat split. cbn. intros row [<-|[<-|[]]]; reflexivity. Qed.

(** On the post in column 2 of row 1, and half way between columns 0 and 1 at a quarter between the rows. *)
Example C18_lookup_non_vacuous :
  forall (h : list call),
  let after := fst (run demo_find (fun _ => demo_load) (new_cache 1) h) in
  snd (set_elevation demo_find (fun _ => demo_load) after (mkGeo 2 1 7)) = Ok (mkGeo 2 1 60) /\
  snd (set_elevation demo_find (fun _ => demo_load) after (mkGeo (1 / 2) (1 / 4) 7)) = Ok (mkGeo (1 / 2) (1 / 4) (45 / 2)) /\
  (forall row v, In row demo_raster -> In v row -> 10 <= v <= 60).
Proof.
  intros h after. destruct C18_non_vacuous as [R _]. repeat split.
  - replace 60 with (post demo_raster 2 1) by reflexivity.
    apply (C18_post_is_returned demo_find demo_load 1 h (mkGeo 2 1 7) "a" demo_raster (fun w => (longitude w, latitude w)) (Some (mkSummary 10 60 None 30)) 3 2 2 1);
      try assumption; try lia; [apply demo_at_2|discriminate|reflexivity|]. cbn. f_equal.
  - replace (45 / 2) with ((1 - 1 / 4) * ((1 - 1 / 2) * post demo_raster 0 0 + 1 / 2 * post demo_raster 1 0) +
           1 / 4 * ((1 - 1 / 2) * post demo_raster 0 1 + 1 / 2 * post demo_raster 1 1)) by (cbn; lra).
    apply (C18_between_posts demo_find demo_load 1 h (mkGeo (1 / 2) (1 / 4) 7) "a" demo_raster (fun w => (longitude w, latitude w)) (Some (mkSummary 10 60 None 30)) 3 2 0 0);
      try assumption; try lia; try lra; [|discriminate|reflexivity|cbn; f_equal; lra].
    unfold demo_find. cbn [longitude]. destruct (Rlt_dec (1 / 2) 0); [lra|]. destruct (Rlt_dec (1 / 2) 10); [reflexivity|lra].
  - destruct H as [<-|[<-|[]]]; cbn in H0; lra.
  - destruct H as [<-|[<-|[]]]; cbn in H0; lra.
Qed.

(** ** C65: where DEM tiles are looked for *)

(** An S3 root becomes GDAL's virtual file system path; the tile id is appended after a slash. *)
Theorem C65_s3_root :
  forall (rest path : string),
  tile_location (String.append "s3:/" rest) path
  = String.append "/vsis3" (String.append rest (String.append "/" path)).
Proof.
  intros rest path. unfold tile_location. rewrite append_assoc.
  cbn. f_equal. f_equal. f_equal. f_equal. f_equal. f_equal.
  rewrite substring_all; [reflexivity|]. cbn. lia.
Qed.
Print Assumptions C65_s3_root.

(** A root and id that do not mention "s3:/" are only joined. *)
Theorem C65_plain_root :
  forall (dir path : string),
  (forall p s, String.append dir (String.append "/" path) <> String.append p (String.append "s3:/" s)) ->
  tile_location dir path = String.append dir (String.append "/" path).
Proof.
  intros dir path. unfold tile_location. generalize (String.append dir (String.append "/" path)).
  assert (SW : forall p s, starts_with p s = true -> exists r, s = String.append p r).
  { induction p as [|a p IH]; intros s H; [exists s; reflexivity|].
    destruct s as [|b s]; cbn in H; [discriminate|]. destruct (Ascii.eqb_spec a b); [|discriminate].
    destruct (IH s H) as [r ->]. exists r. subst. reflexivity. }
  induction s as [|c s IH]; intros H; [reflexivity|]. cbn [replace_once].
  destruct (starts_with "s3:/" (String c s)) eqn:E.
  - exfalso. destruct (SW _ _ E) as [r Hr]. exact (H EmptyString r Hr).
  - f_equal. apply IH. intros p t C. apply (H (String c p) t). cbn. now rewrite C.
Qed.
Print Assumptions C65_plain_root.

Example C65_non_vacuous :
  tile_location "s3://bucket/dem" "N10E020.tif" = "/vsis3/bucket/dem/N10E020.tif"%string /\
  tile_location "/data" "N10E020.tif" = "/data/N10E020.tif"%string.
Proof. split; reflexivity. Qed.
