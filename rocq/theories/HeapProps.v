(** C87: coordinates as the mutable objects they are. *)
Require Import ZArith Reals String List Lia Lra.
Require Import Verif.Base Verif.Vec Verif.RpcModel Verif.RsmModel Verif.TransformModel Verif.SicdModel.
Require Import Verif.HeapModel Verif.HeapSpec Verif.HeapProofs.
Require Verif.DemModel.
Import ListNotations.
Local Open Scope R_scope.

(** A coordinate made from the array of another is a separate object: it starts with the same
    numbers, and an assignment to one is never seen through the other.  A wrong number of components
    is refused and nothing is made. *)
Theorem C87_constructors : forall h l v, nth_error h l = Some v ->
  (List.length v = 3%nat -> exists h' l', world_coordinate_of l h = (h', Ok l') /\ nth_error h l' = None /\
     nth_error h' l' = Some v /\ nth_error h' l = Some v /\
     forall i x, nth_error (fst (set_item l' i x h')) l = Some v /\ nth_error (fst (set_item l i x h')) l' = Some v) /\
  (List.length v = 2%nat -> exists h' l', image_coordinate_of l h = (h', Ok l') /\ nth_error h l' = None /\
     nth_error h' l' = Some v /\ nth_error h' l = Some v /\
     forall i x, nth_error (fst (set_item l' i x h')) l = Some v /\ nth_error (fst (set_item l i x h')) l' = Some v) /\
  (List.length v <> 3%nat -> world_coordinate_of l h = (h, Err ValueError)) /\
  (List.length v <> 2%nat -> image_coordinate_of l h = (h, Err ValueError)).
Proof.
  intros h l v E.
  assert (N : l <> List.length h). { intros ->. assert (H := nth_error_Some h (List.length h)). rewrite E in H. assert (Some v <> None) by discriminate. apply H in H0. lia. }
  assert (S : forall a b i x (h' : cells), a <> b -> nth_error (fst (set_item a i x h')) b = nth_error h' b).
  { intros a b i x h' D. unfold set_item. destruct (nth_error h' a) as [u|]; [destruct (Nat.ltb _ _)|]; cbn [fst]; auto.
    rewrite nth_replace. destruct (Nat.eqb_spec b a); congruence. }
  assert (A : exists h' l', new_array v h = (h', Ok l') /\ nth_error h l' = None /\ nth_error h' l' = Some v /\ nth_error h' l = Some v /\
     forall i x, nth_error (fst (set_item l' i x h')) l = Some v /\ nth_error (fst (set_item l i x h')) l' = Some v).
  { exists (h ++ [v])%list, (List.length h). split; [reflexivity|]. split; [apply nth_error_None; lia|].
    split; [apply nth_mid|]. split; [now apply nth_ext|]. intros i x. rewrite !S by auto. split; [now apply nth_ext | apply nth_mid]. }
  unfold world_coordinate_of, image_coordinate_of, seq_, read. rewrite E. unfold world_coordinate, image_coordinate.
  repeat split; intros L; try (rewrite L; exact A); apply Nat.eqb_neq in L; now rewrite L.
Qed.
Print Assumptions C87_constructors.

(** Without an argument a new origin is made. *)
Theorem C87_default_coordinates : forall h,
  world_coordinate None h = ((h ++ [[0; 0; 0]])%list, Ok (List.length h)) /\
  image_coordinate None h = ((h ++ [[0; 0]])%list, Ok (List.length h)).
Proof. intros h. split; reflexivity. Qed.
Print Assumptions C87_default_coordinates.

(** Elevation models change the elevation of the coordinate they are given and nothing else. *)
Theorem C87_elevation : (forall e, polite (constant_set_elevation e)) /\
  (forall e, implements (constant_set_elevation e) (constant_elevation e)) /\
  (forall find grid, (forall id g s, grid id = Ok g -> hg_sensor g = Some s -> forall l, writes_nothing_old (s l)) ->
     polite (dem_set_elevation find grid)).
Proof. split; [exact polite_constant|]. split; [exact implements_constant | exact polite_dem]. Qed.
Print Assumptions C87_elevation.

(** The digital elevation model leaves in the coordinate what C15 says, and nothing at all where
    that raises. *)
Theorem C87_dem : forall find grid (get_tile : nat -> string -> res DemModel.Tile) size h l w,
  (forall id, grid_implements (grid id) (DemModel.load_grid get_tile 0 id)) -> nth_error h l = Some (geo_array w) ->
  match snd (DemModel.set_elevation find get_tile (DemModel.new_cache size) w) with
  | Ok w' => exists t, dem_set_elevation find grid l h = ((replace_nth l (geo_array w') h ++ t)%list, Ok tt)
  | Err e => dem_set_elevation find grid l h = (h, Err e)
  end.
Proof. exact dem_set. Qed.
Print Assumptions C87_dem.

(** No sensor model writes to a coordinate of its caller, and every answer is a new object. *)
Theorem C87_sensors_harmless :
  (forall m, harmless (h_affine m)) /\ (forall t, harmless (h_projective t)) /\
  (forall s t, harmless s -> harmless (h_chipped s t)) /\
  (forall a p, harmless a -> harmless p -> harmless (h_composite a p)) /\
  (forall minimize m, harmless (h_rpc minimize m)) /\
  (forall to_geocentric minimize origin m, harmless (h_rsm to_geocentric minimize origin m)) /\
  (forall to_geocentric origin m models, (forall row s, In row models -> In s row -> harmless s) ->
     harmless (h_sectioned to_geocentric origin m models)).
Proof.
  split; [intros; apply framed_harmless, framed_affine|]. split; [intros; apply framed_harmless, framed_projective|].
  split; [intros s t H; now apply framed_harmless, framed_chipped, harmless_framed|].
  split; [intros a p A P; apply framed_harmless, framed_composite; now apply harmless_framed|].
  split; [intros; apply framed_harmless, framed_rpc|]. split; [intros; apply framed_harmless, framed_rsm|].
  intros tc o m models H. apply framed_harmless, framed_sectioned. intros row s R I. apply harmless_framed. eapply H; eassumption.
Qed.
Print Assumptions C87_sensors_harmless.

(** The same for the SICD model and for interpolated locations. *)
Theorem C87_sicd_harmless : forall to_geodetic to_geocentric m,
  (forall l, writes_nothing_old (h_sicd_world_to_image to_geodetic to_geocentric m l) /\ answers_new (h_sicd_world_to_image to_geodetic to_geocentric m l)) /\
  (forall i em, match em with None => True | Some (set, _) => polite set end ->
     writes_nothing_old (h_sicd_image_to_world to_geodetic to_geocentric m i em) /\
     forall h h' l, h_sicd_image_to_world to_geodetic to_geocentric m i em h = (h', Ok (Some l)) -> (List.length h <= l < List.length h')%nat).
Proof.
  intros tg tc m. split; [intros l; apply frames_spec; intros n; apply frames_sicd|].
  intros i em P. assert (F := fun n => frames_sicd_image n n tg tc m i em P). split.
  - intros h h' r E. destruct (F (List.length h) h ltac:(lia) ltac:(lia)) as [U _]. rewrite E in U. exact U.
  - intros h h' l E. destruct (F (List.length h) h ltac:(lia) ltac:(lia)) as [_ V]. rewrite E in V. apply (V (Some l) eq_refl).
Qed.
Print Assumptions C87_sicd_harmless.
Theorem C87_grid_harmless : forall lon lat elev em x y, polite_option em ->
  writes_nothing_old (h_grid_call lon lat elev em x y) /\ answers_new (h_grid_call lon lat elev em x y).
Proof. intros. apply frames_spec. intros n. now apply frames_grid_call. Qed.
Print Assumptions C87_grid_harmless.

(** The objects compute what the models with values say, in every heap: so nothing that happened
    before, and no coordinate the caller still holds, has an influence on an answer. *)
Theorem C87_values : forall h0,
  (forall m, faithful h0 (h_affine m) (affine_sensor m)) /\
  (forall t, faithful h0 (h_projective t) (projective_sensor t)) /\
  (forall S s t, faithful h0 S s -> faithful h0 (h_chipped S t) (chipped_sensor (mkChipped s t))) /\
  (forall A B a b, faithful h0 A a -> faithful h0 B b -> faithful h0 (h_composite A B) (composite_sensor (mkComposite a b))) /\
  (forall minimize m, faithful h0 (h_rpc minimize m) (rpc_sensor (fun f g t => outcome (minimize g t) f) m)) /\
  (forall to_geocentric minimize origin m, origin_is h0 origin (gd_origin (rp_domain m)) ->
     faithful h0 (h_rsm to_geocentric minimize origin m) (rsm_sensor to_geocentric (fun f g b t => outcome (minimize g b t) f) m)) /\
  (forall to_geocentric origin m models, origin_is h0 origin (gd_origin (sc_domain m)) ->
     Forall2 (Forall2 (faithful h0)) models (section_models m) ->
     faithful h0 (h_sectioned to_geocentric origin m models) (sectioned_sensor to_geocentric m)).
Proof.
  intros h0. split; [exact (faithful_affine h0)|]. split; [exact (faithful_projective h0)|]. split; [exact (faithful_chipped h0)|].
  split; [exact (faithful_composite h0)|]. split; [exact (faithful_rpc h0)|]. split; [exact (faithful_rsm h0) | exact (faithful_sectioned h0)].
Qed.
Print Assumptions C87_values.
Theorem C87_sicd_values : forall to_geodetic to_geocentric m h,
  (forall l g, nth_error h l = Some (geo_array g) ->
     computes (new_image (List.length h)) (h_sicd_world_to_image to_geodetic to_geocentric m l) h (sicd_world_to_image to_geodetic to_geocentric m g)) /\
  (forall i p em t, nth_error h i = Some (image_array p) ->
     match em, t with
     | None, None => True
     | Some (set, describe), Some t => implements set (set_elevation t) /\ describe = describe_region t
     | _, _ => False
     end ->
     computes (new_world_option (List.length h)) (h_sicd_image_to_world to_geodetic to_geocentric m i em) h (sicd_image_to_world to_geodetic to_geocentric m p t)).
Proof. intros. split; intros; [now apply computes_sicd | now apply computes_sicd_image]. Qed.
Print Assumptions C87_sicd_values.
Theorem C87_grid_values : forall lon lat elev em f x y h, implements_option em f ->
  computes (new_world (List.length h)) (h_grid_call lon lat elev em x y) h
    (Ok (let g := mkGeo (lon x y) (lat x y) (elev x y) in match f with None => g | Some f => f g end)).
Proof. intros. now apply computes_grid_call. Qed.
Print Assumptions C87_grid_values.

(** Through any history of calls and assignments: a coordinate changes only by the caller's own
    assignments to it, and no two answers are the same object. *)
Theorem C87_history : forall before after h, Forall well_behaved before -> Forall well_behaved after ->
  let '(h1, answers1) := run_events before h in
  let '(h2, answers2) := run_events after h1 in
  run_events (before ++ after) h = (h2, (answers1 ++ answers2)%list) /\
  NoDup (answers1 ++ answers2) /\
  (forall l, In l (answers1 ++ answers2) -> nth_error h l = None /\ nth_error h2 l <> None) /\
  (forall k v, nth_error h1 k = Some v -> (forall e, In e after -> ~ assigned e k) -> nth_error h2 k = Some v).
Proof.
  intros before after h B A. destruct (run_events before h) as [h1 a1] eqn:E1. destruct (run_events after h1) as [h2 a2] eqn:E2.
  split; [rewrite events_app, E1, E2; reflexivity|].
  assert (N := events_spec (before ++ after) (proj2 (Forall_app _ _ _) (conj B A)) h h2 (a1 ++ a2)%list).
  rewrite events_app, E1, E2 in N. destruct (N eq_refl) as (_ & _ & D & F). split; [exact D|]. split.
  - intros l I. apply F in I. split; [apply nth_error_None | apply nth_error_Some]; lia.
  - intros k v Ek K. destruct (events_spec after A h1 h2 a2 E2) as (_ & U & _). rewrite U; [exact Ek | | exact K].
    apply nth_error_Some. congruence.
Qed.
Print Assumptions C87_history.

(** The ground domain hands the caller's own coordinate back when its form is plain geodetic, and a
    new one otherwise. *)
Theorem C87_domain_alias : forall to_geocentric d l h h' l',
  h_to_ground_domain to_geocentric d l h = (h', Ok l') ->
  unchanged_below (List.length h) h h' /\
  (gd_form (hd_rest d) = GEODETIC -> l' = l /\ h' = h) /\
  (gd_form (hd_rest d) <> GEODETIC -> (List.length h <= l' < List.length h')%nat).
Proof.
  intros tc d l h h' l' E. split; [|split].
  - destruct (frames_to_domain tc d (List.length h) (List.length h) l h ltac:(lia) ltac:(lia)) as [U _]. now rewrite E in U.
  - intros F. unfold h_to_ground_domain in E. rewrite F in E. injection E as <- <-. auto.
  - intros F. assert (G : frames (List.length h) (List.length h) (fresh (List.length h)) (h_to_ground_domain tc d l)).
    { unfold h_to_ground_domain. destruct (gd_form (hd_rest d)); [congruence | frame |].
      destruct (hd_origin d); [|apply frames_raise]. destruct (gd_units (hd_rest d)) as [[u iu]|]; [|apply frames_raise]. frame. }
    destruct (G h ltac:(lia) ltac:(lia)) as [_ V]. rewrite E in V. apply (V l' eq_refl).
Qed.
Print Assumptions C87_domain_alias.
Theorem C87_domain_back : forall to_geodetic d l,
  writes_nothing_old (h_from_ground_domain to_geodetic d l) /\ answers_new (h_from_ground_domain to_geodetic d l).
Proof. intros. apply frames_spec. intros n. apply frames_from_domain. Qed.
Print Assumptions C87_domain_back.

(** Conversions always give new coordinates: not so. *)
Definition plain : GroundDomain := mkGroundDomain GEODETIC [] None None [] None 0.
Theorem C87_domain_copy_refuted : ~ (forall to_geocentric d l, answers_new (h_to_ground_domain to_geocentric d l)).
Proof.
  intros H. specialize (H vec_of (mkHDomain None plain) 0%nat [[1; 2; 3]] [[1; 2; 3]] 0%nat eq_refl). cbn in H. lia.
Qed.
Print Assumptions C87_domain_copy_refuted.

(** A rectangular ground domain keeps the caller's origin object: a later assignment to it moves the
    pixels of the sensor model. *)
Definition one : Poly := mkPoly 0 0 0 [1].
Definition the_x : Poly := mkPoly 1 0 0 [0; 1].
Definition boxed : RsmPoly := mkRsmPoly
  (mkGroundDomain RECTANGULAR [] (Some (mkVec 0 0 0)) (Some (mkMat (mkVec 1 0 0) (mkVec 0 1 0) (mkVec 0 0 1), mkMat (mkVec 1 0 0) (mkVec 0 1 0) (mkVec 0 0 1))) [] None 0)
  0 0 0 0 0 1 1 1 1 1 the_x one the_x one.
Lemma boxed_at x o : ix (ground_domain_to_image boxed (mulv (mkMat (mkVec 1 0 0) (mkVec 0 1 0) (mkVec 0 0 1)) (vsub (vec_of (mkGeo x 0 0)) (mkVec o 0 0)))) = x - o.
Proof.
  unfold ground_domain_to_image, normalize_world_coordinate, normalize, denormalize_image_coordinate, denormalize, poly_evaluate, term, boxed, one, the_x, mulv, vsub, vec_of.
  cbn. unfold vdot. cbn. field.
Qed.
Theorem C87_origin_independent_refuted :
  ~ (forall m origin l i x h p, origin <> l ->
       (exists h' k, h_rsm_world_to_image vec_of (Some origin) m l h = (h', Ok k) /\ nth_error h' k = Some (image_array p)) ->
       (exists h' k, h_rsm_world_to_image vec_of (Some origin) m l (fst (set_item origin i x h)) = (h', Ok k) /\ nth_error h' k = Some (image_array p))).
Proof.
  intros H.
  assert (V : forall o, exists h' k p, h_rsm_world_to_image vec_of (Some 0%nat) boxed 1 [[o; 0; 0]; [5; 0; 0]] = (h', Ok k) /\ nth_error h' k = Some (image_array p) /\ ix p = 5 - o).
  { intros o. unfold h_rsm_world_to_image.
    assert (C : computes (new_image 2) (h_rsm_world_to_image vec_of (Some 0%nat) (mkRsmPoly (mkGroundDomain RECTANGULAR [] (Some (mkVec o 0 0)) (gd_units (rp_domain boxed)) [] None 0)
       0 0 0 0 0 1 1 1 1 1 the_x one the_x one) 1) [[o; 0; 0]; [5; 0; 0]] (Ok (ground_domain_to_image boxed (mulv (mkMat (mkVec 1 0 0) (mkVec 0 1 0) (mkVec 0 0 1)) (vsub (vec_of (mkGeo 5 0 0)) (mkVec o 0 0)))))).
    { apply (computes_rsm [[o; 0; 0]; [5; 0; 0]] vec_of (Some 0%nat) (mkRsmPoly (mkGroundDomain RECTANGULAR [] (Some (mkVec o 0 0)) (gd_units (rp_domain boxed)) [] None 0)
       0 0 0 0 0 1 1 1 1 1 the_x one the_x one) 1 (mkGeo 5 0 0)); reflexivity. }
    destruct C as (t & [k|e] & E & X); [|contradiction]. eexists. exists k. eexists. split; [exact E|]. split; [apply X | apply boxed_at]. }
  destruct (V 0) as (h1 & k1 & p1 & E1 & N1 & P1). destruct (V 1) as (h2 & k2 & p2 & E2 & N2 & P2).
  destruct (H boxed 0%nat 1%nat 0%nat 1 [[0; 0; 0]; [5; 0; 0]] p1 ltac:(discriminate) (ex_intro _ h1 (ex_intro _ k1 (conj E1 N1)))) as (h3 & k3 & E3 & N3).
  cbn [set_item nth_error List.length Nat.ltb Nat.leb replace_nth fst] in E3. rewrite E2 in E3. injection E3 as <- <-. rewrite N2 in N3. injection N3 as A B. lra.
Qed.
Print Assumptions C87_origin_independent_refuted.

(** One pixel located with a terrain, then its answer overwritten by the caller, then located again:
    the second answer is new and right, the pixel object is as it was. *)
Example C87_non_vacuous :
  let m := mkProjective 0 1 0 0 0 1 0 0 in
  let call := Call (h_image_to_world (h_projective m) 0 (Some (constant_set_elevation 70)) None) in
  Forall well_behaved [call; Assign 1 2 9; call] /\
  exists h, run_events [call; Assign 1 2 9; call] [[4; 5]] = (h, [1; 2]%nat) /\
    nth_error h 0 = Some [4; 5] /\ nth_error h 1 = Some [4; 5; 9] /\ nth_error h 2 = Some [4; 5; 70].
Proof.
  assert (Q : inverse1 (mkProjective 0 1 0 0 0 1 0 0) (4, 5) = (4, 5)).
  { unfold inverse1. cbn. f_equal; field. }
  split.
  - assert (W : writes_nothing_old (h_image_to_world (h_projective (mkProjective 0 1 0 0 0 1 0 0)) 0 (Some (constant_set_elevation 70)) None)
      /\ answers_new (h_image_to_world (h_projective (mkProjective 0 1 0 0 0 1 0 0)) 0 (Some (constant_set_elevation 70)) None)).
    { apply (framed_harmless _ (framed_projective _)). apply polite_constant. }
    repeat apply Forall_cons; cbn [well_behaved]; auto.
  - assert (S : forall t, h_image_to_world (h_projective (mkProjective 0 1 0 0 0 1 0 0)) 0 (Some (constant_set_elevation 70)) None ([4; 5] :: t)
      = ([4; 5] :: t ++ [[4; 5; 70]], Ok (S (List.length t)))%list).
    { intros t. cbn [h_projective h_image_to_world]. unfold seq_ at 1.
      replace (pixel 0 ([4; 5] :: t)) with (([4; 5] :: t)%list, Ok (mkImage 4 5)) by reflexivity. cbv zeta. cbn [ix iy]. rewrite Q. cbn [fst snd].
      unfold seq_ at 1, world_coordinate. cbn [List.length Nat.eqb]. unfold new_array. unfold seq_ at 1, set_optional, constant_set_elevation.
      replace (([4; 5] :: t) ++ [[4; 5; 0]])%list with (([4; 5] :: t) ++ [4; 5; 0] :: [])%list by reflexivity.
      rewrite (set_at _ (List.length ([4; 5] :: t)) [4; 5; 0] 2 70 (nth_mid _ _ _)) by (cbn; lia). rewrite replace_app. reflexivity. }
    cbn [run_events]. rewrite (S []). cbn [app List.length]. cbn [set_item nth_error List.length Nat.ltb Nat.leb replace_nth fst].
    rewrite (S [[4; 5; 9]]). cbn [app List.length]. eexists. split; [reflexivity|]. repeat split.
Qed.
(** Every hypothesis of the elevation theorems can be met. *)
Example C87_dem_non_vacuous :
  let grid := fun _ : string => Ok (mkHGrid (Some (fun x y => x + y)) (Some (h_world_to_image (h_projective (mkProjective 0 1 0 0 0 1 0 0))))) in
  polite (dem_set_elevation (fun _ => Some "tile"%string) grid) /\
  exists h, dem_set_elevation (fun _ => Some "tile"%string) grid 0%nat [[4; 5; 0]] = (h, Ok tt) /\ nth_error h 0 = Some [4; 5; 9].
Proof.
  intros grid. split.
  - apply polite_dem. intros id g s G E. unfold grid in G. injection G as <-. cbn [hg_sensor] in E. injection E as <-.
    intros l. destruct (framed_harmless _ (framed_projective (mkProjective 0 1 0 0 0 1 0 0))) as [_ B]. apply (B l).
  - assert (Q : forward1 (mkProjective 0 1 0 0 0 1 0 0) (4, 5) = (4, 5)). { unfold forward1. cbn. f_equal; field. }
    eexists. split; [|shelve]. unfold dem_set_elevation. unfold seq_ at 1. rewrite (geodetic_at [[4; 5; 0]] 0 (mkGeo 4 5 0) eq_refl). cbn [DemModel.truthy].
    unfold grid. unfold seq_ at 1, lift. cbn [hg_interp hg_sensor h_projective h_world_to_image].
    unfold seq_ at 1. unfold seq_ at 1. rewrite (geodetic_at [[4; 5; 0]] 0 (mkGeo 4 5 0) eq_refl). cbv zeta. cbn [longitude latitude]. rewrite Q. reflexivity.
    Unshelve. cbn [nth_error]. replace 9 with (4 + 5) by lra. reflexivity.
Qed.
