(** Property theorems for elevation tiles read with GDAL: C17 (missing files) and C78. *)
Require Import ZArith Reals String List Lra Lia.
Require Import Verif.Base Verif.BaseFacts Verif.Vec Verif.VecFacts Verif.CoordProofs Verif.SensorBase Verif.TransformModel.
Require Import Verif.DemModel Verif.DemSpec Verif.DemProofs Verif.DemProps Verif.DemGdalModel.
Import ListNotations.
Local Open Scope R_scope.

(** ** C17: tiles that are not there *)

(** A file that GDAL does not find, or that has no geotransform, changes nothing. *)
Theorem C17_gdal_missing_file_leaves_elevation :
  forall (gdal_open : string -> res (option DemDataset)) (to_geocentric : Geodetic -> Vec) (dir : string)
         (find : Geodetic -> option string) (size : nat) (h : list call) (w : Geodetic) (id : string),
  find w = Some id ->
  (gdal_open (tile_location dir id) = Ok None \/
   exists ds, gdal_open (tile_location dir id) = Ok (Some ds) /\ dd_transform ds = None) ->
  let load := gdal_get_tile gdal_open to_geocentric dir in
  snd (set_elevation find (fun _ => load) (fst (run find (fun _ => load) (new_cache size) h)) w) = Ok w.
Proof.
  intros op geo dir find size h w id F H load.
  apply (C17_missing_tile_leaves_elevation find load size h w id None None F).
  unfold load, gdal_get_tile. destruct H as [H|[ds [H H']]]; rewrite H; cbn; [|rewrite H']; reflexivity.
Qed.
Print Assumptions C17_gdal_missing_file_leaves_elevation.

(** The documentation also promises an unchanged elevation after an error loading the tile.  An
    exception of gdal.Open, and a geotransform that cannot be inverted, reach the caller instead. *)
Lemma load_error find load size h w id e :
  find w = Some id -> id <> ""%string -> load id = Err e ->
  snd (set_elevation find (fun _ => load) (fst (run find (fun _ => load) (new_cache size) h)) w) = Err e /\
  snd (describe_region find (fun _ => load) (fst (run find (fun _ => load) (new_cache size) h)) w) = Err e.
Proof.
  intros F NE G. split.
  - destruct (step_answer find (fun _ => load) (fst (run find (fun _ => load) (new_cache size) h)) (SetElevation w))
      as [n [_ A]]; [apply run_sound, new_cache_sound|].
    cbn in A. rewrite F in A. destruct id as [|c t]; [congruence|]. rewrite G in A. cbn in A.
    destruct (set_elevation find (fun _ => load) _ w) as [c' r]. cbn in *. congruence.
  - destruct (step_answer find (fun _ => load) (fst (run find (fun _ => load) (new_cache size) h)) (DescribeRegion w))
      as [n [_ A]]; [apply run_sound, new_cache_sound|].
    cbn in A. rewrite F in A. destruct id as [|c t]; [congruence|]. rewrite G in A. cbn in A.
    destruct (describe_region find (fun _ => load) _ w) as [c' r]. cbn in *. congruence.
Qed.

Theorem C17_loading_error :
  forall (gdal_open : string -> res (option DemDataset)) (to_geocentric : Geodetic -> Vec) (dir : string)
         (find : Geodetic -> option string) (size : nat) (h : list call) (w : Geodetic) (id : string) (e : exn),
  find w = Some id -> id <> ""%string ->
  (gdal_open (tile_location dir id) = Err e \/
   e = ValueError /\ exists ds g0 g1 g2 g3 g4 g5, gdal_open (tile_location dir id) = Ok (Some ds) /\
     dd_transform ds = Some [g0; g1; g2; g3; g4; g5] /\ g1 * g5 - g2 * g4 = 0) ->
  let load := gdal_get_tile gdal_open to_geocentric dir in
  let c := fst (run find (fun _ => load) (new_cache size) h) in
  snd (set_elevation find (fun _ => load) c w) = Err e /\ snd (describe_region find (fun _ => load) c w) = Err e.
Proof.
  intros op geo dir find size h w id e F NE H load c. apply (load_error find load size h w id e F NE).
  unfold load, gdal_get_tile. destruct H as [H|[-> [ds [g0 [g1 [g2 [g3 [g4 [g5 [H [T D]]]]]]]]]]]; rewrite H; [reflexivity|].
  cbn [bind]. rewrite T. unfold make_affine. rewrite mat_inv_err; [reflexivity|].
  unfold det, vdot, vcross. cbn. lra.
Qed.
Print Assumptions C17_loading_error.

Theorem C17_loading_error_refuted :
  exists (gdal_open : string -> res (option DemDataset)) (find : Geodetic -> option string) (w : Geodetic),
  forall (to_geocentric : Geodetic -> Vec) (dir : string),
  snd (set_elevation find (fun _ => gdal_get_tile gdal_open to_geocentric dir) (new_cache 10) w) <> Ok w.
Proof.
  exists (fun _ => Err RuntimeError), (fun _ => Some "t"%string), (mkGeo 0 0 0). intros geo dir.
  destruct (C17_loading_error (fun _ => Err RuntimeError) geo dir (fun _ => Some "t"%string) 10 [] (mkGeo 0 0 0) "t" RuntimeError
              eq_refl ltac:(discriminate) (or_introl eq_refl)) as [E _].
  cbn [run fst] in E. rewrite E. discriminate.
Qed.
Print Assumptions C17_loading_error_refuted.

(** Directories in which every file is missing, has no geotransform, cannot be opened, or has a
    geotransform of determinant zero. *)
Example C17_gdal_non_vacuous :
  let find (w : Geodetic) := Some "t"%string in
  let plain := mkDemDataset None [[0; 0]; [0; 400]] (0, 400) None in
  let flat := mkDemDataset (Some [10; 1; 2; 50; 2; 4]) [[0; 0]; [0; 400]] (0, 400) None in
  let elevation_with op := fun geo h w => let load := gdal_get_tile op geo "/dem" in
    snd (set_elevation find (fun _ => load) (fst (run find (fun _ => load) (new_cache 2) h)) w) in
  forall geo h w,
  elevation_with (fun _ => Ok None) geo h w = Ok w /\ elevation_with (fun _ => Ok (Some plain)) geo h w = Ok w /\
  elevation_with (fun _ => Err RuntimeError) geo h w = Err RuntimeError /\
  elevation_with (fun _ => Ok (Some flat)) geo h w = Err ValueError.
Proof.
  intros find plain flat elevation_with geo h w. unfold elevation_with. repeat split.
  - apply (C17_gdal_missing_file_leaves_elevation (fun _ => Ok None) geo "/dem" find 2 h w "t"); [reflexivity|left; reflexivity].
  - apply (C17_gdal_missing_file_leaves_elevation (fun _ => Ok (Some plain)) geo "/dem" find 2 h w "t"); [reflexivity|right; exists plain; auto].
  - apply (C17_loading_error (fun _ => Err RuntimeError) geo "/dem" find 2 h w "t"); [reflexivity|discriminate|left; reflexivity].
  - apply (C17_loading_error (fun _ => Ok (Some flat)) geo "/dem" find 2 h w "t"); [reflexivity|discriminate|].
    right. split; [reflexivity|]. exists flat, 10, 1, 2, 50, 2, 4. repeat split. lra.
Qed.

(** ** C78: elevations of GDAL tiles *)

(** The location that GDAL's geotransform gives pixel coordinates (x, y), in degrees: whole numbers
    are upper left corners of pixels. *)
Definition gdal_longitude (g : list R) (x y : R) : R := nth 0 g 0 + nth 1 g 0 * x + nth 2 g 0 * y.
Definition gdal_latitude (g : list R) (x y : R) : R := nth 3 g 0 + nth 4 g 0 * x + nth 5 g 0 * y.
Definition at_pixel (w : Geodetic) (g : list R) (x y : R) : Prop :=
  longitude w = gdal_longitude g x y * PI / 180 /\ latitude w = gdal_latitude g x y * PI / 180.

Lemma pixel_of_location g m w x y :
  make_affine g None = Ok m -> at_pixel w g x y -> pixel_of m w = (x, y).
Proof.
  destruct g as [|g0 [|g1 [|g2 [|g3 [|g4 [|g5 rest]]]]]]; try discriminate.
  unfold make_affine. set (M := mkMat _ _ _). destruct (mat_inv M) as [inv|[]] eqn:Ei; try discriminate.
  intros [= <-] [A B]. unfold pixel_of, affine_world_to_image. cbn [image_to_wgs84 inv_transform ix iy].
  replace (mkVec _ _ 1) with (mulv M (mkVec x y 1)).
  - rewrite (mat_inv_l M inv _ Ei). reflexivity.
  - rewrite A, B. pose proof PI_neq0. unfold gdal_longitude, gdal_latitude, degrees, M, mulv, vdot. cbn. f_equal; try ring; field; assumption.
Qed.

Section Tile.
Variables (gdal_open : string -> res (option DemDataset)) (to_geocentric : Geodetic -> Vec) (dir : string).
Variables (find : Geodetic -> option string) (size : nat) (h : list call) (w : Geodetic) (id : string) (ds : DemDataset).
Variables (g0 g1 g2 g3 g4 g5 : R) (width height : nat).
(** A tile is found for the location, and its file has an invertible geotransform and at least two
    rows and columns. *)
Definition good_tile : Prop :=
  find w = Some id /\ id <> ""%string /\ gdal_open (tile_location dir id) = Ok (Some ds) /\
  dd_transform ds = Some [g0; g1; g2; g3; g4; g5] /\ g1 * g5 - g2 * g4 <> 0 /\
  rectangular (dd_array ds) width height /\ (2 <= width)%nat /\ (2 <= height)%nat.
End Tile.

Lemma good_load op geo dir find w id ds g0 g1 g2 g3 g4 g5 width height :
  good_tile op dir find w id ds g0 g1 g2 g3 g4 g5 width height ->
  exists m ul lr, make_affine [g0; g1; g2; g3; g4; g5] None = Ok m /\
  ul = mkGeo (g0 * PI / 180) (g3 * PI / 180) 0 /\
  lr = mkGeo (gdal_longitude [g0; g1; g2; g3; g4; g5] (INR width) (INR height) * PI / 180)
             (gdal_latitude [g0; g1; g2; g3; g4; g5] (INR width) (INR height) * PI / 180) 0 /\
  gdal_get_tile op geo dir id
  = Ok (mkLoaded (Some (dd_array ds)) (Some (pixel_of m))
         (Some (mkSummary (fst (dd_stats ds)) (snd (dd_stats ds)) (dd_no_data ds)
            (vnorm (vsub (geo ul) (geo lr)) / sqrt (INR width * INR width + INR height * INR height))))).
Proof.
  intros (F & NE & O & T & D & [Hh Hw] & W & H).
  unfold gdal_get_tile. rewrite O. cbn [bind]. rewrite T. unfold make_affine. set (M := mkMat _ _ _).
  destruct (mat_inv_ok M) as [inv E]. { unfold M, det, vdot, vcross. cbn. intros C. apply D. rewrite <- C. ring. }
  rewrite E. eexists _, _, _. split; [reflexivity|]. split; [reflexivity|]. split; [reflexivity|].
  cbn [bind]. unfold approximate_post_spacing, affine_image_to_world. cbn [bind image_to_wgs84 transform ix iy].
  destruct (dd_array ds) as [|r0 rest]; [cbn in Hh; lia|]. cbn [hd].
  rewrite (Hw r0 (or_introl eq_refl)), Hh.
  repeat f_equal; unfold M, mulv, vdot, radians, gdal_longitude, gdal_latitude; cbn; field.
Qed.

(** describe_region reports GDAL's statistics and no-data value, and as post spacing the distance
    between the tile's outer corners divided by the diagonal in pixels. *)
Theorem C78_summary :
  forall op geo dir find size h w id ds g0 g1 g2 g3 g4 g5 width height,
  good_tile op dir find w id ds g0 g1 g2 g3 g4 g5 width height ->
  let load := gdal_get_tile op geo dir in
  let g := [g0; g1; g2; g3; g4; g5] in
  let x := INR width in let y := INR height in
  exists sm,
  snd (describe_region find (fun _ => load) (fst (run find (fun _ => load) (new_cache size) h)) w) = Ok (Some sm) /\
  (min_elevation sm, max_elevation sm) = dd_stats ds /\ no_data_value sm = dd_no_data ds /\
  post_spacing sm * sqrt (x ^ 2 + y ^ 2)
  = vnorm (vsub (geo (mkGeo (g0 * PI / 180) (g3 * PI / 180) 0))
                (geo (mkGeo (gdal_longitude g x y * PI / 180) (gdal_latitude g x y * PI / 180) 0))).
Proof.
  intros op geo dir find size h w id ds g0 g1 g2 g3 g4 g5 width height G load g x y.
  destruct (good_load op geo dir find w id ds g0 g1 g2 g3 g4 g5 width height G) as (m & ul & lr & Em & Eu & El & E).
  destruct G as (F & NE & O & T & D & [Hh Hw] & W & H).
  destruct (step_answer find (fun _ => load) (fst (run find (fun _ => load) (new_cache size) h)) (DescribeRegion w))
    as [n [_ A]]; [apply run_sound, new_cache_sound|].
  cbn in A. rewrite F in A. destruct id as [|c0 t]; [congruence|]. unfold load in A at 3. rewrite E in A. cbn in A.
  destruct (dd_array ds) as [|r0 rest] eqn:Ea; [cbn in Hh; lia|].
  assert (Hr0 : List.length r0 = width) by (apply Hw; now left).
  cbn [hd] in A. rewrite Hr0, Hh in A.
  replace (Nat.leb width 1) with false in A by (symmetry; apply Nat.leb_gt; lia).
  replace (Nat.leb height 1) with false in A by (symmetry; apply Nat.leb_gt; lia).
  cbn in A. eexists. split; [destruct (describe_region find (fun _ => load) _ w) as [c' r]; cbn in *; injection A as ->; reflexivity|].
  cbn. split; [now destruct (dd_stats ds)|]. split; [reflexivity|].
  rewrite <- Eu. unfold g. fold g x y. fold x y in El. subst g. cbn [nth] in El. rewrite <- El.
  replace (x * (x * 1) + y * (y * 1)) with (x * x + y * y) by ring. field.
  apply Rgt_not_eq, sqrt_lt_R0. assert (0 < x) by (apply lt_0_INR; lia). assert (0 <= y) by apply pos_INR. nra.
Qed.
Print Assumptions C78_summary.

(** At pixel coordinates (x + u, y + v) the four posts around are blended; so the value of the post
    in row y and column x is found at the upper left corner of its pixel. *)
Theorem C78_elevation :
  forall op geo dir find size h w id ds g0 g1 g2 g3 g4 g5 width height (x y : nat) (u v : R),
  good_tile op dir find w id ds g0 g1 g2 g3 g4 g5 width height ->
  (x + 1 < width)%nat -> (y + 1 < height)%nat -> 0 <= u < 1 -> 0 <= v < 1 ->
  at_pixel w [g0; g1; g2; g3; g4; g5] (INR x + u) (INR y + v) ->
  let load := gdal_get_tile op geo dir in
  let post := post (dd_array ds) in
  snd (set_elevation find (fun _ => load) (fst (run find (fun _ => load) (new_cache size) h)) w)
  = Ok (mkGeo (longitude w) (latitude w)
          ((1 - v) * ((1 - u) * post x y + u * post (x + 1) y) + v * ((1 - u) * post x (y + 1) + u * post (x + 1) (y + 1))))%nat.
Proof.
  intros op geo dir find size h w id ds g0 g1 g2 g3 g4 g5 width height x y u v G Hx Hy Hu Hv A load p.
  destruct (good_load op geo dir find w id ds g0 g1 g2 g3 g4 g5 width height G) as (m & ul & lr & Em & Eu & El & E).
  destruct G as (F & NE & O & T & D & Rc & W & H).
  eapply C18_between_posts; try eassumption. eapply pixel_of_location; eassumption.
Qed.
Print Assumptions C78_elevation.

Theorem C78_post_at_corner :
  forall op geo dir find size h w id ds g0 g1 g2 g3 g4 g5 width height (x y : nat),
  good_tile op dir find w id ds g0 g1 g2 g3 g4 g5 width height ->
  (x < width)%nat -> (y < height)%nat -> at_pixel w [g0; g1; g2; g3; g4; g5] (INR x) (INR y) ->
  let load := gdal_get_tile op geo dir in
  snd (set_elevation find (fun _ => load) (fst (run find (fun _ => load) (new_cache size) h)) w)
  = Ok (mkGeo (longitude w) (latitude w) (post (dd_array ds) x y)).
Proof.
  intros op geo dir find size h w id ds g0 g1 g2 g3 g4 g5 width height x y G Hx Hy A load.
  destruct (good_load op geo dir find w id ds g0 g1 g2 g3 g4 g5 width height G) as (m & ul & lr & Em & Eu & El & E).
  destruct G as (F & NE & O & T & D & Rc & W & H).
  eapply C18_post_is_returned; try eassumption. eapply pixel_of_location; eassumption.
Qed.
Print Assumptions C78_post_at_corner.

(** GDAL's convention, also for the half post by which its SRTM and DTED drivers widen a tile, is that
    the post is the centre of its pixel.  There the code returns the mean of the post and its
    neighbours to the east, south and south east: elevations are displaced by half a post. *)
Theorem C78_centre :
  forall op geo dir find size h w id ds g0 g1 g2 g3 g4 g5 width height (x y : nat),
  good_tile op dir find w id ds g0 g1 g2 g3 g4 g5 width height ->
  (x + 1 < width)%nat -> (y + 1 < height)%nat ->
  at_pixel w [g0; g1; g2; g3; g4; g5] (INR x + 1 / 2) (INR y + 1 / 2) ->
  let load := gdal_get_tile op geo dir in
  let post := post (dd_array ds) in
  snd (set_elevation find (fun _ => load) (fst (run find (fun _ => load) (new_cache size) h)) w)
  = Ok (mkGeo (longitude w) (latitude w)
          ((post x y + post (x + 1)%nat y + post x (y + 1)%nat + post (x + 1)%nat (y + 1)%nat) / 4)).
Proof.
  intros op geo dir find size h w id ds g0 g1 g2 g3 g4 g5 width height x y G Hx Hy A load p.
  unfold load. erewrite (C78_elevation op geo dir find size h w id ds) with (u := 1 / 2) (v := 1 / 2); try eassumption; try lra.
  fold p. f_equal. f_equal. field.
Qed.
Print Assumptions C78_centre.

(** A tile of two by two posts with one degree between them. *)
Definition demo_dataset : DemDataset := mkDemDataset (Some [10; 1; 0; 50; 0; -1]) [[0; 0]; [0; 400]] (0, 400) None.
Definition demo_open (n : string) : res (option DemDataset) := Ok (Some demo_dataset).
Definition demo_center : Geodetic := mkGeo (21 / 2 * PI / 180) (99 / 2 * PI / 180) 0.
Definition demo_tile_of (w : Geodetic) : option string := Some "t"%string.

Example C78_non_vacuous :
  good_tile demo_open "/dem" demo_tile_of demo_center "t" demo_dataset 10 1 0 50 0 (-1) 2 2 /\
  at_pixel demo_center [10; 1; 0; 50; 0; -1] (INR 0 + 1 / 2) (INR 0 + 1 / 2).
Proof.
  split.
  - repeat split; try reflexivity; try lia; try discriminate; try lra. cbn. intros row [<-|[<-|[]]]; reflexivity.
  - unfold at_pixel, gdal_longitude, gdal_latitude, demo_center. cbn. split; field.
Qed.

Theorem C78_centre_refuted :
  exists op dir find w id ds g0 g1 g2 g3 g4 g5 width height,
  good_tile op dir find w id ds g0 g1 g2 g3 g4 g5 width height /\
  at_pixel w [g0; g1; g2; g3; g4; g5] (1 / 2) (1 / 2) /\
  forall geo, exists w', snd (set_elevation find (fun _ => gdal_get_tile op geo dir) (new_cache 10) w) = Ok w' /\
  elevation w' = 100 /\ post (dd_array ds) 0 0 = 0.
Proof.
  exists demo_open, "/dem"%string, demo_tile_of, demo_center, "t"%string, demo_dataset, 10, 1, 0, 50, 0, (-1), 2%nat, 2%nat.
  destruct C78_non_vacuous as [G A]. split; [exact G|].
  split; [revert A; cbn [INR]; rewrite !Rplus_0_l; exact (fun A => A)|].
  intros geo. eexists. split.
  - exact (C78_centre demo_open geo "/dem" demo_tile_of 10 [] demo_center "t" demo_dataset 10 1 0 50 0 (-1) 2 2 0 0 G
             ltac:(lia) ltac:(lia) A).
  - cbn. split; [field|reflexivity].
Qed.
Print Assumptions C78_centre_refuted.
