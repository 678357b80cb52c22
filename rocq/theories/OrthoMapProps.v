(** Property theorems for orthophotos of Web Mercator tiles: C79.
    Source of the combination: image_processing/__init__.py:60-70, which passes the bounds and the
    size of a map tile to create_orthophoto_tile. *)
Require Import Reals ZArith String List Lra Lia.
Require Import Verif.Base Verif.TileModel Verif.TileSpec Verif.TileProofs Verif.RsmModel Verif.GeolocModel Verif.GeolocSpec Verif.GeolocProofs Verif.OrthoModel Verif.OrthoProps.
Import ListNotations.
Local Open Scope R_scope.

(** Where the pixel that is a part [u] of the way from west to east and [v] of the way from north to
    south of a tile lies on the map, as (latitude, longitude): Web Mercator tiles are evenly spaced in
    projected metres. *)
Definition on_map (a : R) (t : MapTileId) (u v : R) : R * R :=
  inverse_mercator a (along (grid_line a (tile_matrix t) (tile_col t)) (grid_line a (tile_matrix t) (tile_col t + 1)) u)
                     (along (grid_line a (tile_matrix t) (tile_row t + 1)) (grid_line a (tile_matrix t) (tile_row t)) v).
(** Where the code takes it from: evenly spaced in longitude and latitude between the bounds (C62). *)
Definition taken_from (a : R) (size : Z) (id : string) (t : MapTileId) (u v : R) : R * R :=
  let b := mt_bounds (get_tile (inverse_mercator a) (make_tile_set a size id) t) in
  (along (b_max_y b) (b_min_y b) v, along (b_min_x b) (b_max_x b) u).

(** *** Even spacing in latitude against even spacing in northing *)
Definition gd (y : R) : R := 2 * atan (exp y) - PI / 2.
Lemma cosh_pos y : 0 < cosh y.
Proof. unfold cosh. pose proof (exp_pos y). pose proof (exp_pos (- y)). lra. Qed.
Lemma gd_derivative y : derivable_pt_lim gd y (/ cosh y).
Proof.
  unfold gd. replace (/ cosh y) with (2 * (/ (1 + (exp y) ^ 2) * exp y) - 0).
  - apply derivable_pt_lim_minus with (f1 := fun y => 2 * atan (exp y)) (f2 := fun _ => PI / 2); [|apply derivable_pt_lim_const].
    apply derivable_pt_lim_scal with (f := fun y => atan (exp y)).
    apply (derivable_pt_lim_comp exp atan); [apply derivable_pt_lim_exp|apply derivable_pt_lim_atan].
  - unfold cosh. rewrite exp_Ropp. pose proof (exp_pos y) as P. field. split; nra.
Qed.
Lemma sech_derivative y : derivable_pt_lim (fun y => / cosh y) y (- (sinh y / (cosh y * cosh y))).
Proof.
  pose proof (cosh_pos y) as P.
  replace (- (sinh y / (cosh y * cosh y))) with ((0 * cosh y - sinh y * 1) / Rsqr (cosh y)) by (unfold Rsqr; field; lra).
  assert (D : derivable_pt_lim (fun y => 1 / cosh y) y ((0 * cosh y - sinh y * 1) / Rsqr (cosh y))).
  { apply (derivable_pt_lim_div (fct_cte 1) cosh); [apply derivable_pt_lim_const | apply derivable_pt_lim_cosh | lra]. }
  intros e E. destruct (D e E) as [d H]. exists d. intros h H1 H2. specialize (H h H1 H2). cbn in H. unfold div_fct in H.
  replace (/ cosh (y + h)) with (1 / cosh (y + h)) by (unfold Rdiv; ring). replace (/ cosh y) with (1 / cosh y) by (unfold Rdiv; ring). exact H.
Qed.
Lemma cosh_sinh y : cosh y * cosh y - sinh y * sinh y = 1.
Proof. unfold cosh, sinh. rewrite exp_Ropp. pose proof (exp_pos y). field. lra. Qed.
Lemma sech_slope y : - (1 / 2) <= - (sinh y / (cosh y * cosh y)) <= 1 / 2.
Proof.
  pose proof (cosh_pos y) as P. pose proof (cosh_sinh y) as E. set (c := cosh y) in *. set (s := sinh y) in *.
  assert (Q : 0 < c * c) by nra.
  assert (A : - (1 / 2) <= s / (c * c) <= 1 / 2).
  { assert (X : s / (c * c) * (c * c) = s) by (field; lra). set (x := s / (c * c)) in *.
    pose proof (Rle_0_sqr (s - 1)) as S1. pose proof (Rle_0_sqr (s + 1)) as S2. unfold Rsqr in S1, S2.
    split; apply Rmult_le_reg_r with (c * c); try exact Q; rewrite ?X; lra. }
  lra.
Qed.
Lemma sech_lipschitz y y' : y <= y' -> - ((y' - y) / 2) <= / cosh y' - / cosh y <= (y' - y) / 2.
Proof.
  intros [H|<-]; [|lra]. destruct (MVT_cor2 (fun y => / cosh y) (fun y => - (sinh y / (cosh y * cosh y))) y y' H (fun c _ => sech_derivative c)) as (c & E & _).
  rewrite E. pose proof (sech_slope c). nra.
Qed.
Lemma cosh_increasing y y' : 0 <= y -> y < y' -> cosh y < cosh y'.
Proof.
  intros Y H. destruct (MVT_cor2 cosh sinh y y' H (fun c _ => derivable_pt_lim_cosh c)) as (c & E & C).
  assert (0 < sinh c). { unfold sinh. pose proof (exp_increasing (- c) c). lra. } nra.
Qed.

(** A function whose derivative does not decrease lies below its chords. *)
Lemma below_chord (f f' : R -> R) a b t : a <= b -> 0 <= t <= 1 ->
  (forall c, a <= c <= b -> derivable_pt_lim f c (f' c)) -> (forall c d, a <= c <= d -> d <= b -> f' c <= f' d) ->
  f (along a b t) <= along (f a) (f b) t.
Proof.
  intros [AB|<-] T D M; [|unfold along; replace (a + t * (a - a)) with a by ring; lra].
  destruct (Req_dec t 0) as [->|T0]; [unfold along; replace (a + 0 * (b - a)) with a by ring; lra|].
  destruct (Req_dec t 1) as [->|T1]; [unfold along; replace (a + 1 * (b - a)) with b by ring; lra|].
  set (c := along a b t). assert (C : a < c < b) by (unfold c, along; split; nra).
  destruct (MVT_cor2 f f' a c) as (x1 & E1 & X1); [lra | intros; apply D; lra |].
  destruct (MVT_cor2 f f' c b) as (x2 & E2 & X2); [lra | intros; apply D; lra |].
  pose proof (M x1 x2 ltac:(lra) ltac:(lra)) as L.
  assert (CA : c - a = t * (b - a)) by (unfold c, along; ring). assert (BC : b - c = (1 - t) * (b - a)) by (unfold c, along; ring).
  rewrite CA in E1. rewrite BC in E2. unfold along.
  assert (K : 0 <= (f' x2 - f' x1) * (t * (1 - t) * (b - a))) by (apply Rmult_le_pos; [lra|apply Rmult_le_pos; nra]). nra.
Qed.
Lemma strictly_below_chord (f f' : R -> R) a b t : a < b -> 0 < t < 1 ->
  (forall c, a <= c <= b -> derivable_pt_lim f c (f' c)) -> (forall c d, a <= c < d -> d <= b -> f' c < f' d) ->
  f (along a b t) < along (f a) (f b) t.
Proof.
  intros AB T D M.
  set (c := along a b t). assert (C : a < c < b) by (unfold c, along; split; nra).
  destruct (MVT_cor2 f f' a c) as (x1 & E1 & X1); [lra | intros; apply D; lra |].
  destruct (MVT_cor2 f f' c b) as (x2 & E2 & X2); [lra | intros; apply D; lra |].
  pose proof (M x1 x2 ltac:(lra) ltac:(lra)) as L.
  assert (CA : c - a = t * (b - a)) by (unfold c, along; ring). assert (BC : b - c = (1 - t) * (b - a)) by (unfold c, along; ring).
  rewrite CA in E1. rewrite BC in E2. unfold along.
  assert (K : 0 < (f' x2 - f' x1) * (t * (1 - t) * (b - a))) by (apply Rmult_lt_0_compat; [lra|apply Rmult_lt_0_compat; nra]). nra.
Qed.

Lemma quarter_square y : derivable_pt_lim (fun y => y * y / 4) y (y / 2).
Proof.
  replace (y / 2) with (/ 4 * (1 * y + y * 1)) by field.
  assert (D : derivable_pt_lim (fun y => / 4 * (y * y)) y (/ 4 * (1 * y + y * 1))).
  { apply derivable_pt_lim_scal with (f := fun y => y * y). apply (derivable_pt_lim_mult id id); apply derivable_pt_lim_id. }
  intros e E. destruct (D e E) as [d H]. exists d. intros h H1 H2. specialize (H h H1 H2).
  replace (/ 4 * ((y + h) * (y + h)) - / 4 * (y * y)) with ((y + h) * (y + h) / 4 - y * y / 4) in H by field. exact H.
Qed.
Lemma gd_chord y0 y1 t : y0 <= y1 -> 0 <= t <= 1 -> Rabs (gd (along y0 y1 t) - along (gd y0) (gd y1) t) <= (y1 - y0) * (y1 - y0) / 16.
Proof.
  intros Y T.
  assert (A : gd (along y0 y1 t) + along y0 y1 t * along y0 y1 t / 4 <= along (gd y0 + y0 * y0 / 4) (gd y1 + y1 * y1 / 4) t).
  { apply (below_chord (fun y => gd y + y * y / 4) (fun y => / cosh y + y / 2)); [assumption | assumption | |].
    - intros c _. apply (derivable_pt_lim_plus gd (fun y => y * y / 4)); [apply gd_derivative | apply quarter_square].
    - intros c d C _. pose proof (sech_lipschitz c d ltac:(lra)). lra. }
  assert (B : - gd (along y0 y1 t) + along y0 y1 t * along y0 y1 t / 4 <= along (- gd y0 + y0 * y0 / 4) (- gd y1 + y1 * y1 / 4) t).
  { apply (below_chord (fun y => - gd y + y * y / 4) (fun y => - / cosh y + y / 2)); [assumption | assumption | |].
    - intros c _. apply (derivable_pt_lim_plus (fun y => - gd y) (fun y => y * y / 4)); [|apply quarter_square].
      apply (derivable_pt_lim_opp gd), gd_derivative.
    - intros c d C _. pose proof (sech_lipschitz c d ltac:(lra)). lra. }
  unfold along in *. set (d := y1 - y0) in *. replace y1 with (y0 + d) in A, B by (unfold d; ring).
  assert (S : 0 <= d * d * (2 * t - 1) * (2 * t - 1)) by (replace (d * d * (2 * t - 1) * (2 * t - 1)) with ((d * (2 * t - 1)) * (d * (2 * t - 1))) by ring; apply Rle_0_sqr).
  apply Rabs_le. replace y1 with (y0 + d) by (unfold d; ring). split; nra.
Qed.

(** *** C79 *)
Section Tile.
Variables (a : R) (size : Z) (id : string) (t : MapTileId).
Hypothesis earth : 0 < a.
Hypothesis pixels : (0 < size)%Z.
Notation line k := (grid_line a (tile_matrix t) k).
Lemma lines_lt k : line k < line (k + 1).
Proof using earth. unfold grid_line. rewrite plus_IZR. assert (0 < tile_side a (tile_matrix t)).
  { unfold tile_side. pose proof PI_RGT_0. apply Rmult_lt_0_compat; [|apply Rinv_0_lt_compat, powerRZ_lt; lra]. nra. } lra. Qed.
Lemma taken u v : taken_from a size id t u v =
  (along (gd (line (tile_row t + 1) / a)) (gd (line (tile_row t) / a)) v, along (line (tile_col t) / a) (line (tile_col t + 1) / a) u).
Proof using pixels. unfold taken_from. rewrite tile_bounds_values by exact pixels. reflexivity. Qed.
Lemma mapped u v : on_map a t u v =
  (gd (along (line (tile_row t + 1) / a) (line (tile_row t) / a) v), along (line (tile_col t) / a) (line (tile_col t + 1) / a) u).
Proof using earth. unfold on_map, inverse_mercator, gd, along. f_equal; [|field; lra]. f_equal. f_equal. f_equal. f_equal. field. lra. Qed.
Lemma along_flip lo hi v : along lo hi v = along hi lo (1 - v).
Proof. unfold along. ring. Qed.
End Tile.

(** Columns are where they belong, and so are the first and the last row. *)
Theorem C79_columns_and_edges : forall a size id t u v, 0 < a -> (0 < size)%Z ->
  snd (taken_from a size id t u v) = snd (on_map a t u v) /\
  taken_from a size id t u 0 = on_map a t u 0 /\ taken_from a size id t u 1 = on_map a t u 1.
Proof.
  intros a size id t u v A S. rewrite !taken, !mapped by assumption. unfold along.
  split; [reflexivity|]. split; f_equal; rewrite ?Rmult_0_l, ?Rmult_1_l, ?Rplus_0_r; try reflexivity.
  - ring_simplify (gd (grid_line a (tile_matrix t) (tile_row t + 1) / a) + (gd (grid_line a (tile_matrix t) (tile_row t) / a) - gd (grid_line a (tile_matrix t) (tile_row t + 1) / a))).
    f_equal. ring.
Qed.
Print Assumptions C79_columns_and_edges.

(** Other rows are taken from the wrong latitude, by at most a sixteenth of the square of the tile's
    height in radians at the equator: a quarter of the error for every further zoom level. *)
Theorem C79_rows : forall a size id t u v, 0 < a -> (0 < size)%Z -> 0 <= v <= 1 ->
  Rabs (fst (on_map a t u v) - fst (taken_from a size id t u v)) <= (2 * PI / powerRZ 2 (tile_matrix t)) ^ 2 / 16.
Proof.
  intros a size id t u v A S V. rewrite taken, mapped by assumption. cbn [fst]. rewrite (along_flip (_ / a)), (along_flip (gd _)).
  pose proof (lines_lt a t A (tile_row t)) as L.
  eapply Rle_trans; [apply gd_chord; [|lra]|].
  - apply Rmult_le_compat_r; [apply Rlt_le, Rinv_0_lt_compat; exact A|lra].
  - right. unfold grid_line, tile_side. rewrite plus_IZR. field. split; [apply powerRZ_NOR; lra|lra].
Qed.
Print Assumptions C79_rows.

(** North of the equator every inner row is taken from too far south. *)
Theorem C79_northern_rows : forall a size id t u v, 0 < a -> (0 < size)%Z -> 0 < v < 1 ->
  0 <= grid_line a (tile_matrix t) (tile_row t) -> fst (taken_from a size id t u v) < fst (on_map a t u v).
Proof.
  intros a size id t u v A S V N. rewrite taken, mapped by assumption. cbn [fst]. rewrite (along_flip (_ / a)), (along_flip (gd _)).
  pose proof (lines_lt a t A (tile_row t)) as L. set (y0 := grid_line a (tile_matrix t) (tile_row t) / a). set (y1 := grid_line a (tile_matrix t) (tile_row t + 1) / a).
  assert (I : 0 < / a) by (apply Rinv_0_lt_compat; exact A).
  assert (Y : y0 < y1) by (unfold y0, y1, Rdiv; apply Rmult_lt_compat_r; assumption).
  assert (Y0 : 0 <= y0) by (unfold y0, Rdiv; apply Rmult_le_pos; lra).
  pose proof (strictly_below_chord (fun y => - gd y) (fun y => - / cosh y) y0 y1 (1 - v) Y ltac:(lra)) as C.
  assert (D : - gd (along y0 y1 (1 - v)) < along (- gd y0) (- gd y1) (1 - v)).
  { apply C.
    - intros c _. apply (derivable_pt_lim_opp gd), gd_derivative.
    - intros c d Hc _. apply Ropp_lt_contravar, Rinv_lt_contravar.
      + apply Rmult_lt_0_compat; apply cosh_pos.
      + apply cosh_increasing; lra. }
  unfold along in *. lra.
Qed.
Print Assumptions C79_northern_rows.

Lemma atan_below y : 0 < y -> atan y < y.
Proof.
  intros Y. destruct (MVT_cor2 atan (fun c => / (1 + c ^ 2)) 0 y Y (fun c _ => derivable_pt_lim_atan c)) as (c & E & C).
  rewrite atan_0, !Rminus_0_r in E. rewrite E. assert (P : 1 < 1 + c ^ 2) by nra.
  assert (/ (1 + c ^ 2) < 1) by (rewrite <- Rinv_1; apply Rinv_lt_contravar; lra). nra.
Qed.
(** On the tile of the whole world the row a quarter of the way down is wrong by more than a fifth of a
    radian, more than eleven degrees. *)
Theorem C79_whole_world_refuted : forall a size id u, 0 < a -> (0 < size)%Z ->
  let t := mkTileId 0 0 0 in
  fst (on_map a t u (1 / 4)) - fst (taken_from a size id t u (1 / 4)) > 1 / 5.
Proof.
  intros a size id u A S t. rewrite taken, mapped by assumption. cbn [fst].
  assert (L0 : grid_line a (tile_matrix t) (tile_row t) / a = - PI) by (unfold grid_line, tile_side; cbn; field; lra).
  assert (L1 : grid_line a (tile_matrix t) (tile_row t + 1) / a = PI) by (unfold grid_line, tile_side; cbn; field; lra).
  rewrite L0, L1. unfold along. replace (PI + 1 / 4 * (- PI - PI)) with (PI / 2) by field.
  assert (G : gd (- PI) = - gd PI) by (unfold gd; rewrite exp_Ropp, atan_inv by apply exp_pos; field).
  rewrite G. assert (U : gd PI < PI / 2) by (unfold gd; pose proof (atan_bound (exp PI)); lra).
  assert (E : 79 / 20 < exp (PI / 2)).
  { pose proof PI2_3_2 as P. unfold PI2 in P. apply Rlt_trans with (exp (3 / 2)); [|apply exp_increasing; lra].
    replace (3 / 2) with (3/16 + 3/16 + (3/16 + 3/16) + (3/16 + 3/16 + (3/16 + 3/16))) by field. rewrite !exp_plus.
    pose proof (exp_ineq1 (3/16) ltac:(lra)) as X. set (e := exp (3/16)) in *.
    assert (X2 : 1.41 < e * e) by nra. assert (X4 : 1.988 < (e * e) * (e * e)) by nra. nra. }
  assert (B : PI / 2 - 2 * (20 / 79) < gd (PI / 2)).
  { unfold gd. replace (exp (PI / 2)) with (/ / exp (PI / 2)) by (rewrite Rinv_inv; reflexivity).
    rewrite atan_inv by (apply Rinv_0_lt_compat, exp_pos).
    pose proof (atan_below (/ exp (PI / 2)) ltac:(apply Rinv_0_lt_compat, exp_pos)) as Q.
    assert (/ exp (PI / 2) < / (79 / 20)) by (apply Rinv_lt_contravar; [apply Rmult_lt_0_compat; lra|exact E]). lra. }
  pose proof PI2_3_2 as P. unfold PI2 in P. lra.
Qed.
Print Assumptions C79_whole_world_refuted.

(** Neighbouring tiles both contain their common edge: the last row of one is the first row of the tile
    below it, the last column of one the first of the next.  So [n] rows cover a tile with spacing
    1 / (n - 1) of its height. *)
Theorem C79_shared_edges : forall a size id z row col n u v, 0 < a -> (0 < size)%Z -> (2 <= n)%nat ->
  taken_from a size id (mkTileId z (row + 1) col) u (part (n - 1) n) = taken_from a size id (mkTileId z row col) u (part 0 n) /\
  taken_from a size id (mkTileId z row col) (part (n - 1) n) v = taken_from a size id (mkTileId z row (col + 1)) (part 0 n) v.
Proof.
  intros a size id z row col n u v A S N.
  assert (Q : INR n - 1 <> 0) by (pose proof (le_INR 2 n N) as H; cbn in H; lra).
  assert (P1 : part (n - 1) n = 1) by (unfold part; rewrite minus_INR by lia; cbn [INR]; field; exact Q).
  assert (P0 : part 0 n = 0) by (unfold part; cbn [INR]; field; exact Q).
  rewrite P0, P1, !taken by assumption. cbn [tile_matrix tile_row tile_col]. unfold along. split; f_equal; ring.
Qed.
Print Assumptions C79_shared_edges.

(** All together, for an affine sensor model: the orthophoto of a map tile takes its pixel [i][j] from
    the image location of a place with the right longitude and a latitude off by at most that bound. *)
Theorem C79_tile : forall (spline : list R -> list R -> list (list R) -> res (R -> R -> R)) (law : spline_law spline) w2i elev r size id t p n c0 c1 c2 c3 a b c a' b' c',
  0 < r -> (0 < size)%Z -> (2 <= n)%nat ->
  (forall lon lat, w2i (mkGeo lon lat elev) = Ok (a + b * lon + c * lat, a' + b' * lon + c' * lat)) ->
  let bb := mt_bounds (get_tile (inverse_mercator r) (make_tile_set r size id) t) in
  src_coords w2i elev (b_min_x bb) (b_min_y bb) (b_max_x bb) (b_max_y bb) = Ok (nodes p) -> clipped p = (c0, c1, c2, c3) ->
  exists m, maps spline p n n = Ok m /\ List.length m = n /\
  forall i j, (i < n)%nat -> (j < n)%nat -> exists row lat v, w2i (mkGeo (snd (on_map r t (part j n) (part i n))) lat elev) = Ok v
    /\ Rabs (fst (on_map r t (part j n) (part i n)) - lat) <= (2 * PI / powerRZ 2 (tile_matrix t)) ^ 2 / 16
    /\ nth_error m i = Some row /\ nth_error row j = Some (to_source (level p) c0 (fst v), to_source (level p) c1 (snd v)).
Proof.
  intros spline law w2i elev r size id t p n c0 c1 c2 c3 a b c a' b' c' R0 S N Aff bb G C.
  destruct (C62_square spline law w2i elev _ _ _ _ p n c0 c1 c2 c3 a b c a' b' c' N Aff G C) as (m & M & L & _ & Px).
  exists m. split; [exact M|]. split; [exact L|]. intros i j I J. destruct (Px i j I J) as (row & v & V & Rn & Pn).
  destruct (C79_columns_and_edges r size id t (part j n) (part i n) R0 S) as [Lon _].
  exists row, (along (b_max_y bb) (b_min_y bb) (part i n)), v. rewrite <- Lon. unfold taken_from. fold bb. cbn [snd].
  split; [rewrite Aff, V; reflexivity|]. split; [|now split].
  apply (C79_rows r size id t (part j n) (part i n) R0 S (part_range i n N I)).
Qed.
Print Assumptions C79_tile.

(** The bound is met by a real tile. *)
Example C79_non_vacuous : 0 <= grid_line 6378137 1 1 /\ (2 * PI / powerRZ 2 20) ^ 2 / 16 < 1 / 100000000000.
Proof.
  split.
  - unfold grid_line, tile_side. change (powerRZ 2 1) with (2 * 1). pose proof PI_RGT_0. lra.
  - assert (P : powerRZ 2 20 = 1048576) by (rewrite pow2_Z by lia; reflexivity). rewrite P. pose proof PI_4. pose proof PI_RGT_0.
    replace ((2 * PI / 1048576) ^ 2 / 16) with (PI * PI * (4 / (16 * (1048576 * 1048576)))) by (field). nra.
Qed.

(** A tile of zoom level 10, through a model with latitude upwards. *)
Example C79_tile_non_vacuous : exists p m,
  let t := mkTileId 10 600 200 in
  let bb := mt_bounds (get_tile (inverse_mercator 6378137) (make_tile_set 6378137 256 "WebMercatorQuad") t) in
  src_coords north_up 0 (b_min_x bb) (b_min_y bb) (b_max_x bb) (b_max_y bb) = Ok (nodes p) /\ maps lin_spline p 256 256 = Ok m /\
  exists row lat v, north_up (mkGeo (snd (on_map 6378137 t (part 7 256) (part 3 256))) lat 0) = Ok v /\
    Rabs (fst (on_map 6378137 t (part 7 256) (part 3 256)) - lat) <= (2 * PI / powerRZ 2 10) ^ 2 / 16 /\
    nth_error m 3 = Some row /\ nth_error row 7 = Some (to_source 2 100 (fst v), to_source 2 (-50) (snd v)).
Proof.
  set (t := mkTileId 10 600 200). set (bb := mt_bounds (get_tile (inverse_mercator 6378137) (make_tile_set 6378137 256 "WebMercatorQuad") t)).
  destruct (src_coords north_up 0 (b_min_x bb) (b_min_y bb) (b_max_x bb) (b_max_y bb)) as [grid|] eqn:G; [|discriminate].
  set (p := mkPlan grid 2 (100, -50, 200, 50)%Z (25, -13, 50, 12)%Z).
  destruct (C79_tile lin_spline lin_spline_law north_up 0 6378137 256 "WebMercatorQuad" t p 256 100 (-50) 200 50 0 1 0 0 0 (-1)) as (m & M & _ & K); [lra|lia|lia| |exact G|reflexivity|].
  - intros lon lat. unfold north_up. cbn. f_equal. f_equal; ring.
  - exists p, m. cbv zeta. fold t. fold bb. split; [exact G|]. split; [exact M|]. exact (K 3%nat 7%nat ltac:(lia) ltac:(lia)).
Qed.
