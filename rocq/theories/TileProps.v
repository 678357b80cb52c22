(** Property theorems for the Web Mercator tile set: C01 - C06. *)
Require Import ZArith Reals String List Lra Lia Permutation.
Require Import Verif.Base Verif.BaseFacts Verif.TileModel Verif.TileSpec Verif.TileProofs.
Import ListNotations.
Local Open Scope R_scope.

(** ** C01: the tile found for a location contains it *)

(** In metres: whatever the projection says, the projected point is in the strips
    that the returned row and column denote. *)
Theorem C01_tile_contains_projected_location :
  forall (a : R) (fwd inv : R -> R -> R * R) (size : Z) (id : string) (w : Geodetic) (z : Z) (x y : R),
  0 < a -> (0 < size)%Z ->
  fwd (latitude w) (longitude w) = (x, y) ->
  let t := get_tile_for_location fwd inv (make_tile_set a size id) w z in
  tile_matrix (mt_id t) = z /\
  in_strip a z (tile_col (mt_id t)) x /\ in_strip a z (tile_row (mt_id t)) y.
Proof. exact tile_for_location_strips. Qed.
Print Assumptions C01_tile_contains_projected_location.

(** In longitude and latitude, with the real spherical Mercator projection. *)
Theorem C01_tile_bounds_contain_location :
  forall (a : R) (size : Z) (id : string) (w : Geodetic) (z : Z),
  0 < a -> (0 < size)%Z -> - PI / 2 < latitude w < PI / 2 ->
  let b := mt_bounds (get_tile_for_location (mercator a) (inverse_mercator a)
                        (make_tile_set a size id) w z) in
  b_min_x b < longitude w <= b_max_x b /\ b_min_y b < latitude w <= b_max_y b.
Proof. exact geodetic_containment. Qed.
Print Assumptions C01_tile_bounds_contain_location.

Example C01_non_vacuous :
  0 < 6378137 /\ (0 < 256)%Z /\ - PI / 2 < latitude (mkGeo 2.113 0.395 0) < PI / 2.
Proof. cbn. pose proof PI_RGT_0. pose proof PI2_3_2. unfold PI2 in *. repeat split; lra || lia. Qed.

(** ** C02: the tiles of a zoom level partition the plane *)

(** The bounds reported for a tile are the (inverse projected) grid lines around it,
    independent of the tile size in pixels. *)
Theorem C02_bounds_are_grid_lines :
  forall (a : R) (inv : R -> R -> R * R) (size : Z) (id : string) (t : MapTileId), (0 < size)%Z ->
  mt_bounds (get_tile inv (make_tile_set a size id) t) =
  let lo := inv (grid_line a (tile_matrix t) (tile_col t)) (grid_line a (tile_matrix t) (tile_row t)) in
  let hi := inv (grid_line a (tile_matrix t) (tile_col t + 1)) (grid_line a (tile_matrix t) (tile_row t + 1)) in
  mkBounds (snd lo) (fst lo) (snd hi) (fst hi).
Proof. exact tile_bounds_values. Qed.
Print Assumptions C02_bounds_are_grid_lines.

(** Metric bounds: min edges are grid lines col/row, max edges are grid lines
    col+1/row+1, so a tile's max edge is its neighbour's min edge. *)
Theorem C02_metric_bounds :
  forall (a : R) (size : Z) (id : string) (t : MapTileId), (0 < size)%Z ->
  tile_bounds_meters (make_tile_set a size id) t =
  mkBounds (grid_line a (tile_matrix t) (tile_col t))
           (grid_line a (tile_matrix t) (tile_row t))
           (grid_line a (tile_matrix t) (tile_col t + 1))
           (grid_line a (tile_matrix t) (tile_row t + 1)).
Proof. exact bounds_meters_lines. Qed.
Print Assumptions C02_metric_bounds.

(** A location is in one tile only. *)
Theorem C02_tile_unique :
  forall (a : R) (fwd inv : R -> R -> R * R) (size : Z) (id : string) (w : Geodetic) (z row col : Z) (x y : R),
  0 < a -> (0 < size)%Z -> fwd (latitude w) (longitude w) = (x, y) ->
  in_strip a z col x -> in_strip a z row y ->
  mt_id (get_tile_for_location fwd inv (make_tile_set a size id) w z) = mkTileId z row col.
Proof.
  intros a fwd inv size id w z row col x y Ha Hs Hf Hc Hr.
  destruct (tile_for_location_strips a fwd inv size id w z x y Ha Hs Hf) as [H1 [H2 H3]].
  destruct (mt_id _) as [z' r' c'] eqn:E. cbn in *. subst z'.
  rewrite (in_strip_unique a z r' row y Ha H3 Hr), (in_strip_unique a z c' col x Ha H2 Hc). reflexivity.
Qed.
Print Assumptions C02_tile_unique.

Example C02_non_vacuous : in_strip 1 1 1 (PI / 2) /\ in_strip 1 1 0 (- PI / 2).
Proof.
  unfold in_strip, grid_line, tile_side. pose proof PI_RGT_0. rewrite powerRZ_1.
  change (1 + 1)%Z with 2%Z. change (0 + 1)%Z with 1%Z. lra.
Qed.

(** On a sphere of radius one, 90 degrees east on the equator is in column 1, row 0 of zoom 1. *)
Lemma equator_90_east : mercator 1 (latitude (mkGeo (PI / 2) 0 0)) (longitude (mkGeo (PI / 2) 0 0)) = (PI / 2, 0).
Proof.
  unfold mercator. cbn [latitude longitude]. f_equal; [lra|].
  replace (PI / 4 + 0 / 2) with (PI / 4) by lra. rewrite tan_PI4, ln_1. lra.
Qed.
Example C02_non_vacuous_tile :
  mt_id (get_tile_for_location (mercator 1) (inverse_mercator 1) (make_tile_set 1 256 "") (mkGeo (PI / 2) 0 0) 1) = mkTileId 1 0 1 /\
  mt_id (get_tile_for_location (mercator 1) (inverse_mercator 1) (make_tile_set 1 256 "") (mkGeo (PI / 2) 0 0) 2) = mkTileId 2 1 2.
Proof.
  pose proof PI_RGT_0. split; (eapply C02_tile_unique; [lra|lia|apply equator_90_east| |]; unfold in_strip, grid_line, tile_side).
  1,2: rewrite powerRZ_1; cbn [Z.add Pos.add]; lra.
  all: change (powerRZ 2 2) with (2 * (2 * 1)); cbn [Z.add Pos.add Pos.succ]; lra.
Qed.

(** ** C03: zooming in nests tiles *)
Theorem C03_child_tile_in_parent :
  forall (a : R) (fwd inv : R -> R -> R * R) (size : Z) (id : string) (w : Geodetic) (z : Z),
  0 < a -> (0 < size)%Z ->
  let ts := make_tile_set a size id in
  let child := mt_id (get_tile_for_location fwd inv ts w (z + 1)) in
  let parent := mt_id (get_tile_for_location fwd inv ts w z) in
  (tile_row child / 2 = tile_row parent /\ tile_col child / 2 = tile_col parent)%Z.
Proof. exact tile_parent. Qed.
Print Assumptions C03_child_tile_in_parent.

(** Tile (2, row 1, column 2) of [C02_non_vacuous_tile] is in tile (1, row 0, column 1). *)
Example C03_non_vacuous :
  let ts := make_tile_set 1 256 "" in
  let child := mt_id (get_tile_for_location (mercator 1) (inverse_mercator 1) ts (mkGeo (PI / 2) 0 0) 2) in
  let parent := mt_id (get_tile_for_location (mercator 1) (inverse_mercator 1) ts (mkGeo (PI / 2) 0 0) 1) in
  child = mkTileId 2 1 2 /\ parent = mkTileId 1 0 1 /\
  (tile_row child / 2 = tile_row parent /\ tile_col child / 2 = tile_col parent)%Z.
Proof.
  intros ts child parent. repeat split; try apply C02_non_vacuous_tile; apply (C03_child_tile_in_parent 1 _ _ 256 "" _ 1); lra || lia.
Qed.

(** The grid lines of zoom [z] are every other grid line of zoom [z+1]. *)
Theorem C03_children_subdivide :
  forall (a : R) (z k : Z), grid_line a (z + 1) (2 * k) = grid_line a z k.
Proof. exact grid_line_double. Qed.
Print Assumptions C03_children_subdivide.

(** ** C04: index range *)
Theorem C04_index_range_inside :
  forall (a : R) (fwd inv : R -> R -> R * R) (size : Z) (id : string) (w : Geodetic) (z : Z) (x y : R),
  0 < a -> (0 < size)%Z -> (0 <= z)%Z -> fwd (latitude w) (longitude w) = (x, y) ->
  - (PI * a) < x <= PI * a -> - (PI * a) < y <= PI * a ->
  let t := mt_id (get_tile_for_location fwd inv (make_tile_set a size id) w z) in
  (0 <= tile_row t < 2 ^ z)%Z /\ (0 <= tile_col t < 2 ^ z)%Z.
Proof.
  intros a fwd inv size id w z x y Ha Hs Hz Hf Hx Hy t.
  destruct (tile_for_location_strips a fwd inv size id w z x y Ha Hs Hf) as [_ [H2 H3]].
  split; [apply (strip_range a z _ y)|apply (strip_range a z _ x)]; assumption.
Qed.
Print Assumptions C04_index_range_inside.

Example C04_non_vacuous : - (PI * 6378137) < 1000 <= PI * 6378137.
Proof. pose proof PI2_3_2. unfold PI2 in *. split; lra. Qed.

(** On the closed square the claim is false: every location on the western edge gets
    column -1 at every zoom level, and likewise the southern edge gets row -1. *)
Theorem C04_western_edge_column :
  forall (a : R) (fwd inv : R -> R -> R * R) (size : Z) (id : string) (w : Geodetic) (z : Z) (y : R),
  0 < a -> (0 < size)%Z -> fwd (latitude w) (longitude w) = (- (PI * a), y) ->
  tile_col (mt_id (get_tile_for_location fwd inv (make_tile_set a size id) w z)) = (-1)%Z.
Proof.
  intros a fwd inv size id w z y Ha Hs Hf.
  destruct (tile_for_location_strips a fwd inv size id w z _ y Ha Hs Hf) as [_ [H2 _]].
  apply (strip_edge a z); assumption.
Qed.
Print Assumptions C04_western_edge_column.

Theorem C04_southern_edge_row :
  forall (a : R) (fwd inv : R -> R -> R * R) (size : Z) (id : string) (w : Geodetic) (z : Z) (x : R),
  0 < a -> (0 < size)%Z -> fwd (latitude w) (longitude w) = (x, - (PI * a)) ->
  tile_row (mt_id (get_tile_for_location fwd inv (make_tile_set a size id) w z)) = (-1)%Z.
Proof.
  intros a fwd inv size id w z x Ha Hs Hf.
  destruct (tile_for_location_strips a fwd inv size id w z x _ Ha Hs Hf) as [_ [_ H3]].
  apply (strip_edge a z); assumption.
Qed.
Print Assumptions C04_southern_edge_row.

(** The western edge at the equator, and the point where the southern edge meets the meridian. *)
Example C04_edges_non_vacuous :
  let west := mkGeo (- PI) 0 0 in let south := mkGeo 0 (- (2 * atan (exp PI) - PI / 2)) 0 in
  mercator 1 (latitude west) (longitude west) = (- (PI * 1), 0) /\
  mercator 1 (latitude south) (longitude south) = (0, - (PI * 1)).
Proof.
  cbn [latitude longitude]. unfold mercator. split; f_equal; try lra.
  - replace (PI / 4 + 0 / 2) with (PI / 4) by lra. rewrite tan_PI4, ln_1. lra.
  - replace (PI / 4 + - (2 * atan (exp PI) - PI / 2) / 2) with (PI / 2 - atan (exp PI)) by lra.
    rewrite <- atan_inv by apply exp_pos. rewrite tan_atan, ln_Rinv by apply exp_pos. rewrite ln_exp. lra.
Qed.

(** So on the closed square the indices are in range exactly away from those two edges. *)
Theorem C04_index_range :
  forall (a : R) (fwd inv : R -> R -> R * R) (size : Z) (id : string) (w : Geodetic) (z : Z) (x y : R),
  0 < a -> (0 < size)%Z -> (0 <= z)%Z -> fwd (latitude w) (longitude w) = (x, y) ->
  - (PI * a) <= x <= PI * a -> - (PI * a) <= y <= PI * a ->
  let t := mt_id (get_tile_for_location fwd inv (make_tile_set a size id) w z) in
  ((0 <= tile_col t < 2 ^ z)%Z <-> x <> - (PI * a)) /\ ((0 <= tile_row t < 2 ^ z)%Z <-> y <> - (PI * a)) /\
  (-1 <= tile_col t < 2 ^ z)%Z /\ (-1 <= tile_row t < 2 ^ z)%Z.
Proof.
  intros a fwd inv size id w z x y Ha Hs Hz Hf Hx Hy t.
  destruct (tile_for_location_strips a fwd inv size id w z x y Ha Hs Hf) as [_ [H2 H3]].
  assert (P : (0 < 2 ^ z)%Z) by (apply Z.pow_pos_nonneg; lia).
  assert (A : forall k u, in_strip a z k u -> - (PI * a) <= u <= PI * a ->
     ((0 <= k < 2 ^ z)%Z <-> u <> - (PI * a)) /\ (-1 <= k < 2 ^ z)%Z).
  { intros k u K U. destruct (Req_dec u (- (PI * a))) as [->|D].
    - rewrite (strip_edge a z k) by assumption. split; [split; [lia|congruence]|lia].
    - assert (Q : (0 <= k < 2 ^ z)%Z) by (apply (strip_range a z k u); auto; lra). split; [tauto|lia]. }
  destruct (A _ _ H2 Hx), (A _ _ H3 Hy). tauto.
Qed.
Print Assumptions C04_index_range.

(** With the actual projection the square is the band of latitudes up to about 85.05 degrees. *)
Theorem C04_square_of_latitudes :
  forall (a lat lon : R), 0 < a -> - (PI / 2) < lat < PI / 2 ->
  let '(x, y) := mercator a lat lon in
  (- (PI * a) <= x <= PI * a <-> - PI <= lon <= PI) /\
  (- (PI * a) <= y <= PI * a <-> - (2 * atan (exp PI) - PI / 2) <= lat <= 2 * atan (exp PI) - PI / 2).
Proof. intros a lat lon Ha Hl. unfold mercator. cbv beta iota. split; [apply mercator_x_range|apply mercator_y_range]; assumption. Qed.
Print Assumptions C04_square_of_latitudes.

(** With the actual projection: longitude -180 degrees, on the equator. *)
Theorem C04_index_range_refuted :
  exists (w : Geodetic), - PI <= longitude w <= PI /\ latitude w = 0 /\
  forall z, tile_col (mt_id (get_tile_for_location (mercator 6378137) (inverse_mercator 6378137)
                      (make_tile_set 6378137 256 "WebMercatorQuad") w z)) = (-1)%Z.
Proof.
  exists (mkGeo (- PI) 0 0). cbn [longitude latitude]. pose proof PI_RGT_0.
  split; [lra|]. split; [reflexivity|]. intros z.
  eapply C04_western_edge_column with (y := 6378137 * ln (tan (PI / 4 + 0 / 2))); [lra|lia|].
  unfold mercator. f_equal. cbn [longitude latitude]. ring.
Qed.
Print Assumptions C04_index_range_refuted.

(** ** C05: row direction *)
Theorem C05_rows_grow_northwards :
  forall (a : R) (fwd inv : R -> R -> R * R) (size : Z) (id : string) (w w' : Geodetic) (z : Z) (x y x' y' : R),
  0 < a -> (0 < size)%Z ->
  fwd (latitude w) (longitude w) = (x, y) -> fwd (latitude w') (longitude w') = (x', y') ->
  let ts := make_tile_set a size id in
  let t := mt_id (get_tile_for_location fwd inv ts w z) in
  let t' := mt_id (get_tile_for_location fwd inv ts w' z) in
  (y <= y' -> (tile_row t <= tile_row t')%Z) /\ (x <= x' -> (tile_col t <= tile_col t')%Z).
Proof.
  intros a fwd inv size id w w' z x y x' y' Ha Hs Hf Hf' ts t t'.
  destruct (tile_for_location_strips a fwd inv size id w z _ _ Ha Hs Hf) as [_ [H2 H3]].
  destruct (tile_for_location_strips a fwd inv size id w' z _ _ Ha Hs Hf') as [_ [H2' H3']].
  split; intros; [apply (strip_mono a z _ _ y y')|apply (strip_mono a z _ _ x x')]; assumption.
Qed.
Print Assumptions C05_rows_grow_northwards.

(** The row is the OGC row counted from the other end ... *)
Theorem C05_row_is_flipped_ogc_row :
  forall (a : R) (fwd inv : R -> R -> R * R) (size : Z) (id : string) (w : Geodetic) (z : Z) (x y : R),
  0 < a -> (0 < size)%Z -> (0 <= z)%Z -> fwd (latitude w) (longitude w) = (x, y) ->
  (tile_row (mt_id (get_tile_for_location fwd inv (make_tile_set a size id) w z))
   = 2 ^ z - 1 - ogc_row a z y)%Z.
Proof.
  intros a fwd inv size id w z x y Ha Hs Hz Hf.
  destruct (tile_for_location_strips a fwd inv size id w z x y Ha Hs Hf) as [_ [_ H3]].
  apply strip_ogc; assumption.
Qed.
Print Assumptions C05_row_is_flipped_ogc_row.

(** ... so at any zoom level >= 1 no location at all gets its OGC row. *)
Theorem C05_ogc_row_refuted :
  forall (a : R) (fwd inv : R -> R -> R * R) (size : Z) (id : string) (w : Geodetic) (z : Z) (x y : R),
  0 < a -> (0 < size)%Z -> (1 <= z)%Z -> fwd (latitude w) (longitude w) = (x, y) ->
  tile_row (mt_id (get_tile_for_location fwd inv (make_tile_set a size id) w z)) <> ogc_row a z y.
Proof.
  intros a fwd inv size id w z x y Ha Hs Hz Hf H.
  rewrite (C05_row_is_flipped_ogc_row a fwd inv size id w z x y Ha Hs ltac:(lia) Hf) in H.
  replace (2 ^ z)%Z with (2 * 2 ^ (z - 1))%Z in H by (rewrite <- Z.pow_succ_r by lia; f_equal; lia).
  lia.
Qed.
Print Assumptions C05_ogc_row_refuted.

(** 90 degrees east on the equator: row 0 here, row 1 in the standard. *)
Example C05_non_vacuous :
  let w := mkGeo (PI / 2) 0 0 in
  let row := tile_row (mt_id (get_tile_for_location (mercator 1) (inverse_mercator 1) (make_tile_set 1 256 "") w 1)) in
  mercator 1 (latitude w) (longitude w) = (PI / 2, 0) /\ row = 0%Z /\ ogc_row 1 1 0 = 1%Z.
Proof.
  intros w row. split; [apply equator_90_east|].
  assert (E : row = 0%Z) by (unfold row, w; rewrite (proj1 C02_non_vacuous_tile); reflexivity).
  split; [exact E|].
  pose proof (C05_row_is_flipped_ogc_row 1 (mercator 1) (inverse_mercator 1) 256 "" w 1 _ _ ltac:(lra) ltac:(lia) ltac:(lia) equator_90_east) as F.
  fold row in F. rewrite E in F. change (2 ^ 1)%Z with 2%Z in F. lia.
Qed.

(** ** C06: tile matrix limits *)
Theorem C06_limits_cover_and_are_tight :
  forall (fwd inv : R -> R -> R * R) (ts : TileSet) (z : Z) (area : list Geodetic) (c0 r0 c1 r1 : Z),
  let tile w := mt_id (get_tile_for_location fwd inv ts w z) in
  tile_matrix_limits fwd inv ts area z = Ok (c0, r0, c1, r1) <->
  (forall w, In w area -> (c0 <= tile_col (tile w) <= c1)%Z /\ (r0 <= tile_row (tile w) <= r1)%Z) /\
  (exists w, In w area /\ tile_col (tile w) = c0) /\ (exists w, In w area /\ tile_row (tile w) = r0) /\
  (exists w, In w area /\ tile_col (tile w) = c1) /\ (exists w, In w area /\ tile_row (tile w) = r1).
Proof. exact limits_ok. Qed.
Print Assumptions C06_limits_cover_and_are_tight.

Theorem C06_limits_exist :
  forall (fwd inv : R -> R -> R * R) (ts : TileSet) (z : Z) (area : list Geodetic),
  (area <> [] -> exists q, tile_matrix_limits fwd inv ts area z = Ok q) /\
  (area = [] -> tile_matrix_limits fwd inv ts area z = Err ValueError).
Proof.
  intros. split; [apply limits_total|intros ->; reflexivity].
Qed.
Print Assumptions C06_limits_exist.

Theorem C06_limits_order_independent :
  forall (fwd inv : R -> R -> R * R) (ts : TileSet) (z : Z) (area area' : list Geodetic),
  Permutation area area' ->
  tile_matrix_limits fwd inv ts area z = tile_matrix_limits fwd inv ts area' z.
Proof. exact limits_perm. Qed.
Print Assumptions C06_limits_order_independent.

(** Tiles of all points in the bounding rectangle of the vertices are inside the
    limits, so the limits really cover the area and not only its vertices. *)
Theorem C06_limits_cover_rectangle :
  forall (a : R) (fwd inv : R -> R -> R * R) (size : Z) (id : string) (z : Z) (area : list Geodetic)
         (c0 r0 c1 r1 : Z) (w w1 w2 : Geodetic) (x y x1 y1 x2 y2 : R),
  0 < a -> (0 < size)%Z ->
  let ts := make_tile_set a size id in
  tile_matrix_limits fwd inv ts area z = Ok (c0, r0, c1, r1) ->
  In w1 area -> In w2 area ->
  fwd (latitude w1) (longitude w1) = (x1, y1) -> fwd (latitude w2) (longitude w2) = (x2, y2) ->
  fwd (latitude w) (longitude w) = (x, y) ->
  x1 <= x <= x2 -> y1 <= y <= y2 ->
  let t := mt_id (get_tile_for_location fwd inv ts w z) in
  (c0 <= tile_col t <= c1)%Z /\ (r0 <= tile_row t <= r1)%Z.
Proof.
  intros a fwd inv size id z area c0 r0 c1 r1 w w1 w2 x y x1 y1 x2 y2 Ha Hs ts E I1 I2 F1 F2 F Hx Hy t.
  apply limits_ok in E as [H _].
  destruct (H w1 I1) as [A1 B1]. destruct (H w2 I2) as [A2 B2].
  destruct (C05_rows_grow_northwards a fwd inv size id w1 w z _ _ _ _ Ha Hs F1 F) as [P1 Q1].
  destruct (C05_rows_grow_northwards a fwd inv size id w w2 z _ _ _ _ Ha Hs F F2) as [P2 Q2].
  specialize (P1 ltac:(lra)). specialize (P2 ltac:(lra)).
  specialize (Q1 ltac:(lra)). specialize (Q2 ltac:(lra)).
  unfold t, ts in *. lia.
Qed.
Print Assumptions C06_limits_cover_rectangle.

(** The factory knows exactly two tile sets, of 256 and 512 pixels. *)
Theorem C06_well_known_tile_sets :
  forall (a : R) (id : string) (ts : TileSet),
  get_for_id a id = Some ts <->
  (id = "WebMercatorQuad"%string /\ ts = make_tile_set a 256 id) \/
  (id = "WebMercatorQuadx2"%string /\ ts = make_tile_set a 512 id).
Proof.
  intros a id ts. unfold get_for_id.
  destruct (String.eqb_spec id "WebMercatorQuad") as [->|N1].
  - split; [intros [= <-]; auto|]. intros [[_ ->]|[E _]]; [reflexivity|discriminate E].
  - destruct (String.eqb_spec id "WebMercatorQuadx2") as [->|N2].
    + split; [intros [= <-]; auto|]. intros [[E _]|[_ ->]]; [discriminate E|reflexivity].
    + split; [discriminate|]. intros [[E _]|[E _]]; congruence.
Qed.
Print Assumptions C06_well_known_tile_sets.

Example C06_non_vacuous :
  exists q, tile_matrix_limits (mercator 1) (inverse_mercator 1) (make_tile_set 1 256 "WebMercatorQuad")
              [mkGeo 1 (1/2) 0; mkGeo (-1) (-1/2) 0; mkGeo (1/3) 0 7] 10 = Ok q.
Proof. apply limits_total. discriminate. Qed.

(** Between 90 degrees west and 90 degrees east on the equator: columns 0 to 1, row 0 of zoom 1. *)
Example C06_rectangle_non_vacuous :
  let area := [mkGeo (- (PI / 2)) 0 0; mkGeo (PI / 2) 0 0] in
  tile_matrix_limits (mercator 1) (inverse_mercator 1) (make_tile_set 1 256 "") area 1 = Ok (0, 0, 1, 0)%Z /\
  mercator 1 0 (- (PI / 2)) = (- (PI / 2), 0) /\ mercator 1 0 (PI / 2) = (PI / 2, 0) /\
  - (PI / 2) <= 0 <= PI / 2 /\ Permutation area (rev area).
Proof.
  intros area. pose proof PI_RGT_0.
  assert (W : mercator 1 0 (- (PI / 2)) = (- (PI / 2), 0)).
  { unfold mercator. f_equal; [lra|]. replace (PI / 4 + 0 / 2) with (PI / 4) by lra. rewrite tan_PI4, ln_1. lra. }
  assert (T : mt_id (get_tile_for_location (mercator 1) (inverse_mercator 1) (make_tile_set 1 256 "") (mkGeo (- (PI / 2)) 0 0) 1) = mkTileId 1 0 0).
  { eapply C02_tile_unique; [lra|lia|exact W| |]; unfold in_strip, grid_line, tile_side; rewrite powerRZ_1; cbn [Z.add]; lra. }
  repeat split; [| exact W | apply equator_90_east | lra | lra | apply Permutation_rev].
  unfold tile_matrix_limits, area. cbn [map]. rewrite T, (proj1 C02_non_vacuous_tile). reflexivity.
Qed.
