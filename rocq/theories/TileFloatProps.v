(** C92: the Web Mercator tiles in Python's binary64 arithmetic, bit by bit. *)
Require Import ZArith Reals Lra Lia SpecFloat.
Require Import Verif.Base Verif.BaseFacts Verif.TileSpec Verif.TileProofs Verif.CoordFloatModel Verif.FloatModel Verif.FloatSpec Verif.FloatProofs Verif.FloatNearest
  Verif.TileFloatSpec Verif.TileFloatModel Verif.TileFloatProofs.
Local Open Scope R_scope.

Lemma tile_for_meters_value p z x y : in_range x -> in_range y -> (0 <= p <= 100)%Z -> (0 <= z <= 600)%Z ->
  f_tile_for_meters (2 ^ p) z x y = Some (Rceil (value (fraction x) * powerRZ 2 z) - 1, Rceil (value (fraction y) * powerRZ 2 z) - 1)%Z.
Proof. intros X Y P Z. unfold f_tile_for_meters. now rewrite !index_value by assumption. Qed.

Lemma index_strip z x : (0 <= z)%Z -> metres x ->
  exists x', close x' (value x) /\ in_strip radius z (Rceil (value (fraction x) * powerRZ 2 z) - 1) x'.
Proof.
  intros Z M. pose proof (fraction_error x M) as E. set (u := value (fraction x)) in *. exists (u * (2 * PI * radius) - PI * radius). split.
  - unfold close, nanometres20, radius. replace (u * (2 * PI * 6378137) - PI * 6378137 - value x) with (u * (2 * PI * 6378137) - (value x + PI * 6378137)) by ring. exact E.
  - destruct (Rceil_spec (u * powerRZ 2 z)) as [L U]. set (n := Rceil (u * powerRZ 2 z)) in *. unfold in_strip, grid_line, tile_side.
    pose proof (pw_pos z) as P. pose proof PI_RGT_0. assert (W : 0 < 2 * PI * radius) by (unfold radius; nra). set (w := 2 * PI * radius) in *.
    replace (n - 1 + 1)%Z with n by lia. rewrite minus_IZR.
    assert (Eu : u * w = (u * powerRZ 2 z) * (w / powerRZ 2 z)) by (field; lra). rewrite Eu.
    assert (Q : 0 < w / powerRZ 2 z) by (apply Rmult_lt_0_compat; [exact W|now apply Rinv_0_lt_compat]). split; nra.
Qed.

(** The tile found contains a point within twenty nanometres of the location. *)
Theorem C92_tile_for_location : forall p z x y, (0 <= p <= 100)%Z -> (0 <= z <= 600)%Z -> metres x -> metres y ->
  exists col row, f_tile_for_meters (2 ^ p) z x y = Some (col, row) /\
  (exists x', close x' (value x) /\ in_strip radius z col x') /\
  (exists y', close y' (value y) /\ in_strip radius z row y').
Proof.
  intros p z x y P Z X Y. do 2 eexists. split; [apply tile_for_meters_value; auto using metres_range|].
  split; apply index_strip; auto; lia.
Qed.
Print Assumptions C92_tile_for_location.

(** Away from the edges it is the tile of the exact arithmetic. *)
Theorem C92_away_from_edges : forall p z x y col row, (0 <= p <= 100)%Z -> (0 <= z <= 600)%Z -> metres x -> metres y ->
  (forall x', close x' (value x) -> in_strip radius z col x') -> (forall y', close y' (value y) -> in_strip radius z row y') ->
  f_tile_for_meters (2 ^ p) z x y = Some (col, row).
Proof.
  intros p z x y col row P Z X Y Sx Sy. destruct (C92_tile_for_location p z x y P Z X Y) as (c & r & E & (x' & Cx & Ix) & (y' & Cy & Iy)).
  rewrite E. f_equal. f_equal; eapply (in_strip_unique radius z); eauto; unfold radius; lra.
Qed.
Print Assumptions C92_away_from_edges.

Lemma ceil_nested a k : (0 <= k)%Z -> (Rceil a - 1 = (Rceil (a * powerRZ 2 k) - 1) / 2 ^ k)%Z.
Proof.
  intros K. destruct (Rceil_spec (a * powerRZ 2 k)) as [L U]. set (n := Rceil (a * powerRZ 2 k)) in *.
  assert (P2 : (0 < 2 ^ k)%Z) by (apply Z.pow_pos_nonneg; lia). pose proof (Z_div_mod_eq_full (n - 1) (2 ^ k)) as D. pose proof (Z.mod_pos_bound (n - 1) (2 ^ k) P2) as M.
  set (q := ((n - 1) / 2 ^ k)%Z) in *. set (r := ((n - 1) mod 2 ^ k)%Z) in *.
  enough (Rceil a = q + 1)%Z by lia. apply Rceil_unique. rewrite plus_IZR. rewrite pw_IZR in L, U by lia.
  set (t := (2 ^ k)%Z) in *. assert (PT : 0 < IZR t) by now apply IZR_lt.
  assert (N1 : IZR n = IZR t * IZR q + IZR r + 1) by (rewrite <- mult_IZR, <- !plus_IZR; f_equal; lia).
  assert (R1 : 0 <= IZR r <= IZR t - 1) by (rewrite <- minus_IZR; split; apply IZR_le; lia).
  split; [|]; nra.
Qed.
(** Tiles nest between zoom levels, and the tile does not depend on the tile size: the tile at
    zoom [z] is the one that holds the tile at zoom [z + k], for locations of any magnitude. *)
Theorem C92_nested : forall p q z k x y col row col' row',
  (0 <= p <= 100)%Z -> (0 <= q <= 100)%Z -> (0 <= z)%Z -> (0 <= k)%Z -> (z + k <= 600)%Z -> in_range x -> in_range y ->
  f_tile_for_meters (2 ^ p) z x y = Some (col, row) -> f_tile_for_meters (2 ^ q) (z + k) x y = Some (col', row') ->
  (col = col' / 2 ^ k /\ row = row' / 2 ^ k)%Z.
Proof.
  intros p q z k x y col row col' row' P Q Z K ZK X Y E E'. rewrite tile_for_meters_value in E by (auto; lia). rewrite tile_for_meters_value in E' by (auto; lia).
  injection E as <- <-. injection E' as <- <-. rewrite pw_add, <- !Rmult_assoc. split; apply ceil_nested; exact K.
Qed.
Print Assumptions C92_nested.

(** Further east is never in a column further west, further north never in a row further south. *)
Theorem C92_monotone : forall p z x y x' y' col row col' row',
  (0 <= p <= 100)%Z -> (0 <= z <= 600)%Z -> in_range x -> in_range y -> in_range x' -> in_range y' ->
  f_tile_for_meters (2 ^ p) z x y = Some (col, row) -> f_tile_for_meters (2 ^ p) z x' y' = Some (col', row') ->
  (value x <= value x' -> (col <= col')%Z) /\ (value y <= value y' -> (row <= row')%Z).
Proof.
  intros p z x y x' y' col row col' row' P Z X Y X' Y' E E'. rewrite tile_for_meters_value in E, E' by auto.
  injection E as <- <-. injection E' as <- <-.
  assert (G : forall a b, in_range a -> in_range b -> value a <= value b -> (Rceil (value (fraction a) * powerRZ 2 z) - 1 <= Rceil (value (fraction b) * powerRZ 2 z) - 1)%Z).
  { intros a b A B L. enough (value (fraction a) <= value (fraction b)).
    { assert (Rceil (value (fraction a) * powerRZ 2 z) <= Rceil (value (fraction b) * powerRZ 2 z))%Z; [|lia]. apply Rceil_mono. apply Rmult_le_compat_r; [apply Rlt_le, pw_pos|assumption]. }
    pose proof C_range. pose proof (pw_pos 25).
    apply (nearest_monotone _ _ _ _ (fraction_nearest a A) (fraction_nearest b B)). apply Rmult_le_compat_r; [apply Rlt_le, Rinv_0_lt_compat; lra|].
    apply (nearest_monotone _ _ _ _ (shifted_nearest a A) (shifted_nearest b B)). lra. }
  split; apply G; auto.
Qed.
Print Assumptions C92_monotone.

(** Every location of the square except those on its western and southern edge is in a tile of
    the tile matrix; those edges are in column and row -1. *)
Theorem C92_inside : forall p z x y col row, (0 <= p <= 100)%Z -> (0 <= z <= 600)%Z -> in_range x -> in_range y ->
  f_tile_for_meters (2 ^ p) z x y = Some (col, row) ->
  let half := value f_origin_shift in
  (- half < value x <= half -> (0 <= col < 2 ^ z)%Z) /\ (value x = - half -> col = (-1)%Z) /\
  (- half < value y <= half -> (0 <= row < 2 ^ z)%Z) /\ (value y = - half -> row = (-1)%Z).
Proof.
  intros p z x y col row P Z X Y E half. rewrite tile_for_meters_value in E by auto. injection E as <- <-. unfold half. rewrite shift_value. clear half.
  enough (G : forall a, in_range a -> (- (C / 2) < value a <= C / 2 -> (0 <= Rceil (value (fraction a) * powerRZ 2 z) - 1 < 2 ^ z)%Z) /\
    (value a = - (C / 2) -> (Rceil (value (fraction a) * powerRZ 2 z) - 1)%Z = (-1)%Z)).
  { destruct (G x X), (G y Y). auto. }
  intros a A. pose proof (shifted_nearest a A) as N. pose proof (fraction_nearest a A) as N'. pose proof C_range as CR. pose proof (pw_pos 25) as P25.
  pose proof zero_binary64 as B0. pose proof (pw_pos z) as Pz. split.
  - intros [L U].
    assert (S1 : value (shifted_x a) <= C) by (apply (nearest_le _ _ f_circumference N circ_binary64); fold C; lra).
    assert (S0 : 0 < value (shifted_x a)).
    { destruct (nearest_ge _ _ _ N B0) as [Q|Q]; [cbn [value]; lra|exact Q|]. pose proof (sum_zero a A (eq_sym Q)). lra. }
    assert (F0 : 0 < value (fraction a)).
    { destruct (representable 1 (-55)) as (g & Bg & Vg); [reflexivity|lia|]. pose proof (pw_pos (-55)).
      apply Rlt_le_trans with (value g); [rewrite Vg; lra|]. apply (nearest_ge _ _ _ N' Bg). rewrite Vg, Rmult_1_l.
      destruct (quotient_range a A) as [Q|[Q _]]; [lra|]. rewrite Rabs_pos_eq in Q; [exact Q|]. apply Rlt_le, Rmult_lt_0_compat; [exact S0|apply Rinv_0_lt_compat; lra]. }
    assert (F1 : value (fraction a) <= 1).
    { destruct (of_pow2 0 ltac:(lia)) as [B1 V1]. change (powerRZ 2 0) with 1 in V1. rewrite <- V1. apply (nearest_le _ _ _ N' B1). rewrite V1.
      apply Rmult_le_reg_r with C; [lra|]. unfold Rdiv. rewrite Rmult_assoc, Rinv_l by lra. lra. }
    assert (Q : 0 < value (fraction a) * powerRZ 2 z <= IZR (2 ^ z)) by (rewrite <- pw_IZR by lia; nra).
    destruct (Rceil_spec (value (fraction a) * powerRZ 2 z)) as [C1 C2].
    split; [|].
    + assert (0 < IZR (Rceil (value (fraction a) * powerRZ 2 z))) by lra. apply lt_IZR in H. lia.
    + assert (IZR (Rceil (value (fraction a) * powerRZ 2 z)) < IZR (2 ^ z) + 1) by lra. rewrite <- plus_IZR in H. apply lt_IZR in H. lia.
  - intros E. rewrite E in N. replace (- (C / 2) + C / 2) with 0 in N by lra.
    assert (S0 : value (shifted_x a) = 0) by (apply (nearest_exact _ _ (S754_zero false) N B0); reflexivity).
    rewrite S0 in N'. unfold Rdiv in N'. rewrite Rmult_0_l in N'.
    assert (F0 : value (fraction a) = 0) by (apply (nearest_exact _ _ (S754_zero false) N' B0); reflexivity).
    rewrite F0, Rmult_0_l, (Rceil_IZR 0). reflexivity.
Qed.
Print Assumptions C92_inside.

(** The bounds of a tile are the grid lines of its sides up to twenty nanometres. *)
Theorem C92_bounds : forall p z col row, (0 <= p <= 100)%Z -> (0 <= z <= 600)%Z -> (0 <= col < 2 ^ z)%Z -> (0 <= row < 2 ^ z)%Z ->
  let '(min_x, min_y, max_x, max_y) := f_tile_bounds (2 ^ p) z col row in
  close (value min_x) (grid_line radius z col) /\ close (value max_x) (grid_line radius z (col + 1)) /\
  close (value min_y) (grid_line radius z row) /\ close (value max_y) (grid_line radius z (row + 1)).
Proof.
  intros p z col row P Z Hc Hr. unfold f_tile_bounds.
  assert (G : forall k, (0 <= k <= 2 ^ z)%Z -> close (value (f_to_meters (2 ^ p) z (k * 2 ^ p))) (grid_line radius z k)).
  { intros k K. destruct (edge_float p z k P Z K) as [_ E]. unfold close, nanometres20, grid_line, tile_side, radius.
    pose proof (pw_pos z) as Pz. pose proof (pw_pos (- z)) as Pz'. set (w := IZR k * powerRZ 2 (- z)) in *.
    assert (W : 0 <= w <= 1).
    { unfold w. assert (0 <= IZR k) by (apply IZR_le; lia). split; [apply Rmult_le_pos; lra|].
      rewrite <- (pw_cancel z). rewrite (Rmult_comm (powerRZ 2 (- z))). apply Rmult_le_compat_r; [lra|]. rewrite pw_IZR by lia. apply IZR_le. lia. }
    assert (Eg : - (PI * 6378137) + IZR k * (2 * PI * 6378137 / powerRZ 2 z) = (w - / 2) * (2 * PI * 6378137)).
    { unfold w. apply Rmult_eq_reg_r with (powerRZ 2 z); [|lra]. replace ((IZR k * powerRZ 2 (- z) - / 2) * (2 * PI * 6378137) * powerRZ 2 z) with
        (IZR k * (powerRZ 2 (- z) * powerRZ 2 z) * (2 * PI * 6378137) - PI * 6378137 * powerRZ 2 z) by field. rewrite pw_cancel. field. lra. }
    rewrite Eg. pose proof C_bounds as CB. apply abs_interval in E, CB. set (v := value _) in *.
    assert (T : Rabs ((w - / 2) * (C - 2 * PI * 6378137)) <= / 2 * (3 / 1000000000)).
    { rewrite Rabs_mult. apply Rmult_le_compat; try apply Rabs_pos; [apply Rabs_le; lra|apply Rabs_le; lra]. }
    apply abs_interval in T. apply Rabs_le. lra. }
  repeat split; apply G; lia.
Qed.
Print Assumptions C92_bounds.

(** Neighbours share their sides to the last bit, and so do tiles with their four children and the
    same tile of tile sets with other tile sizes (as long as the index has at most 53 digits). *)
Theorem C92_shared_sides : forall p q z j col row col' row',
  (0 <= p <= 100)%Z -> (0 <= q <= 100)%Z -> (0 <= z)%Z -> (0 <= j)%Z -> (z + j <= 53)%Z ->
  (0 <= col < 2 ^ z)%Z -> (0 <= row < 2 ^ z)%Z ->
  let '(min_x, min_y, max_x, max_y) := f_tile_bounds (2 ^ p) z col row in
  let '(east, north, _, _) := f_tile_bounds (2 ^ p) z (col + 1) (row + 1) in
  let '(min_x', min_y', max_x', max_y') := f_tile_bounds (2 ^ q) (z + j) col' row' in
  (max_x = east /\ max_y = north) /\
  (col' = col * 2 ^ j -> value min_x' = value min_x)%Z /\ (row' = row * 2 ^ j -> value min_y' = value min_y)%Z /\
  (col' + 1 = (col + 1) * 2 ^ j -> value max_x' = value max_x)%Z /\ (row' + 1 = (row + 1) * 2 ^ j -> value max_y' = value max_y)%Z.
Proof.
  intros p q z j col row col' row' P Q Z J ZJ Hc Hr. unfold f_tile_bounds.
  assert (G : forall k k', (0 <= k <= 2 ^ z)%Z -> k' = (k * 2 ^ j)%Z -> value (f_to_meters (2 ^ q) (z + j) (k' * 2 ^ q)) = value (f_to_meters (2 ^ p) z (k * 2 ^ p))).
  { intros k k' K ->. assert (PJ : (0 < 2 ^ j)%Z) by (apply Z.pow_pos_nonneg; lia).
    assert (K' : (0 <= k * 2 ^ j <= 2 ^ (z + j))%Z) by (rewrite Z.pow_add_r by lia; nia).
    destruct (edge_float p z k P ltac:(lia) K) as [N _]. destruct (edge_float q (z + j) (k * 2 ^ j) Q ltac:(lia) K') as [N' _].
    enough (E : value (edge_product q (z + j) (k * 2 ^ j)) = value (edge_product p z k)) by (rewrite E in N'; exact (nearest_unique _ _ _ N' N)).
    destruct (product_float p z k P ltac:(lia) K) as (_ & M & _). destruct (product_float q (z + j) (k * 2 ^ j) Q ltac:(lia) K') as (_ & M' & _).
    assert (Cnt : forall p z k, (0 <= p <= 100)%Z -> (0 <= z <= 53)%Z -> (0 <= k <= 2 ^ z)%Z -> value (f_of_Z (k * 2 ^ p)) * (C * powerRZ 2 (- (p + z))) = IZR k * powerRZ 2 (- z) * C).
    { intros p0 z0 k0 P0 Z0 K0. destruct (count_float p0 z0 k0 P0 ltac:(lia) K0) as [N0 _].
      assert (V : value (f_of_Z (k0 * 2 ^ p0)) = IZR k0 * powerRZ 2 p0).
      { assert (T : (2 ^ z0 <= 2 ^ 53)%Z) by (apply Z.pow_le_mono_r; lia).
        destruct (Z.eq_dec k0 (2 ^ 53)) as [E|E].
        - destruct (representable 1 (53 + p0)) as (g & Bg & Vg); [reflexivity|lia|]. apply (nearest_exact _ _ g N0 Bg). rewrite Vg, E, pw_add, (pw_IZR 53) by lia. ring.
        - destruct (representable k0 p0) as (g & Bg & Vg); [lia|lia|]. exact (nearest_exact _ _ g N0 Bg Vg). }
      rewrite V. replace (- (p0 + z0))%Z with (- p0 + - z0)%Z by lia. rewrite pw_add.
      replace (IZR k0 * powerRZ 2 p0 * (C * (powerRZ 2 (- p0) * powerRZ 2 (- z0)))) with (IZR k0 * powerRZ 2 (- z0) * C * (powerRZ 2 (- p0) * powerRZ 2 p0)) by ring.
      rewrite pw_cancel. ring. }
    rewrite Cnt in M by lia. rewrite Cnt in M' by lia.
    replace (IZR (k * 2 ^ j) * powerRZ 2 (- (z + j)) * C) with (IZR k * powerRZ 2 (- z) * C) in M'; [exact (nearest_unique _ _ _ M' M)|].
    rewrite mult_IZR, <- pw_IZR by lia. replace (- (z + j))%Z with (- z + - j)%Z by lia. rewrite pw_add.
    replace (IZR k * powerRZ 2 j * (powerRZ 2 (- z) * powerRZ 2 (- j)) * C) with (IZR k * powerRZ 2 (- z) * C * (powerRZ 2 (- j) * powerRZ 2 j)) by ring.
    rewrite pw_cancel. ring. }
  split; [split; reflexivity|]. repeat split; intros E; apply G; auto; lia.
Qed.
Print Assumptions C92_shared_sides.

(** The bounds of the tile found need not contain the location: 10018754.171394622 m east and
    north is found in column 2 and row 2 of zoom level 2, whose bounds end at 10018754.17139462 m. *)
Definition on_edge : spec_float := S754_finite false 5378777689100435 (-29).
Theorem C92_contains_refuted : metres on_edge /\
  exists col row, f_tile_for_meters 256 2 on_edge on_edge = Some (col, row) /\
  let '(_, _, max_x, max_y) := f_tile_bounds 256 2 col row in
  value max_x < value on_edge /\ value max_y < value on_edge.
Proof.
  assert (P : powerRZ 2 (-29) = / 536870912) by (change (powerRZ 2 (-29)) with (/ (2 ^ 29)); replace (2 ^ 29) with 536870912 by ring; reflexivity).
  split.
  - split; [split; [exact I|reflexivity]|]. unfold on_edge. rewrite value_sign, P. cbn [sign]. apply Rabs_le. lra.
  - exists 2%Z, 2%Z. split; [vm_compute; reflexivity|].
    assert (E : f_tile_bounds 256 2 2 2 = (S754_zero false, S754_zero false, S754_finite false 5378777689100434 (-29), S754_finite false 5378777689100434 (-29))) by (vm_compute; reflexivity).
    rewrite E. unfold on_edge. rewrite !value_sign, P. cbn [sign]. split; lra.
Qed.
Print Assumptions C92_contains_refuted.

(** Around Washington: 8577000 m west, 4707000 m north at zoom level 18. *)
Example C92_non_vacuous :
  let x := f_of_Z (-8577000) in let y := f_of_Z 4707000 in
  f_tile_for_meters (2 ^ 8) 18 x y = Some (74966, 161862)%Z /\ f_tile_for_meters (2 ^ 9) 17 x y = Some (37483, 80931)%Z /\
  f_tile_for_meters (2 ^ 8) 0 x y = Some (0, 0)%Z.
Proof. vm_compute. auto. Qed.
(** These coordinates are in range and away from the edges at zoom level 2. *)
Example C92_metres_non_vacuous :
  let x := f_of_Z (-8577000) in let y := f_of_Z 4707000 in
  metres x /\ metres y /\ f_tile_for_meters (2 ^ 8) 2 x y = Some (1, 2)%Z /\ (forall x', close x' (value x) -> in_strip radius 2 1 x').
Proof.
  set (x := f_of_Z (-8577000)). set (y := f_of_Z 4707000). cbv zeta.
  assert (Ex : x = S754_finite true 4604741812224000 (-29)) by (vm_compute; reflexivity).
  assert (Ey : y = S754_finite false 5054102765568000 (-30)) by (vm_compute; reflexivity).
  assert (Vx : value x = -8577000) by (rewrite Ex, value_sign; replace (powerRZ 2 (-29)) with (/ 536870912) by (change (powerRZ 2 (-29)) with (/ (2 ^ 29)); f_equal; ring); cbn [sign]; lra).
  assert (Vy : value y = 4707000) by (rewrite Ey, value_sign; replace (powerRZ 2 (-30)) with (/ 1073741824) by (change (powerRZ 2 (-30)) with (/ (2 ^ 30)); f_equal; ring); cbn [sign]; lra).
  assert (Mx : metres x) by (split; [rewrite Ex; split; [exact I|reflexivity]|rewrite Vx; apply Rabs_le; lra]).
  assert (My : metres y) by (split; [rewrite Ey; split; [exact I|reflexivity]|rewrite Vy; apply Rabs_le; lra]).
  pose proof pi_bounds as PB.
  assert (P : powerRZ 2 2 = 4) by (change (powerRZ 2 2) with (2 ^ 2); ring).
  assert (Sx : forall x', close x' (value x) -> in_strip radius 2 1 x').
  { intros x' C. unfold close, nanometres20 in C. rewrite Vx in C. apply abs_interval in C. unfold in_strip, grid_line, tile_side. rewrite P. unfold radius. cbn [Z.add Pos.add]. split; lra. }
  assert (Sy : forall y', close y' (value y) -> in_strip radius 2 2 y').
  { intros y' C. unfold close, nanometres20 in C. rewrite Vy in C. apply abs_interval in C. unfold in_strip, grid_line, tile_side. rewrite P. unfold radius. cbn [Z.add Pos.add Pos.succ]. split; lra. }
  split; [exact Mx|]. split; [exact My|]. split; [|exact Sx]. apply C92_away_from_edges; try lia; assumption.
Qed.
