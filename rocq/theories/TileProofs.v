(** Lemmas about the Web Mercator tile model. *)
Require Import ZArith Reals String List Lra Lia Permutation.
Require Import Verif.Base Verif.BaseFacts Verif.TileModel Verif.TileSpec.
Import ListNotations.
Local Open Scope R_scope.

Lemma pow2_pos z : 0 < powerRZ 2 z.
Proof. apply powerRZ_lt. lra. Qed.

Lemma tile_side_pos a z : 0 < a -> 0 < tile_side a z.
Proof.
  intros Ha. unfold tile_side. pose proof PI_RGT_0.
  apply Rdiv_lt_0_compat; [|apply pow2_pos].
  apply Rmult_lt_0_compat; [lra|exact Ha].
Qed.

Lemma resolution_side a size id z :
  (0 < size)%Z -> IZR size * resolution (make_tile_set a size id) z = tile_side a z.
Proof.
  intros Hs. unfold resolution, make_tile_set, tile_side. cbn.
  apply IZR_lt in Hs. pose proof (pow2_pos z). field. lra.
Qed.

Lemma shift_pi a size id : origin_shift (make_tile_set a size id) = PI * a.
Proof. unfold make_tile_set. cbn. field. Qed.

Lemma resolution_pos a size id z : 0 < a -> (0 < size)%Z ->
  0 < resolution (make_tile_set a size id) z.
Proof.
  intros Ha Hs. pose proof (resolution_side a size id z Hs) as H.
  pose proof (tile_side_pos a z Ha). apply IZR_lt in Hs.
  apply Rmult_lt_reg_l with (IZR size); [lra|]. rewrite H, Rmult_0_r. assumption.
Qed.

(** The index computed from a metric coordinate is the strip that contains it. *)
Lemma index_in_strip a size id z v : 0 < a -> (0 < size)%Z ->
  in_strip a z
    (Rceil ((v + origin_shift (make_tile_set a size id))
              / resolution (make_tile_set a size id) z / IZR size) - 1) v.
Proof.
  intros Ha Hs. pose proof (resolution_side a size id z Hs) as Hr.
  pose proof (resolution_pos a size id z Ha Hs) as Hp. rewrite shift_pi.
  set (r := resolution _ _) in *. clearbody r.
  pose proof (tile_side_pos a z Ha) as Ht.
  set (u := (v + PI * a) / r / IZR size).
  assert (Hu : v + PI * a = u * tile_side a z).
  { unfold u. rewrite <- Hr. apply IZR_lt in Hs. field. lra. }
  destruct (Rceil_spec u) as [H1 H2]. fold u.
  unfold in_strip, grid_line. rewrite plus_IZR, minus_IZR.
  set (n := IZR (Rceil u)) in *. set (t := tile_side a z) in *.
  assert ((n - 1) * t < u * t) by (apply Rmult_lt_compat_r; lra).
  assert (u * t <= n * t) by (apply Rmult_le_compat_r; lra).
  split; [lra|]. replace (n - 1 + 1) with n by ring. lra.
Qed.

Lemma grid_line_mono a z j k : 0 < a -> (j <= k)%Z -> grid_line a z j <= grid_line a z k.
Proof.
  intros Ha H. unfold grid_line. apply IZR_le in H.
  pose proof (tile_side_pos a z Ha).
  assert (IZR j * tile_side a z <= IZR k * tile_side a z) by (apply Rmult_le_compat_r; lra).
  lra.
Qed.

Lemma in_strip_unique a z j k v : 0 < a -> in_strip a z j v -> in_strip a z k v -> j = k.
Proof.
  intros Ha [H1 H2] [H3 H4].
  destruct (Z.lt_trichotomy j k) as [H|[H|H]]; [|exact H|].
  - pose proof (grid_line_mono a z (j + 1) k Ha ltac:(lia)). lra.
  - pose proof (grid_line_mono a z (k + 1) j Ha ltac:(lia)). lra.
Qed.

(** Metric bounds of a tile are grid lines. *)
Lemma bounds_meters_lines a size id t : (0 < size)%Z ->
  tile_bounds_meters (make_tile_set a size id) t =
  mkBounds (grid_line a (tile_matrix t) (tile_col t))
           (grid_line a (tile_matrix t) (tile_row t))
           (grid_line a (tile_matrix t) (tile_col t + 1))
           (grid_line a (tile_matrix t) (tile_row t + 1)).
Proof.
  intros Hs. unfold tile_bounds_meters, pixels_to_meters. cbn -[resolution origin_shift].
  rewrite shift_pi. pose proof (resolution_side a size id (tile_matrix t) Hs) as Hr.
  unfold grid_line. rewrite <- Hr, !mult_IZR.
  f_equal; ring.
Qed.

Section Transform.
Variables (a : R) (fwd inv : R -> R -> R * R).

Lemma tile_for_location_id size id w z :
  mt_id (get_tile_for_location fwd inv (make_tile_set a size id) w z) =
  let ts := make_tile_set a size id in
  let '(x, y) := fwd (latitude w) (longitude w) in
  mkTileId z (Rceil ((y + origin_shift ts) / resolution ts z / IZR size) - 1)
             (Rceil ((x + origin_shift ts) / resolution ts z / IZR size) - 1).
Proof.
  unfold get_tile_for_location. cbn -[resolution origin_shift Rceil].
  destruct (fwd _ _). reflexivity.
Qed.

Lemma tile_for_location_is_get_tile ts w z :
  get_tile_for_location fwd inv ts w z
  = get_tile inv ts (mt_id (get_tile_for_location fwd inv ts w z)).
Proof.
  unfold get_tile_for_location. destruct (fwd _ _), (meters_to_pixels _ _ _ _), (pixels_to_tile _ _ _).
  reflexivity.
Qed.

Lemma tile_for_location_strips size id w z x y : 0 < a -> (0 < size)%Z ->
  fwd (latitude w) (longitude w) = (x, y) ->
  let t := get_tile_for_location fwd inv (make_tile_set a size id) w z in
  tile_matrix (mt_id t) = z /\
  in_strip a z (tile_col (mt_id t)) x /\ in_strip a z (tile_row (mt_id t)) y.
Proof.
  intros Ha Hs Hf t. unfold t. rewrite tile_for_location_id. cbv zeta. rewrite Hf.
  cbn [tile_matrix tile_col tile_row].
  split; [reflexivity|]. split; apply index_in_strip; assumption.
Qed.

Lemma tile_bounds_values size id t : (0 < size)%Z ->
  mt_bounds (get_tile inv (make_tile_set a size id) t) =
  let lo := inv (grid_line a (tile_matrix t) (tile_col t)) (grid_line a (tile_matrix t) (tile_row t)) in
  let hi := inv (grid_line a (tile_matrix t) (tile_col t + 1)) (grid_line a (tile_matrix t) (tile_row t + 1)) in
  mkBounds (snd lo) (fst lo) (snd hi) (fst hi).
Proof.
  intros Hs. cbn [mt_bounds get_tile]. unfold tile_bounds_lle.
  rewrite (bounds_meters_lines a size id t Hs). cbn.
  destruct (inv _ _), (inv _ _). reflexivity.
Qed.

(** Nesting of strips. *)
Lemma tile_side_succ z : tile_side a (z + 1) = tile_side a z / 2.
Proof.
  unfold tile_side. rewrite powerRZ_add by lra. pose proof (pow2_pos z).
  rewrite powerRZ_1. field. lra.
Qed.

Lemma grid_line_double z k : grid_line a (z + 1) (2 * k) = grid_line a z k.
Proof. unfold grid_line. rewrite tile_side_succ, mult_IZR. field. Qed.

Lemma strip_parent z k v : 0 < a -> in_strip a (z + 1) k v -> in_strip a z (k / 2) v.
Proof.
  intros Ha [H1 H2]. unfold in_strip.
  rewrite <- (grid_line_double z (k / 2)), <- (grid_line_double z (k / 2 + 1)).
  pose proof (grid_line_mono a (z + 1) (2 * (k / 2)) k Ha).
  pose proof (grid_line_mono a (z + 1) (k + 1) (2 * (k / 2 + 1)) Ha).
  pose proof (Z.div_mod k 2 ltac:(lia)). pose proof (Z.mod_pos_bound k 2 ltac:(lia)).
  split.
  - eapply Rle_lt_trans; [|exact H1]. apply H. lia.
  - eapply Rle_trans; [exact H2|]. apply H0. lia.
Qed.

Lemma tile_parent size id w z : 0 < a -> (0 < size)%Z ->
  let ts := make_tile_set a size id in
  let child := mt_id (get_tile_for_location fwd inv ts w (z + 1)) in
  let parent := mt_id (get_tile_for_location fwd inv ts w z) in
  (tile_row child / 2 = tile_row parent /\ tile_col child / 2 = tile_col parent)%Z.
Proof.
  intros Ha Hs ts child parent.
  destruct (fwd (latitude w) (longitude w)) as [x y] eqn:Hf.
  pose proof (tile_for_location_strips size id w (z + 1) x y Ha Hs Hf) as [_ [Hc Hr]].
  pose proof (tile_for_location_strips size id w z x y Ha Hs Hf) as [_ [Hc' Hr']].
  fold ts in Hc, Hr, Hc', Hr'. fold child in Hc, Hr. fold parent in Hc', Hr'.
  split; eapply in_strip_unique; try eassumption; apply strip_parent; assumption.
Qed.

(** Range of indices. *)
Lemma grid_line_0 z : grid_line a z 0 = - (PI * a).
Proof. unfold grid_line. ring. Qed.

Lemma pow2_Z z : (0 <= z)%Z -> powerRZ 2 z = IZR (2 ^ z).
Proof.
  intros Hz. rewrite <- (Z2Nat.id z Hz) at 1.
  rewrite <- pow_powerRZ, pow_IZR. f_equal.
  rewrite Z2Nat.id by exact Hz. reflexivity.
Qed.

Lemma grid_line_last z : (0 <= z)%Z -> grid_line a z (2 ^ z) = PI * a.
Proof.
  intros Hz. unfold grid_line, tile_side. rewrite <- pow2_Z by exact Hz.
  pose proof (pow2_pos z). field. lra.
Qed.

Lemma strip_range z k v : 0 < a -> (0 <= z)%Z ->
  - (PI * a) < v <= PI * a -> in_strip a z k v -> (0 <= k < 2 ^ z)%Z.
Proof.
  intros Ha Hz [H1 H2] [H3 H4]. split.
  - destruct (Z.le_gt_cases 0 k) as [H|H]; [exact H|].
    pose proof (grid_line_mono a z (k + 1) 0 Ha ltac:(lia)). rewrite grid_line_0 in H0. lra.
  - destruct (Z.lt_ge_cases k (2 ^ z)) as [H|H]; [exact H|].
    pose proof (grid_line_mono a z (2 ^ z) k Ha ltac:(lia)). rewrite grid_line_last in H0 by exact Hz. lra.
Qed.

Lemma strip_edge z k : 0 < a -> in_strip a z k (- (PI * a)) -> k = (-1)%Z.
Proof.
  intros Ha H. eapply in_strip_unique; [exact Ha|exact H|].
  unfold in_strip. rewrite (grid_line_0 z : grid_line a z (-1 + 1) = _).
  unfold grid_line. pose proof (tile_side_pos a z Ha). lra.
Qed.

(** Rows against the OGC definition. *)
Lemma strip_ogc z k y : 0 < a -> (0 <= z)%Z -> in_strip a z k y ->
  (k = 2 ^ z - 1 - ogc_row a z y)%Z.
Proof.
  intros Ha Hz [H1 H2]. pose proof (tile_side_pos a z Ha) as Ht.
  enough (ogc_row a z y = 2 ^ z - 1 - k)%Z by lia.
  unfold ogc_row. apply Rfloor_unique. rewrite !minus_IZR.
  unfold grid_line in *. rewrite plus_IZR in H2.
  assert (E : IZR (2 ^ z) * tile_side a z = 2 * PI * a).
  { rewrite <- pow2_Z by exact Hz. unfold tile_side. pose proof (pow2_pos z). field. lra. }
  set (t := tile_side a z) in *. set (n := IZR (2 ^ z)) in *. set (kk := IZR k) in *.
  split.
  - apply Rmult_le_reg_r with t; [lra|]. unfold Rdiv.
    rewrite Rmult_assoc, Rinv_l by lra. lra.
  - apply Rmult_lt_reg_r with t; [lra|]. unfold Rdiv.
    rewrite Rmult_assoc, Rinv_l by lra. lra.
Qed.

Lemma strip_mono z j k u v : 0 < a -> in_strip a z j u -> in_strip a z k v -> u <= v -> (j <= k)%Z.
Proof.
  intros Ha [H1 H2] [H3 H4] H. destruct (Z.le_gt_cases j k) as [L|L]; [exact L|].
  pose proof (grid_line_mono a z (k + 1) j Ha ltac:(lia)). lra.
Qed.
End Transform.

(** Python min/max. *)
Lemma fold_min_le l : forall x, (fold_left Z.min l x <= x)%Z.
Proof. induction l as [|y l IH]; intros x; cbn; [lia|]. specialize (IH (Z.min x y)). lia. Qed.
Lemma fold_min_in l : forall x y, In y l -> (fold_left Z.min l x <= y)%Z.
Proof.
  induction l as [|z l IH]; intros x y [].
  - subst. cbn. pose proof (fold_min_le l (Z.min x y)). lia.
  - cbn. apply IH. assumption.
Qed.
Lemma fold_min_mem l : forall x, In (fold_left Z.min l x) (x :: l).
Proof.
  induction l as [|y l IH]; intros x; cbn; [auto|].
  destruct (IH (Z.min x y)) as [H|H].
  - rewrite <- H. destruct (Z.min_spec x y) as [[_ ->]|[_ ->]]; auto.
  - auto.
Qed.
Lemma fold_max_opp l : forall x, fold_left Z.max l x = (- fold_left Z.min (map Z.opp l) (- x))%Z.
Proof.
  induction l as [|y l IH]; intros x; cbn; [lia|]. rewrite IH. repeat f_equal. lia.
Qed.

Lemma py_min_ok l m : py_min l = Ok m <-> (In m l /\ forall y, In y l -> (m <= y)%Z).
Proof.
  destruct l as [|x l]; cbn [py_min].
  - split; [discriminate|intros [[] _]].
  - split.
    + intros [= <-]. split; [apply fold_min_mem|].
      intros y [->|H]; [apply fold_min_le|apply fold_min_in; exact H].
    + intros [H1 H2]. f_equal. apply Z.le_antisymm.
      * destruct H1 as [->|H1]; [apply fold_min_le|apply fold_min_in; exact H1].
      * apply H2. apply fold_min_mem.
Qed.

Lemma py_max_min l : py_max l = match py_min (map Z.opp l) with Ok m => Ok (- m)%Z | Err e => Err e end.
Proof. destruct l as [|x l]; cbn; [reflexivity|]. rewrite fold_max_opp. reflexivity. Qed.

Lemma py_max_ok l m : py_max l = Ok m <-> (In m l /\ forall y, In y l -> (y <= m)%Z).
Proof.
  rewrite py_max_min. pose proof (py_min_ok (map Z.opp l) (- m)) as H.
  assert (E : In (- m)%Z (map Z.opp l) /\ (forall y, In y (map Z.opp l) -> (- m <= y)%Z)
              <-> (In m l /\ forall y, In y l -> (y <= m)%Z)).
  { split; intros [H1 H2]; split.
    - apply in_map_iff in H1 as [k [E K]]. replace m with k by lia. exact K.
    - intros y Hy. specialize (H2 (- y)%Z (in_map _ _ _ Hy)). lia.
    - apply in_map, H1.
    - intros y Hy. apply in_map_iff in Hy as [k [<- K]]. specialize (H2 k K). lia. }
  rewrite <- E, <- H. clear. destruct (py_min (map Z.opp l)) as [k|e].
  - split; intros [= K]; f_equal; lia.
  - split; discriminate.
Qed.

Lemma py_min_total l : l <> [] -> exists m, py_min l = Ok m.
Proof. destruct l; [congruence|]. intros _. eexists. reflexivity. Qed.
Lemma py_max_total l : l <> [] -> exists m, py_max l = Ok m.
Proof. destruct l; [congruence|]. intros _. eexists. reflexivity. Qed.

Section Limits.
Variables (a : R) (fwd inv : R -> R -> R * R) (ts : TileSet) (z : Z).
Let tile w := mt_id (get_tile_for_location fwd inv ts w z).

Lemma limits_ok area c0 r0 c1 r1 :
  tile_matrix_limits fwd inv ts area z = Ok (c0, r0, c1, r1) <->
  (forall w, In w area -> (c0 <= tile_col (tile w) <= c1)%Z /\ (r0 <= tile_row (tile w) <= r1)%Z) /\
  (exists w, In w area /\ tile_col (tile w) = c0) /\ (exists w, In w area /\ tile_row (tile w) = r0) /\
  (exists w, In w area /\ tile_col (tile w) = c1) /\ (exists w, In w area /\ tile_row (tile w) = r1).
Proof.
  unfold tile_matrix_limits. rewrite !map_map.
  set (cols := map _ area). set (rows := map (fun x => tile_row _) area).
  assert (HC : forall k, In k cols <-> exists w, In w area /\ tile_col (tile w) = k).
  { intros k. unfold cols. rewrite in_map_iff. split; intros [w [H1 H2]]; exists w; auto. }
  assert (HR : forall k, In k rows <-> exists w, In w area /\ tile_row (tile w) = k).
  { intros k. unfold rows. rewrite in_map_iff. split; intros [w [H1 H2]]; exists w; auto. }
  split.
  - intros H.
    destruct (py_min cols) as [k1|] eqn:E1; [|discriminate]. cbn in H.
    destruct (py_min rows) as [k2|] eqn:E2; [|discriminate]. cbn in H.
    destruct (py_max cols) as [k3|] eqn:E3; [|discriminate]. cbn in H.
    destruct (py_max rows) as [k4|] eqn:E4; [|discriminate]. cbn in H.
    injection H as -> -> -> ->.
    apply py_min_ok in E1 as [A1 B1]. apply py_min_ok in E2 as [A2 B2].
    apply py_max_ok in E3 as [A3 B3]. apply py_max_ok in E4 as [A4 B4].
    rewrite <- !HC, <- !HR. repeat split; try assumption.
    + apply B1, HC; eauto. + apply B3, HC; eauto.
    + apply B2, HR; eauto. + apply B4, HR; eauto.
  - intros (H & H1 & H2 & H3 & H4). rewrite <- HC in H1, H3. rewrite <- HR in H2, H4.
    assert (E1 : py_min cols = Ok c0).
    { apply py_min_ok. split; [exact H1|]. intros y Hy. apply HC in Hy as [w [Hw <-]]. apply H, Hw. }
    assert (E2 : py_min rows = Ok r0).
    { apply py_min_ok. split; [exact H2|]. intros y Hy. apply HR in Hy as [w [Hw <-]]. apply H, Hw. }
    assert (E3 : py_max cols = Ok c1).
    { apply py_max_ok. split; [exact H3|]. intros y Hy. apply HC in Hy as [w [Hw <-]]. apply H, Hw. }
    assert (E4 : py_max rows = Ok r1).
    { apply py_max_ok. split; [exact H4|]. intros y Hy. apply HR in Hy as [w [Hw <-]]. apply H, Hw. }
    rewrite E1, E2, E3, E4. reflexivity.
Qed.

Lemma limits_total area : area <> [] ->
  exists q, tile_matrix_limits fwd inv ts area z = Ok q.
Proof.
  intros H. unfold tile_matrix_limits.
  destruct area as [|w area]; [congruence|]. cbn. eexists. reflexivity.
Qed.

Lemma limits_empty : tile_matrix_limits fwd inv ts [] z = Err ValueError.
Proof. reflexivity. Qed.

Lemma limits_perm area area' : Permutation area area' ->
  tile_matrix_limits fwd inv ts area z = tile_matrix_limits fwd inv ts area' z.
Proof.
  intros P. destruct area as [|w area].
  - apply Permutation_nil in P. subst. reflexivity.
  - destruct (limits_total (w :: area)) as [[[[c0 r0] c1] r1] E]; [discriminate|].
    rewrite E. symmetry. apply limits_ok. apply limits_ok in E as (H & H1 & H2 & H3 & H4).
    assert (Q : forall x, In x (w :: area) <-> In x area').
    { intros x. split; apply Permutation_in; [exact P|symmetry; exact P]. }
    split; [intros x Hx; apply H, Q, Hx|].
    repeat split; [destruct H1 as [x [Hx ?]]|destruct H2 as [x [Hx ?]]|destruct H3 as [x [Hx ?]]|destruct H4 as [x [Hx ?]]];
      exists x; (split; [apply Q, Hx|assumption]).
Qed.
End Limits.

(** Spherical Mercator. *)
Lemma mercator_inverse a lat lon : 0 < a -> - PI / 2 < lat < PI / 2 ->
  let '(x, y) := mercator a lat lon in inverse_mercator a x y = (lat, lon).
Proof.
  intros Ha [H1 H2]. unfold mercator, inverse_mercator.
  assert (Ht : 0 < tan (PI / 4 + lat / 2)) by (apply tan_gt_0; lra).
  replace (a * ln (tan (PI / 4 + lat / 2)) / a) with (ln (tan (PI / 4 + lat / 2))) by (field; lra).
  rewrite exp_ln by exact Ht. rewrite atan_tan by lra.
  f_equal; field. lra.
Qed.

Lemma inverse_mercator_mono a x y x' y' : 0 < a ->
  (x < x' -> snd (inverse_mercator a x y) < snd (inverse_mercator a x' y')) /\
  (y < y' -> fst (inverse_mercator a x y) < fst (inverse_mercator a x' y')).
Proof.
  intros Ha. unfold inverse_mercator. cbn. split; intros H.
  - apply Rmult_lt_compat_r; [apply Rinv_0_lt_compat; lra|exact H].
  - assert (y / a < y' / a) as E by (apply Rmult_lt_compat_r; [apply Rinv_0_lt_compat; lra|exact H]).
    apply exp_increasing, atan_increasing in E. lra.
Qed.

Lemma inverse_mercator_mono_le a x y x' y' : 0 < a ->
  (x <= x' -> snd (inverse_mercator a x y) <= snd (inverse_mercator a x' y')) /\
  (y <= y' -> fst (inverse_mercator a x y) <= fst (inverse_mercator a x' y')).
Proof.
  intros Ha. destruct (inverse_mercator_mono a x y x' y' Ha) as [A B].
  split; intros [H|H]; subst.
  - left; auto. - right; reflexivity. - left; auto. - right; reflexivity.
Qed.

Lemma geodetic_containment a size id w z : 0 < a -> (0 < size)%Z ->
  - PI / 2 < latitude w < PI / 2 ->
  let b := mt_bounds (get_tile_for_location (mercator a) (inverse_mercator a)
                        (make_tile_set a size id) w z) in
  b_min_x b < longitude w <= b_max_x b /\ b_min_y b < latitude w <= b_max_y b.
Proof.
  intros Ha Hs Hl b. unfold b. rewrite tile_for_location_is_get_tile.
  rewrite tile_bounds_values by exact Hs. cbv zeta. cbn [b_min_x b_max_x b_min_y b_max_y].
  pose proof (mercator_inverse a (latitude w) (longitude w) Ha Hl) as Hm.
  destruct (mercator a (latitude w) (longitude w)) as [x y] eqn:Hf.
  destruct (tile_for_location_strips a (mercator a) (inverse_mercator a) size id w z x y Ha Hs Hf) as [Hz [[C1 C2] [R1 R2]]].
  rewrite Hz. set (t := mt_id _) in *.
  assert (E1 : longitude w = snd (inverse_mercator a x y)) by (rewrite Hm; reflexivity).
  assert (E2 : latitude w = fst (inverse_mercator a x y)) by (rewrite Hm; reflexivity).
  rewrite E1, E2.
  split; split; first [apply inverse_mercator_mono; assumption | apply inverse_mercator_mono_le; assumption].
Qed.

Lemma mercator_x_range a lon : 0 < a -> - (PI * a) <= a * lon <= PI * a <-> - PI <= lon <= PI.
Proof. intros Ha. split; intros [A B]; split; nra. Qed.

Lemma mercator_y_range a lat : 0 < a -> - (PI / 2) < lat < PI / 2 ->
  - (PI * a) <= a * ln (tan (PI / 4 + lat / 2)) <= PI * a
  <-> - (2 * atan (exp PI) - PI / 2) <= lat <= 2 * atan (exp PI) - PI / 2.
Proof.
  intros Ha Hl. pose proof (mercator_inverse a lat 0 Ha ltac:(lra)) as M. unfold mercator in M.
  set (y := a * ln (tan (PI / 4 + lat / 2))) in *.
  assert (L : fst (inverse_mercator a (a * 0) y) = lat) by now rewrite M.
  assert (T : fst (inverse_mercator a 0 (PI * a)) = 2 * atan (exp PI) - PI / 2).
  { unfold inverse_mercator. cbn. replace (PI * a / a) with PI by (field; lra). reflexivity. }
  assert (B : fst (inverse_mercator a 0 (- (PI * a))) = - (2 * atan (exp PI) - PI / 2)).
  { unfold inverse_mercator. cbn. replace (- (PI * a) / a) with (- PI) by (field; lra).
    rewrite exp_Ropp, atan_inv by apply exp_pos. field. }
  rewrite <- B, <- T, <- L.
  assert (X : forall y1 y2 x1 x2, y1 <= y2 <-> fst (inverse_mercator a x1 y1) <= fst (inverse_mercator a x2 y2)).
  { intros y1 y2 x1 x2. split; intros H.
    - destruct (inverse_mercator_mono_le a x1 y1 x2 y2 Ha) as [_ Q]. auto.
    - destruct (Rle_dec y1 y2) as [|N]; [assumption|]. exfalso.
      destruct (inverse_mercator_mono a x2 y2 x1 y1 Ha) as [_ Q]. specialize (Q ltac:(lra)). lra. }
  rewrite <- !X. tauto.
Qed.
