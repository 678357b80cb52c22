(** Properties of orthophoto tiles: C61, C62, C77. *)
Require Import Reals Lra Lia ZArith String List Bool Arith.
Require Import Verif.Base Verif.BaseFacts Verif.TileModel Verif.RsmModel Verif.BuilderModel Verif.BuilderProofs Verif.GeolocModel Verif.GeolocSpec Verif.GeolocProofs Verif.OrthoModel.
Import ListNotations.
Local Open Scope R_scope.

(** *** Lists of numbers *)
Lemma list_min_spec l x : In x l -> list_min l <= x /\ In (list_min l) l.
Proof. destruct l as [|a l]; intros I; [destruct I|]. cbn [list_min]. destruct (fold_min l a) as [[A B] C]. split; [destruct I as [<-|I]; [exact A | apply B, I] | exact C]. Qed.
Lemma list_max_spec l x : In x l -> x <= list_max l /\ In (list_max l) l.
Proof. destruct l as [|a l]; intros I; [destruct I|]. cbn [list_max]. destruct (fold_max l a) as [[A B] C]. split; [destruct I as [<-|I]; [exact A | apply B, I] | exact C]. Qed.

(** The world locations of the grid and what the sensor model makes of them. *)
Definition fraction3 (a b t : R) : Prop := t = a \/ t = (a + b) / 2 \/ t = b.
Lemma linspace3 a b : linspace a b 3 = [a; (a + b) / 2; b].
Proof. unfold linspace. cbn [seq List.map INR]. f_equal; [ring|]. f_equal; [field|]. f_equal. field. Qed.

Section Plan.
Variable i2w : Vertex -> res Geodetic.
Variable w2i : Geodetic -> res Vertex.
Variables xsize ysize overviews : Z.
Notation plan := (plan i2w w2i xsize ysize overviews).
Notation default_elevation := (default_elevation i2w xsize ysize).

(** [v] is the image location of one of the nine locations of the tile. *)
Definition node_of (elev min_lon min_lat max_lon max_lat : R) (v : Vertex) : Prop :=
  exists lon lat, fraction3 min_lon max_lon lon /\ fraction3 max_lat min_lat lat /\ w2i (mkGeo lon lat elev) = Ok v.

Lemma src_grid elev a b c d grid : src_coords w2i elev a b c d = Ok grid ->
  exists v00 v01 v02 v10 v11 v12 v20 v21 v22, grid = [[v00; v01; v02]; [v10; v11; v12]; [v20; v21; v22]]
  /\ w2i (mkGeo a d elev) = Ok v00 /\ w2i (mkGeo ((a + c) / 2) d elev) = Ok v01 /\ w2i (mkGeo c d elev) = Ok v02
  /\ w2i (mkGeo a ((d + b) / 2) elev) = Ok v10 /\ w2i (mkGeo ((a + c) / 2) ((d + b) / 2) elev) = Ok v11 /\ w2i (mkGeo c ((d + b) / 2) elev) = Ok v12
  /\ w2i (mkGeo a b elev) = Ok v20 /\ w2i (mkGeo ((a + c) / 2) b elev) = Ok v21 /\ w2i (mkGeo c b elev) = Ok v22.
Proof.
  unfold src_coords. rewrite !linspace3. intros H. cbn [map_res] in H.
  destruct (w2i (mkGeo a d elev)) as [v00|]; [|discriminate]. destruct (w2i (mkGeo ((a + c) / 2) d elev)) as [v01|]; [|discriminate]. destruct (w2i (mkGeo c d elev)) as [v02|]; [|discriminate].
  destruct (w2i (mkGeo a ((d + b) / 2) elev)) as [v10|]; [|discriminate]. destruct (w2i (mkGeo ((a + c) / 2) ((d + b) / 2) elev)) as [v11|]; [|discriminate]. destruct (w2i (mkGeo c ((d + b) / 2) elev)) as [v12|]; [|discriminate].
  destruct (w2i (mkGeo a b elev)) as [v20|]; [|discriminate]. destruct (w2i (mkGeo ((a + c) / 2) b elev)) as [v21|]; [|discriminate]. destruct (w2i (mkGeo c b elev)) as [v22|]; [|discriminate].
  cbn in H. injection H as <-. do 9 eexists. repeat split.
Qed.
Lemma grid_nodes elev a b c d grid : src_coords w2i elev a b c d = Ok grid -> concat grid <> [] /\ forall v, In v (concat grid) <-> node_of elev a b c d v.
Proof.
  intros H. destruct (src_grid _ _ _ _ _ _ H) as (v00 & v01 & v02 & v10 & v11 & v12 & v20 & v21 & v22 & -> & E00 & E01 & E02 & E10 & E11 & E12 & E20 & E21 & E22).
  split; [discriminate|]. intros v. cbn [concat app In]. unfold node_of, fraction3. split.
  - intros [<- | [<- | [<- | [<- | [<- | [<- | [<- | [<- | [<- | []]]]]]]]]]; do 2 eexists; (split; [|split; [|eassumption]]); tauto.
  - intros (lon & lat & [-> | [-> | ->]] & [-> | [-> | ->]] & E); rewrite E in *; repeat match goal with X : Ok _ = Ok _ |- _ => injection X as <- end; tauto.
Qed.
Lemma grid_fails elev a b c d e : src_coords w2i elev a b c d = Err e -> exists lon lat e', fraction3 a c lon /\ fraction3 d b lat /\ w2i (mkGeo lon lat elev) = Err e'.
Proof.
  unfold src_coords, fraction3. rewrite !linspace3. intros H. cbn [map_res] in H.
  destruct (w2i (mkGeo a d elev)) as [v00|] eqn:E00; [|do 3 eexists; split; [|split; [|exact E00]]; tauto].
  destruct (w2i (mkGeo ((a + c) / 2) d elev)) as [v01|] eqn:E01; [|do 3 eexists; split; [|split; [|exact E01]]; tauto].
  destruct (w2i (mkGeo c d elev)) as [v02|] eqn:E02; [|do 3 eexists; split; [|split; [|exact E02]]; tauto].
  destruct (w2i (mkGeo a ((d + b) / 2) elev)) as [v10|] eqn:E10; [|do 3 eexists; split; [|split; [|exact E10]]; tauto].
  destruct (w2i (mkGeo ((a + c) / 2) ((d + b) / 2) elev)) as [v11|] eqn:E11; [|do 3 eexists; split; [|split; [|exact E11]]; tauto].
  destruct (w2i (mkGeo c ((d + b) / 2) elev)) as [v12|] eqn:E12; [|do 3 eexists; split; [|split; [|exact E12]]; tauto].
  destruct (w2i (mkGeo a b elev)) as [v20|] eqn:E20; [|do 3 eexists; split; [|split; [|exact E20]]; tauto].
  destruct (w2i (mkGeo ((a + c) / 2) b elev)) as [v21|] eqn:E21; [|do 3 eexists; split; [|split; [|exact E21]]; tauto].
  destruct (w2i (mkGeo c b elev)) as [v22|] eqn:E22; [|do 3 eexists; split; [|split; [|exact E22]]; tauto].
  discriminate.
Qed.

(** The bounding box of the nodes. *)
Lemma bbox_spec grid b0 b1 b2 b3 : concat grid <> [] -> src_bbox grid = (b0, b1, b2, b3) ->
  (forall v, In v (concat grid) -> IZR b0 <= fst v <= IZR b2 /\ IZR b1 <= snd v <= IZR b3)
  /\ (exists v, In v (concat grid) /\ fst v < IZR b0 + 1) /\ (exists v, In v (concat grid) /\ snd v < IZR b1 + 1)
  /\ (exists v, In v (concat grid) /\ IZR b2 - 1 < fst v) /\ (exists v, In v (concat grid) /\ IZR b3 - 1 < snd v).
Proof.
  intros NE E. unfold src_bbox in E. injection E as <- <- <- <-. destruct (concat grid) as [|v0 l]; [contradiction|].
  set (L := v0 :: l) in *. assert (I0 : In v0 L) by (left; reflexivity).
  assert (F : forall v, In v L -> In (fst v) (List.map fst L)) by (intros v I; apply in_map, I). assert (S : forall v, In v L -> In (snd v) (List.map snd L)) by (intros v I; apply in_map, I).
  destruct (Rfloor_spec (list_min (List.map fst L))). destruct (Rfloor_spec (list_min (List.map snd L))). destruct (Rceil_spec (list_max (List.map fst L))). destruct (Rceil_spec (list_max (List.map snd L))).
  split; [|split; [|split; [|split]]].
  - intros v I. destruct (list_min_spec _ _ (F v I)). destruct (list_min_spec _ _ (S v I)). destruct (list_max_spec _ _ (F v I)). destruct (list_max_spec _ _ (S v I)). lra.
  - destruct (list_min_spec _ _ (F v0 I0)) as [_ M]. apply in_map_iff in M as [v [Ev Iv]]. exists v. split; [exact Iv | rewrite Ev; lra].
  - destruct (list_min_spec _ _ (S v0 I0)) as [_ M]. apply in_map_iff in M as [v [Ev Iv]]. exists v. split; [exact Iv | rewrite Ev; lra].
  - destruct (list_max_spec _ _ (F v0 I0)) as [_ M]. apply in_map_iff in M as [v [Ev Iv]]. exists v. split; [exact Iv | rewrite Ev; lra].
  - destruct (list_max_spec _ _ (S v0 I0)) as [_ M]. apply in_map_iff in M as [v [Ev Iv]]. exists v. split; [exact Iv | rewrite Ev; lra].
Qed.

(** ** C61: which tiles are made *)
(** No tile is made exactly when the sensor model fails on one of the nine locations or all of them
    are more than a pixel to one side of the image (a side at x = xsize belongs to pixel xsize + 1). *)
Theorem C61_none : forall elev min_lon min_lat max_lon max_lat tw, default_elevation = Ok elev ->
  let node := node_of elev min_lon min_lat max_lon max_lat in
  plan min_lon min_lat max_lon max_lat tw = Ok None <->
  (exists lon lat e, fraction3 min_lon max_lon lon /\ fraction3 max_lat min_lat lat /\ w2i (mkGeo lon lat elev) = Err e)
  \/ (forall v, node v -> IZR xsize + 1 <= fst v) \/ (forall v, node v -> IZR ysize + 1 <= snd v)
  \/ (forall v, node v -> fst v <= -1) \/ (forall v, node v -> snd v <= -1).
Proof.
  intros elev a b c d tw DE node. unfold OrthoModel.plan. rewrite DE. cbn [bind]. destruct (src_coords w2i elev a b c d) as [grid|e] eqn:G.
  2: { split; [intros _; left; apply (grid_fails _ _ _ _ _ _ G) | reflexivity]. }
  destruct (grid_nodes _ _ _ _ _ _ G) as [NE Nd]. fold node in Nd.
  destruct (src_bbox grid) as [[[b0 b1] b2] b3] eqn:B. destruct (bbox_spec _ _ _ _ _ NE B) as (Bx & (v0 & I0 & T0) & (v1 & I1 & T1) & (v2 & I2 & T2) & (v3 & I3 & T3)).
  assert (Fail : ~ exists lon lat e, fraction3 a c lon /\ fraction3 d b lat /\ w2i (mkGeo lon lat elev) = Err e).
  { intros (lon & lat & e & Flon & Flat & E). destruct (src_grid _ _ _ _ _ _ G) as (v00 & v01 & v02 & v10 & v11 & v12 & v20 & v21 & v22 & -> & E00 & E01 & E02 & E10 & E11 & E12 & E20 & E21 & E22).
    destruct Flon as [-> | [-> | ->]], Flat as [-> | [-> | ->]]; congruence. }
  assert (M : misses xsize ysize (b0, b1, b2, b3) = true <-> (forall v, node v -> IZR xsize + 1 <= fst v) \/ (forall v, node v -> IZR ysize + 1 <= snd v) \/ (forall v, node v -> fst v <= -1) \/ (forall v, node v -> snd v <= -1)).
  { unfold misses. rewrite !orb_true_iff, !Z.gtb_lt, !Z.ltb_lt. split.
    - intros [[[L|L]|L]|L].
      + left. intros v V. apply Nd, Bx in V. assert (L' : IZR (xsize + 1) <= IZR b0) by (apply IZR_le; lia). rewrite plus_IZR in L'. lra.
      + right. left. intros v V. apply Nd, Bx in V. assert (L' : IZR (ysize + 1) <= IZR b1) by (apply IZR_le; lia). rewrite plus_IZR in L'. lra.
      + right. right. left. intros v V. apply Nd, Bx in V. assert (L' : IZR b2 <= IZR (-1)) by (apply IZR_le; lia). lra.
      + right. right. right. intros v V. apply Nd, Bx in V. assert (L' : IZR b3 <= IZR (-1)) by (apply IZR_le; lia). lra.
    - intros [H | [H | [H | H]]].
      + left. left. left. apply Nd, H in I0. assert (L : IZR xsize < IZR b0) by lra. apply lt_IZR, L.
      + left. left. right. apply Nd, H in I1. assert (L : IZR ysize < IZR b1) by lra. apply lt_IZR, L.
      + left. right. apply Nd, H in I2. assert (L : IZR b2 < IZR 0) by lra. apply lt_IZR, L.
      + right. apply Nd, H in I3. assert (L : IZR b3 < IZR 0) by lra. apply lt_IZR, L. }
  destruct (misses xsize ysize (b0, b1, b2, b3)) eqn:Mi.
  - split; [intros _; right; apply M; reflexivity | reflexivity].
  - split.
    + intros H. exfalso. apply bind_ok in H as [r [_ H]]. discriminate.
    + intros [F|H]; [contradiction|]. apply M in H. discriminate.
Qed.

Lemma plan_some elev a b c d tw p : default_elevation = Ok elev -> plan a b c d tw = Ok (Some p) ->
  exists b0 b1 b2 b3 r0, src_coords w2i elev a b c d = Ok (nodes p) /\ src_bbox (nodes p) = (b0, b1, b2, b3)
  /\ (b0 <= xsize /\ b1 <= ysize /\ 0 <= b2 /\ 0 <= b3)%Z /\ find_appropriate_r_level (b0, b1, b2, b3) tw = Ok r0
  /\ level p = Z.min r0 overviews /\ clipped p = clip xsize ysize (b0, b1, b2, b3) /\ window p = overview_bbox (clipped p) (level p).
Proof.
  intros DE H. unfold OrthoModel.plan in H. rewrite DE in H. cbn [bind] in H. destruct (src_coords w2i elev a b c d) as [grid|e] eqn:G; [|discriminate].
  destruct (src_bbox grid) as [[[b0 b1] b2] b3] eqn:B. destruct (misses xsize ysize (b0, b1, b2, b3)) eqn:M; [discriminate|].
  apply bind_ok in H as [r0 [L H]]. injection H as <-. exists b0, b1, b2, b3, r0. cbn [nodes level clipped window]. split; [reflexivity|]. split; [exact B|].
  split; [|split; [exact L | split; [reflexivity | split; reflexivity]]]. unfold misses in M. rewrite !orb_false_iff, !Z.gtb_ltb, !Z.ltb_ge in M. lia.
Qed.
Lemma bbox_order grid b0 b1 b2 b3 : concat grid <> [] -> src_bbox grid = (b0, b1, b2, b3) -> (b0 <= b2 /\ b1 <= b3)%Z.
Proof.
  intros NE B. destruct (bbox_spec _ _ _ _ _ NE B) as (Bx & (v & I & _) & _). apply Bx in I. split; apply le_IZR; lra.
Qed.

Lemma level_width b tw r : find_appropriate_r_level b tw = Ok r -> (0 < tw)%Z.
Proof.
  destruct b as [[[b0 b1] b2] b3]. unfold find_appropriate_r_level. cbv zeta. destruct (_ =? 0)%Z; [discriminate|].
  destruct (Z.eqb_spec tw 0); [discriminate|]. destruct (Z.ltb_spec tw 0); [discriminate | lia].
Qed.
(** *** The level: the coarsest that exists and still has a tile width of pixels in the smaller
    direction of the tile's area, the smallest rectangle of whole pixels around its locations. *)
Definition area_size (elev min_lon min_lat max_lon max_lat : R) (s : Z) : Prop :=
  let node := node_of elev min_lon min_lat max_lon max_lat in
  exists b0 b1 b2 b3, s = Z.min (b2 - b0) (b3 - b1)
  /\ (forall v, node v -> IZR b0 <= fst v <= IZR b2 /\ IZR b1 <= snd v <= IZR b3)
  /\ (exists v, node v /\ fst v < IZR b0 + 1) /\ (exists v, node v /\ snd v < IZR b1 + 1)
  /\ (exists v, node v /\ IZR b2 - 1 < fst v) /\ (exists v, node v /\ IZR b3 - 1 < snd v).
Theorem C61_level : forall elev min_lon min_lat max_lon max_lat tw p, (0 <= overviews)%Z -> default_elevation = Ok elev ->
  plan min_lon min_lat max_lon max_lat tw = Ok (Some p) ->
  (0 < tw)%Z /\ (0 <= level p <= overviews)%Z
  /\ exists s, area_size elev min_lon min_lat max_lon max_lat s
     /\ ((0 < level p)%Z -> (tw * 2 ^ level p <= s)%Z) /\ (level p = overviews \/ (s < tw * 2 ^ (level p + 1))%Z).
Proof.
  intros elev a b c d tw p O DE H. destruct (plan_some _ _ _ _ _ _ _ DE H) as (b0 & b1 & b2 & b3 & r0 & G & B & _ & L & Lv & _).
  pose proof (level_width _ _ _ L) as T. split; [exact T|].
  destruct (grid_nodes _ _ _ _ _ _ G) as [NE Nd]. destruct (bbox_spec _ _ _ _ _ NE B) as (Bx & (v0 & I0 & T0) & (v1 & I1 & T1) & (v2 & I2 & T2) & (v3 & I3 & T3)).
  unfold find_appropriate_r_level in L. set (s := Z.min (b2 - b0) (b3 - b1)) in *. cbv zeta in L.
  destruct (Z.eqb_spec s 0) as [S0|S0]; [discriminate|].
  destruct (Z.eqb_spec tw 0) as [W0|W0]; [discriminate|]. destruct (Z.ltb_spec tw 0) as [W1|W1]; [discriminate|].
  assert (Spec : (0 <= r0)%Z /\ ((0 < r0)%Z -> (tw * 2 ^ r0 <= s)%Z) /\ (s < tw * 2 ^ (r0 + 1))%Z).
  { destruct (Z.ltb_spec s tw) as [Lt|Ge]; injection L as <-.
    - split; [lia|]. split; [lia|]. change (2 ^ (0 + 1))%Z with 2%Z. lia.
    - assert (Q : (1 <= s / tw)%Z) by (apply Z.div_le_lower_bound; lia). destruct (Z.log2_spec (s / tw)) as [LL LU]; [lia|].
      split; [apply Z.log2_nonneg|]. replace (Z.log2 (s / tw) + 1)%Z with (Z.succ (Z.log2 (s / tw))) by lia. set (q := Z.log2 (s / tw)) in *. clearbody q.
      assert (E : (s = tw * (s / tw) + s mod tw)%Z) by (apply Z.div_mod; lia). pose proof (Z.mod_pos_bound s tw T). split; [intros _; nia | nia]. }
  destruct Spec as (R0 & R1 & R2). split; [lia|]. exists s. split.
  { exists b0, b1, b2, b3. split; [reflexivity|]. split; [intros v V; apply Bx, Nd, V|]. apply Nd in I0, I1, I2, I3.
    split; [exists v0 | split; [exists v1 | split; [exists v2 | exists v3]]]; split; assumption. }
  split.
  - intros P. assert (R3 : (tw * 2 ^ r0 <= s)%Z) by (apply R1; lia). assert (R4 : (2 ^ level p <= 2 ^ r0)%Z) by (apply Z.pow_le_mono_r; lia). nia.
  - rewrite Lv. destruct (Z.min_spec r0 overviews) as [[_ ->]|[_ ->]]; [right; exact R2 | left; reflexivity].
Qed.

(** *** The window is inside the image and contains what the tile needs of it, up to one pixel of the
    level on the right and at the bottom. *)
Theorem C61_window : forall elev min_lon min_lat max_lon max_lat tw p, (0 <= overviews)%Z -> (0 <= xsize)%Z -> (0 <= ysize)%Z -> default_elevation = Ok elev ->
  plan min_lon min_lat max_lon max_lat tw = Ok (Some p) ->
  let node := node_of elev min_lon min_lat max_lon max_lat in
  let '(w0, w1, w2, w3) := window p in let q := (2 ^ level p)%Z in
  (0 <= w0 <= w2 /\ w2 * q <= xsize /\ 0 <= w1 <= w3 /\ w3 * q <= ysize)%Z
  /\ forall x y u u' v v', node u -> node u' -> node v -> node v' -> fst u <= x <= fst u' -> snd v <= y <= snd v' -> 0 <= x <= IZR xsize -> 0 <= y <= IZR ysize ->
       IZR (w0 * q) <= x < IZR ((w2 + 1) * q) /\ IZR (w1 * q) <= y < IZR ((w3 + 1) * q).
Proof.
  intros elev a b c d tw p O X Y DE H node. destruct (C61_level _ _ _ _ _ _ _ O DE H) as (_ & Lr & _).
  destruct (plan_some _ _ _ _ _ _ _ DE H) as (b0 & b1 & b2 & b3 & r0 & G & B & Ov & _ & _ & C & W).
  destruct (grid_nodes _ _ _ _ _ _ G) as [NE Nd]. destruct (bbox_spec _ _ _ _ _ NE B) as (Bx & _). destruct (bbox_order _ _ _ _ _ NE B) as [O1 O2].
  rewrite W, C. cbn [clip overview_bbox]. cbv zeta. set (q := (2 ^ level p)%Z). assert (Q : (0 < q)%Z) by (apply Z.pow_pos_nonneg; lia).
  assert (Dv : forall z, (z / q * q <= z < (z / q + 1) * q)%Z).
  { intros z. pose proof (Z.div_mod z q ltac:(lia)). pose proof (Z.mod_pos_bound z q Q). lia. }
  split.
  - pose proof (Dv (Z.min b2 xsize)). pose proof (Dv (Z.min b3 ysize)).
    repeat split; try lia; try (apply Z.div_pos; lia); try (apply Z.div_le_mono; lia).
  - intros x y u u' v v' U U' V V' Xu Yv Xi Yi. apply Nd, Bx in U, U', V, V'.
    assert (E0 : IZR (Z.max b0 0) <= x) by (destruct (Z.max_spec b0 0) as [[_ ->]|[_ ->]]; lra).
    assert (E1 : IZR (Z.max b1 0) <= y) by (destruct (Z.max_spec b1 0) as [[_ ->]|[_ ->]]; lra).
    assert (E2 : x <= IZR (Z.min b2 xsize)) by (destruct (Z.min_spec b2 xsize) as [[_ ->]|[_ ->]]; lra).
    assert (E3 : y <= IZR (Z.min b3 ysize)) by (destruct (Z.min_spec b3 ysize) as [[_ ->]|[_ ->]]; lra).
    destruct (Dv (Z.max b0 0)) as [D0 _]. destruct (Dv (Z.max b1 0)) as [D1 _]. destruct (Dv (Z.min b2 xsize)) as [_ D2]. destruct (Dv (Z.min b3 ysize)) as [_ D3].
    apply IZR_le in D0, D1. apply IZR_lt in D2, D3. lra.
Qed.
(** It has no more than that: each side is within a pixel of the image or of the level from one of the
    locations, or at the left or upper edge of the image. *)
Theorem C61_window_tight : forall elev min_lon min_lat max_lon max_lat tw p, (0 <= overviews)%Z -> default_elevation = Ok elev ->
  plan min_lon min_lat max_lon max_lat tw = Ok (Some p) ->
  let node := node_of elev min_lon min_lat max_lon max_lat in
  let '(w0, w1, w2, w3) := window p in let q := (2 ^ level p)%Z in
  (w0 = 0%Z \/ exists v, node v /\ fst v < IZR ((w0 + 1) * q)) /\ (w1 = 0%Z \/ exists v, node v /\ snd v < IZR ((w1 + 1) * q))
  /\ (exists v, node v /\ IZR (w2 * q) < fst v + 1) /\ (exists v, node v /\ IZR (w3 * q) < snd v + 1).
Proof.
  intros elev a b c d tw p O DE H node. destruct (C61_level _ _ _ _ _ _ _ O DE H) as (_ & Lr & _).
  destruct (plan_some _ _ _ _ _ _ _ DE H) as (b0 & b1 & b2 & b3 & r0 & G & B & Ov & _ & _ & C & W).
  destruct (grid_nodes _ _ _ _ _ _ G) as [NE Nd]. destruct (bbox_spec _ _ _ _ _ NE B) as (_ & (v0 & I0 & T0) & (v1 & I1 & T1) & (v2 & I2 & T2) & (v3 & I3 & T3)).
  rewrite W, C. cbn [clip overview_bbox]. cbv zeta. set (q := (2 ^ level p)%Z). assert (Q : (0 < q)%Z) by (apply Z.pow_pos_nonneg; lia).
  apply Nd in I0, I1, I2, I3.
  assert (Dv : forall z, (z / q * q <= z < (z / q + 1) * q)%Z).
  { intros z. pose proof (Z.div_mod z q ltac:(lia)). pose proof (Z.mod_pos_bound z q Q). lia. }
  assert (Low : forall b v, v < IZR b + 1 -> (Z.max b 0 / q = 0)%Z \/ v < IZR ((Z.max b 0 / q + 1) * q)).
  { intros z v V. destruct (Z.le_gt_cases z 0) as [N|N]; [left; rewrite Z.max_r by lia; apply Z.div_0_l; lia|right].
    rewrite Z.max_l by lia. destruct (Dv z) as [_ D]. assert (E : (z + 1 <= (z / q + 1) * q)%Z) by lia. apply IZR_le in E. rewrite plus_IZR in E. lra. }
  assert (High : forall b n v, IZR b - 1 < v -> IZR (Z.min b n / q * q) < v + 1).
  { intros z n v V. destruct (Dv (Z.min z n)) as [D _]. assert (E : (Z.min z n / q * q <= z)%Z) by lia. apply IZR_le in E. lra. }
  split; [destruct (Low b0 _ T0) as [L|L]; [left; exact L | right; exists v0; split; assumption]|].
  split; [destruct (Low b1 _ T1) as [L|L]; [left; exact L | right; exists v1; split; assumption]|].
  split; [exists v2 | exists v3]; (split; [assumption | apply High; assumption]).
Qed.
End Plan.

(** *** Reading: every band wanted, in order, from the level asked for. *)
Theorem C61_read : forall A (read : nat -> option Z -> ZBox -> res A) count x0 y0 x1 y1 r bands st, read_from_rlevel read count (x0, y0, x1, y1) r bands = Ok st ->
  exists l, Forall2 (fun n a => read n (if (r >? 0)%Z then Some (r - 1)%Z else None) (x0, y0, x1 - x0, y1 - y0)%Z = Ok a) (match bands with [] => seq 1 count | _ => bands end) l
  /\ ((1 < count)%nat -> st = Bands l) /\ ((count <= 1)%nat -> exists a rest, l = a :: rest /\ st = Grayscale a).
Proof.
  intros A read count x0 y0 x1 y1 r bands st H. unfold read_from_rlevel in H. apply bind_ok in H as [l [M H]]. apply map_res_ok in M. exists l. split; [exact M|].
  destruct (Nat.ltb_spec 1 count).
  - injection H as <-. split; [reflexivity | lia].
  - split; [lia|]. intros _. destruct l as [|a rest]; [discriminate|]. injection H as <-. exists a, rest. split; reflexivity.
Qed.

(** Without bands there is nothing to read. *)
Theorem C61_no_bands : forall A (read : nat -> option Z -> ZBox -> res A) bbox r, read_from_rlevel read 0 bbox r [] = Err IndexError.
Proof. intros A read [[[x0 y0] x1] y1] r. reflexivity. Qed.
(** A tile that is a line or a point in the image fails, with an overflow if it has a width. *)
Theorem C61_degenerate : forall image_to_world world_to_image xs ys ov a b c d tw elev grid b0 b1 b2 b3,
  default_elevation image_to_world xs ys = Ok elev -> src_coords world_to_image elev a b c d = Ok grid -> src_bbox grid = (b0, b1, b2, b3) ->
  misses xs ys (b0, b1, b2, b3) = false -> Z.min (b2 - b0) (b3 - b1) = 0%Z ->
  plan image_to_world world_to_image xs ys ov a b c d tw = Err (if (tw =? 0)%Z then ValueError else OtherError).
Proof.
  intros i2w w2i xs ys ov a b c d tw elev grid b0 b1 b2 b3 E G B M D. unfold plan. rewrite E. cbn [bind]. rewrite G, B, M. unfold find_appropriate_r_level. rewrite D. reflexivity.
Qed.

(** Nor is a tile made that has no width or a negative one. *)
Theorem C61_width : forall image_to_world world_to_image xs ys ov a b c d tw p,
  plan image_to_world world_to_image xs ys ov a b c d tw = Ok (Some p) -> (0 < tw)%Z.
Proof.
  intros i2w w2i xs ys ov a b c d tw p H. unfold plan in H. apply bind_ok in H as [elev [_ H]]. destruct (src_coords w2i elev a b c d) as [grid|e]; [|discriminate].
  destruct (misses xs ys (src_bbox grid)); [discriminate|]. apply bind_ok in H as [r [L _]]. exact (level_width _ _ _ L).
Qed.

(** *** A north-up image with one pixel per unit, for examples *)
Definition north_up (w : Geodetic) : res Vertex := Ok (longitude w, - latitude w).
Definition anywhere (v : Vertex) : res Geodetic := Ok (mkGeo (fst v) (snd v) 0).
Lemma list_min_eq l m : In m l -> (forall x, In x l -> m <= x) -> list_min l = m.
Proof. intros I H. destruct (list_min_spec l m I) as [A B]. apply H in B. lra. Qed.
Lemma list_max_eq l m : In m l -> (forall x, In x l -> x <= m) -> list_max l = m.
Proof. intros I H. destruct (list_max_spec l m I) as [A B]. apply H in B. lra. Qed.
Lemma north_up_bbox l0 t0 l1 t1 : (l0 <= l1)%Z -> (t0 <= t1)%Z -> exists grid,
  src_coords north_up 0 (IZR l0) (- IZR t1) (IZR l1) (- IZR t0) = Ok grid /\ src_bbox grid = (l0, t0, l1, t1).
Proof.
  intros L T. apply IZR_le in L, T. unfold src_coords. rewrite !linspace3. cbn [map_res north_up longitude latitude bind]. eexists. split; [reflexivity|].
  unfold src_bbox. cbn [concat app List.map fst snd].
  rewrite (list_min_eq _ (IZR l0)), (list_max_eq _ (IZR l1)), (list_min_eq _ (IZR t0)), (list_max_eq _ (IZR t1)), !Rfloor_IZR, !Rceil_IZR; [reflexivity | | | | | | | |].
  all: try (cbn [In]; intros x H; repeat (destruct H as [<-|H]; [lra|]); destruct H).
  - do 6 right. left. lra.
  - left. lra.
  - right. right. left. reflexivity.
  - left. reflexivity.
Qed.
Lemma north_up_plan xs ys ov l0 t0 l1 t1 tw r : (l0 <= l1)%Z -> (t0 <= t1)%Z -> misses xs ys (l0, t0, l1, t1) = false -> find_appropriate_r_level (l0, t0, l1, t1) tw = Ok r ->
  exists p, plan anywhere north_up xs ys ov (IZR l0) (- IZR t1) (IZR l1) (- IZR t0) tw = Ok (Some p)
  /\ level p = Z.min r ov /\ clipped p = clip xs ys (l0, t0, l1, t1) /\ window p = overview_bbox (clipped p) (level p).
Proof.
  intros L T M R. destruct (north_up_bbox l0 t0 l1 t1 L T) as (grid & G & B). unfold plan. cbn [default_elevation anywhere bind elevation]. rewrite G, B, M, R. cbn [bind].
  eexists. split; [reflexivity|]. repeat split.
Qed.

(** A tile that only touches the right edge of the image is not refused; the window is empty. *)
Theorem C61_touching_refuted :
  ~ (forall xs ys ov a b c d tw p, plan anywhere north_up xs ys ov a b c d tw = Ok (Some p) ->
       let '(w0, w1, w2, w3) := window p in (w0 < w2 /\ w1 < w3)%Z).
Proof.
  intros H. destruct (north_up_plan 100 100 0 100 0 200 50 256 0) as (p & P & L & C & W); [lia | lia | reflexivity | reflexivity |].
  specialize (H _ _ _ _ _ _ _ _ _ P). rewrite W, C, L in H. cbn in H. lia.
Qed.
(** Even a tile that overlaps the image can get an empty window. *)
Theorem C61_narrow_refuted :
  ~ (forall xs ys ov a b c d tw p u v, plan anywhere north_up xs ys ov a b c d tw = Ok (Some p) ->
       node_of north_up 0 a b c d u -> node_of north_up 0 a b c d v -> 0 < fst u < IZR xs - 1 -> IZR xs < fst v ->
       let '(w0, w1, w2, w3) := window p in (w0 < w2)%Z).
Proof.
  intros H. destruct (north_up_plan 99 99 2 97 0 497 64 16 2) as (p & P & L & C & W); [lia | lia | reflexivity | reflexivity |].
  specialize (H _ _ _ _ _ _ _ _ _ (97, 64) (497, 64) P). rewrite W, C, L in H. cbn in H.
  assert (X : (24 < 24)%Z); [apply H; try lra|lia].
  - exists 97, (-64). split; [left; reflexivity|]. split; [right; right; reflexivity|]. unfold north_up. cbn [longitude latitude]. replace (- -64) with 64 by lra. reflexivity.
  - exists 497, (-64). split; [right; right; reflexivity|]. split; [right; right; reflexivity|]. unfold north_up. cbn [longitude latitude]. replace (- -64) with 64 by lra. reflexivity.
Qed.
(** A tile without extent raises. *)
Theorem C61_degenerate_refuted :
  ~ (forall xs ys ov a b c d tw, (0 < tw)%Z -> is_ok (plan anywhere north_up xs ys ov a b c d tw)).
Proof.
  intros H. destruct (north_up_bbox 5 5 5 5) as (grid & G & B); [lia | lia |].
  destruct (H 100%Z 100%Z 0%Z 5 (- (5)) 5 (- (5)) 256%Z) as [p P]; [lia|]. unfold plan in P. cbn [default_elevation anywhere bind elevation] in P. rewrite G, B in P. discriminate.
Qed.
Example C61_non_vacuous : exists p, plan anywhere north_up 10000 10000 5 100 (-1224) 1124 (-200) 256 = Ok (Some p) /\ level p = 2%Z /\ window p = (25, 50, 281, 306)%Z.
Proof.
  destruct (north_up_plan 10000 10000 5 100 200 1124 1224 256 2) as (p & P & L & C & W); [lia | lia | reflexivity | reflexivity |].
  exists p. split; [exact P|]. rewrite W, C, L. split; reflexivity.
Qed.

(** ** C62: where the pixels come from *)
(** Part of the way from [lo] to [hi]. *)
Definition along (lo hi t : R) : R := lo + t * (hi - lo).
(** Output row [i] of [n] is this part of the way down. *)
Definition part (i n : nat) : R := INR i / (INR n - 1).
Lemma part_range i n : (2 <= n)%nat -> (i < n)%nat -> 0 <= part i n <= 1.
Proof.
  intros N I. unfold part. assert (P : 0 < INR n - 1) by (pose proof (le_INR 2 n N) as H; cbn in H; lra). assert (L : INR i <= INR n - 1) by (pose proof (le_INR (S i) n I) as H; rewrite S_INR in H; lra).
  pose proof (pos_INR i). split; [apply Rmult_le_pos; [assumption | apply Rlt_le, Rinv_0_lt_compat, P]|].
  apply Rmult_le_reg_r with (INR n - 1); [exact P|]. unfold Rdiv. rewrite Rmult_assoc, Rinv_l; lra.
Qed.

Section Maps.
Variable spline : list R -> list R -> list (list R) -> res (R -> R -> R).
Hypothesis law : spline_law spline.
Lemma dst_nth n i : (2 <= n)%nat -> (i < n)%nat -> nth_error (linspace 0 (INR n - 1) n) i = Some (INR i).
Proof.
  intros N I. rewrite linspace_nth by assumption. f_equal. assert (E : INR (n - 1) = INR n - 1) by (rewrite minus_INR by lia; reflexivity). rewrite E.
  assert (INR n - 1 <> 0) by (pose proof (le_INR 2 n N) as H; cbn in H; lra). field. assumption.
Qed.
(** A grid of three points: the half that contains a pixel. *)
Lemma half i n : (2 <= n)%nat -> (i < n)%nat -> exists k, (k <= 1)%nat /\ INR k / 2 <= part i n <= (INR k + 1) / 2.
Proof.
  intros N I. pose proof (part_range i n N I). destruct (Rle_dec (part i n) (1 / 2)); [exists 0%nat | exists 1%nat]; (split; [lia|]); cbn; lra.
Qed.
Lemma pixel_nth n k : (2 <= n)%nat -> (k <= 2)%nat -> nth_error (linspace 0 (INR n - 1) 3) k = Some (INR k / 2 * (INR n - 1)).
Proof. intros N K. rewrite linspace_nth by lia. f_equal. cbn [Nat.sub INR]. field. Qed.

(** Output pixel [i][j]: its source location is interpolated from the corners of the quarter of the
    tile containing it, where the first index runs over latitudes and the second over longitudes. *)
Theorem C62_source : forall w2i elev min_lon min_lat max_lon max_lat p width height c0 c1 c2 c3, (2 <= width)%nat -> (2 <= height)%nat ->
  src_coords w2i elev min_lon min_lat max_lon max_lat = Ok (nodes p) -> clipped p = (c0, c1, c2, c3) ->
  exists m, maps spline p width height = Ok m /\ List.length m = width /\ Forall (fun row => List.length row = height) m
  /\ forall i j, (i < width)%nat -> (j < height)%nat ->
     exists r c v00 v01 v10 v11, (r <= 1 /\ c <= 1)%nat /\ INR r / 2 <= part i width <= (INR r + 1) / 2 /\ INR c / 2 <= part j height <= (INR c + 1) / 2
     /\ w2i (mkGeo (along min_lon max_lon (INR c / 2)) (along max_lat min_lat (INR r / 2)) elev) = Ok v00
     /\ w2i (mkGeo (along min_lon max_lon (INR (S c) / 2)) (along max_lat min_lat (INR r / 2)) elev) = Ok v01
     /\ w2i (mkGeo (along min_lon max_lon (INR c / 2)) (along max_lat min_lat (INR (S r) / 2)) elev) = Ok v10
     /\ w2i (mkGeo (along min_lon max_lon (INR (S c) / 2)) (along max_lat min_lat (INR (S r) / 2)) elev) = Ok v11
     /\ let at_pixel := fun f : Vertex -> R => bilinear (INR r / 2) (INR (S r) / 2) (INR c / 2) (INR (S c) / 2) (f v00) (f v01) (f v10) (f v11) (part i width) (part j height) in
        exists row, nth_error m i = Some row /\ nth_error row j = Some (to_source (level p) c0 (at_pixel fst), to_source (level p) c1 (at_pixel snd)).
Proof using law.
  intros w2i elev a b c d p w h c0 c1 c2 c3 W H G C.
  assert (Wp : 0 < INR w - 1) by (pose proof (le_INR 2 w W) as X; cbn in X; lra). assert (Hp : 0 < INR h - 1) by (pose proof (le_INR 2 h H) as X; cbn in X; lra).
  assert (Node : forall r k, (r <= 2)%nat -> (k <= 2)%nat -> exists v row, nth_error (nodes p) r = Some row /\ nth_error row k = Some v
            /\ w2i (mkGeo (along a c (INR k / 2)) (along d b (INR r / 2)) elev) = Ok v).
  { intros r k R K. unfold src_coords in G. apply map_res_ok in G.
    assert (Lin : forall lo hi t, (t <= 2)%nat -> nth_error (linspace lo hi 3) t = Some (along lo hi (INR t / 2))).
    { intros lo hi t T. rewrite linspace_nth by lia. f_equal. unfold along. cbn [Nat.sub INR]. field. }
    destruct (forall2_nth _ _ _ G r _ (Lin d b r R)) as [row [Rn Rw]]. apply map_res_ok in Rw. destruct (forall2_nth _ _ _ Rw k _ (Lin a c k K)) as [v [Vn Vw]]. exists v, row. auto. }
  assert (Shape : List.length (nodes p) = 3%nat /\ Forall (fun row => List.length row = 3%nat) (nodes p)).
  { unfold src_coords in G. apply map_res_ok in G. split; [apply forall2_len in G; rewrite linspace_length in G; auto|].
    clear - G. induction G as [|x row l m Rw _ IH]; constructor; [apply map_res_ok, forall2_len in Rw; rewrite linspace_length in Rw; auto | exact IH]. }
  destruct Shape as [L3 R3].
  assert (Sp : forall f : Vertex -> R, exists s, spline (linspace 0 (INR w - 1) 3) (linspace 0 (INR h - 1) 3) (List.map (List.map f) (nodes p)) = Ok s
            /\ interpolates (linspace 0 (INR w - 1) 3) (linspace 0 (INR h - 1) 3) (List.map (List.map f) (nodes p)) s).
  { intros f. destruct law as [Law _]. destruct (Law (linspace 0 (INR w - 1) 3) (linspace 0 (INR h - 1) 3) (List.map (List.map f) (nodes p))) as (s & E & I & _).
    - apply linspace_increasing; [exact Wp | lia].
    - apply linspace_increasing; [exact Hp | lia].
    - rewrite linspace_length. lia.
    - rewrite linspace_length. lia.
    - rewrite map_length, linspace_length. exact L3.
    - apply Forall_forall. intros row I. apply in_map_iff in I as [q [<- I]]. rewrite map_length, linspace_length. rewrite Forall_forall in R3. apply R3, I.
    - exists s. split; assumption. }
  unfold maps. rewrite C. destruct (Sp (fun v => to_source (level p) c0 (fst v))) as (fx & -> & Ix). destruct (Sp (fun v => to_source (level p) c1 (snd v))) as (fy & -> & Iy). cbn [bind].
  eexists. split; [reflexivity|]. split; [rewrite map_length, linspace_length; reflexivity|]. split.
  { apply Forall_forall. intros row I. apply in_map_iff in I as [x [<- _]]. rewrite map_length, linspace_length. reflexivity. }
  intros i j I J. destruct (half i w W I) as (r & Rr & Hr). destruct (half j h H J) as (k & K & Hk).
  destruct (Node r k ltac:(lia) ltac:(lia)) as (v00 & q00 & N00 & V00 & E00). destruct (Node r (S k) ltac:(lia) ltac:(lia)) as (v01 & q01 & N01 & V01 & E01).
  destruct (Node (S r) k ltac:(lia) ltac:(lia)) as (v10 & q10 & N10 & V10 & E10). destruct (Node (S r) (S k) ltac:(lia) ltac:(lia)) as (v11 & q11 & N11 & V11 & E11).
  exists r, k, v00, v01, v10, v11. split; [split; assumption|]. do 6 (split; [assumption|]). cbv zeta.
  eexists. split; [apply map_nth_error, dst_nth; assumption|]. erewrite map_nth_error; [|apply dst_nth; assumption]. f_equal.
  assert (Pw : INR i = part i w * (INR w - 1)) by (unfold part; field; lra). assert (Ph : INR j = part j h * (INR h - 1)) by (unfold part; field; lra).
  assert (Val : forall (f : Vertex -> R) r' k' q v, nth_error (nodes p) r' = Some q -> nth_error q k' = Some v -> value (List.map (List.map f) (nodes p)) r' k' = Some (f v)).
  { intros f r' k' q v Q V. unfold value. erewrite map_nth_error by exact Q. erewrite map_nth_error by exact V. reflexivity. }
  assert (Scale : forall (o : Z) (f : Vertex -> R) s, interpolates (linspace 0 (INR w - 1) 3) (linspace 0 (INR h - 1) 3) (List.map (List.map (fun v => to_source (level p) o (f v))) (nodes p)) s ->
            s (INR i) (INR j) = to_source (level p) o (bilinear (INR r / 2) (INR (S r) / 2) (INR k / 2) (INR (S k) / 2) (f v00) (f v01) (f v10) (f v11) (part i w) (part j h))).
  { intros o f s Is. rewrite (Is r k (INR r / 2 * (INR w - 1)) (INR (S r) / 2 * (INR w - 1)) (INR k / 2 * (INR h - 1)) (INR (S k) / 2 * (INR h - 1))
        (to_source (level p) o (f v00)) (to_source (level p) o (f v01)) (to_source (level p) o (f v10)) (to_source (level p) o (f v11))).
    - rewrite Pw, Ph, !S_INR. unfold bilinear, to_source. field. repeat split; first [lra | apply pow_nonzero; lra | intros Z0; ring_simplify in Z0; lra].
    - apply pixel_nth; lia.
    - apply pixel_nth; lia.
    - apply pixel_nth; lia.
    - apply pixel_nth; lia.
    - eapply (Val (fun v => to_source (level p) o (f v))); [exact N00 | exact V00].
    - eapply (Val (fun v => to_source (level p) o (f v))); [exact N01 | exact V01].
    - eapply (Val (fun v => to_source (level p) o (f v))); [exact N10 | exact V10].
    - eapply (Val (fun v => to_source (level p) o (f v))); [exact N11 | exact V11].
    - rewrite Pw, S_INR. split; apply Rmult_le_compat_r; lra.
    - rewrite Ph, S_INR. split; apply Rmult_le_compat_r; lra. }
  rewrite (Scale c0 fst fx Ix), (Scale c1 snd fy Iy). reflexivity.
Qed.

(** What was asked for: [height] rows of [width] pixels, the pixel in row [i] and column [j] taken from
    the image location of its place on the map. *)
Definition oriented (to_image : R -> R -> Vertex) (min_lon min_lat max_lon max_lat : R) (width height : nat) (r c0 c1 : Z) (m : list (list (R * R))) : Prop :=
  List.length m = height /\ Forall (fun row => List.length row = width) m
  /\ forall i j, (i < height)%nat -> (j < width)%nat -> exists row v, v = to_image (along min_lon max_lon (part j width)) (along max_lat min_lat (part i height))
       /\ nth_error m i = Some row /\ nth_error row j = Some (to_source r c0 (fst v), to_source r c1 (snd v)).
(** True for square tiles, exactly so when the sensor model is affine over the tile. *)
Theorem C62_square : forall w2i elev min_lon min_lat max_lon max_lat p n c0 c1 c2 c3 a b c a' b' c', (2 <= n)%nat ->
  (forall lon lat, w2i (mkGeo lon lat elev) = Ok (a + b * lon + c * lat, a' + b' * lon + c' * lat)) ->
  src_coords w2i elev min_lon min_lat max_lon max_lat = Ok (nodes p) -> clipped p = (c0, c1, c2, c3) ->
  exists m, maps spline p n n = Ok m
  /\ oriented (fun lon lat => (a + b * lon + c * lat, a' + b' * lon + c' * lat)) min_lon min_lat max_lon max_lat n n (level p) c0 c1 m.
Proof using law.
  intros w2i elev x0 y0 x1 y1 p n c0 c1 c2 c3 a b c a' b' c' N Aff G C.
  destruct (C62_source w2i elev x0 y0 x1 y1 p n n c0 c1 c2 c3 N N G C) as (m & M & L & Lr & Px). exists m. split; [exact M|]. split; [exact L|]. split; [exact Lr|].
  intros i j I J. destruct (Px i j I J) as (r & k & v00 & v01 & v10 & v11 & _ & Hr & Hk & E00 & E01 & E10 & E11 & row & Rn & Pn).
  exists row. eexists. split; [reflexivity|]. split; [exact Rn|]. rewrite Pn. rewrite Aff in E00, E01, E10, E11.
  assert (v00 = (a + b * along x0 x1 (INR k / 2) + c * along y1 y0 (INR r / 2), a' + b' * along x0 x1 (INR k / 2) + c' * along y1 y0 (INR r / 2))) by congruence.
  assert (v01 = (a + b * along x0 x1 (INR (S k) / 2) + c * along y1 y0 (INR r / 2), a' + b' * along x0 x1 (INR (S k) / 2) + c' * along y1 y0 (INR r / 2))) by congruence.
  assert (v10 = (a + b * along x0 x1 (INR k / 2) + c * along y1 y0 (INR (S r) / 2), a' + b' * along x0 x1 (INR k / 2) + c' * along y1 y0 (INR (S r) / 2))) by congruence.
  assert (v11 = (a + b * along x0 x1 (INR (S k) / 2) + c * along y1 y0 (INR (S r) / 2), a' + b' * along x0 x1 (INR (S k) / 2) + c' * along y1 y0 (INR (S r) / 2))) by congruence.
  subst. cbn [fst snd]. f_equal. unfold bilinear, along. rewrite !S_INR. f_equal; f_equal; field; lra.
Qed.
(** Never true for others: the array has [width] rows. *)
Theorem C62_nonsquare_refuted : forall to_image w2i elev min_lon min_lat max_lon max_lat p width height c0 c1 c2 c3 m, (2 <= width)%nat -> (2 <= height)%nat -> width <> height ->
  src_coords w2i elev min_lon min_lat max_lon max_lat = Ok (nodes p) -> clipped p = (c0, c1, c2, c3) -> maps spline p width height = Ok m ->
  ~ oriented to_image min_lon min_lat max_lon max_lat width height (level p) c0 c1 m.
Proof using law.
  intros to_image w2i elev x0 y0 x1 y1 p w h c0 c1 c2 c3 m W H N G C M (L & _).
  destruct (C62_source w2i elev x0 y0 x1 y1 p w h c0 c1 c2 c3 W H G C) as (m' & M' & L' & _). congruence.
Qed.
(** A tile one pixel wide or high cannot be made. *)
Theorem C62_one_pixel_refuted : forall p width height, (width < 2)%nat \/ (height < 2)%nat -> ~ is_ok (maps spline p width height).
Proof using law.
  intros p w h H [m M]. unfold maps in M. destruct (clipped p) as [[[c0 c1] c2] c3]. destruct law as [_ Law].
  assert (N : forall n, (n < 2)%nat -> ~ increasing (linspace 0 (INR n - 1) 3)).
  { intros n Hn [I _]. cbn in I. assert (INR n <= 1) by (apply (le_INR n 1); lia). lra. }
  match type of M with bind (spline ?xs ?ys ?z) _ = _ => destruct (Law xs ys z) as [e E] end.
  - right. right. destruct H as [H|H]; [left | right]; apply N, H.
  - rewrite E in M. discriminate.
Qed.
End Maps.

(** The tile: every pixel sampled from the one window read, at the location of the map. *)
Theorem C62_tile : forall (spline : list R -> list R -> list (list R) -> res (R -> R -> R)) Img Pixel (read : Z -> ZBox -> res Img) (sample : Img -> R * R -> Pixel)
    i2w w2i xs ys ov a b c d width height t, orthophoto i2w w2i xs ys ov spline read sample a b c d width height = Ok (Some t) ->
  exists p src m, plan i2w w2i xs ys ov a b c d (Z.of_nat width) = Ok (Some p) /\ read (level p) (window p) = Ok src /\ maps spline p width height = Ok m
  /\ Forall2 (Forall2 (fun location pixel => pixel = sample src location)) m t.
Proof.
  intros spline Img Pixel read sample i2w w2i xs ys ov a b c d w h t H. unfold orthophoto in H. apply bind_ok in H as [[p|] [P H]]; [|discriminate].
  apply bind_ok in H as [src [R H]]. apply bind_ok in H as [m [M H]]. assert (E : t = List.map (List.map (sample src)) m) by congruence. subst t. exists p, src, m. repeat split; try assumption.
  clear. induction m as [|row m IH]; constructor; [|exact IH]. induction row as [|q row IHr]; constructor; [reflexivity | exact IHr].
Qed.

(** No tile is returned exactly for tiles that miss the image (see C61_none); otherwise exceptions of
    the planning, of the read and of the interpolation get out, in this order. *)
Theorem C62_no_tile : forall (spline : list R -> list R -> list (list R) -> res (R -> R -> R)) Img Pixel (read : Z -> ZBox -> res Img) (sample : Img -> R * R -> Pixel)
    i2w w2i xs ys ov a b c d width height,
  let made := orthophoto i2w w2i xs ys ov spline read sample a b c d width height in
  let planned := plan i2w w2i xs ys ov a b c d (Z.of_nat width) in
  (made = Ok None <-> planned = Ok None) /\
  forall e, made = Err e <-> planned = Err e \/ exists p, planned = Ok (Some p) /\
    (read (level p) (window p) = Err e \/ is_ok (read (level p) (window p)) /\ maps spline p width height = Err e).
Proof.
  intros spline Img Pixel read sample i2w w2i xs ys ov a b c d w h made planned. unfold made, orthophoto. fold planned.
  destruct planned as [[p|]|e0]; cbn [bind].
  - destruct (read (level p) (window p)) as [src|e1] eqn:Rd; cbn [bind]; [destruct (maps spline p w h) as [m|e2] eqn:M; cbn [bind]|].
    + split; [split; discriminate|]. intros e. split; [discriminate|]. intros [F|(p' & F & [G|[_ G]])]; [discriminate| |]; injection F as <-; congruence.
    + split; [split; discriminate|]. intros e. split.
      * intros E. right. exists p. split; [reflexivity|]. right. rewrite Rd, M. split; [exists src; reflexivity|congruence].
      * intros [F|(p' & F & [G|[_ G]])]; [discriminate| |]; injection F as <-; congruence.
    + split; [split; discriminate|]. intros e. split.
      * intros E. right. exists p. split; [reflexivity|]. left. congruence.
      * intros [F|(p' & F & [G|[[s G] _]])]; [discriminate| |]; injection F as <-; congruence.
  - split; [split; reflexivity|]. intros e. split; [discriminate|]. intros [F|(p' & F & _)]; discriminate.
  - split; [split; discriminate|]. intros e. split; [intros E; left; congruence|]. intros [F|(p' & F & _)]; [congruence|discriminate].
Qed.

(** *** Registration *)
(** The window starts at a whole pixel of the level, the coordinates at a whole pixel of the image:
    sources are off by less than a pixel of the level, and by nothing only if they agree. *)
Theorem C62_registration : forall r c0 x, (0 <= r)%Z -> let q := (2 ^ r)%Z in
  exists shift, to_source r c0 x = x / IZR q - IZR (c0 / q) + 2 - shift /\ 0 <= shift < 1 /\ (shift = 0 <-> (q | c0)%Z).
Proof.
  intros r c0 x R q. assert (Q : (0 < q)%Z) by (apply Z.pow_pos_nonneg; lia). assert (Qr : 0 < IZR q) by (apply IZR_lt, Q).
  assert (P : 2 ^ Z.to_nat r = IZR q) by (rewrite pow_IZR; unfold q; rewrite Z2Nat.id by exact R; reflexivity).
  pose proof (Z.div_mod c0 q ltac:(lia)) as D. pose proof (Z.mod_pos_bound c0 q Q) as B. apply (f_equal IZR) in D. rewrite plus_IZR, mult_IZR in D.
  exists (IZR (c0 mod q) / IZR q). split; [unfold to_source; rewrite P, D; field; lra|]. split.
  - destruct B as [B0 B1]. apply IZR_le in B0. apply IZR_lt in B1. split; [apply Rmult_le_pos; [exact B0 | apply Rlt_le, Rinv_0_lt_compat, Qr]|].
    apply Rmult_lt_reg_r with (IZR q); [exact Qr|]. unfold Rdiv. rewrite Rmult_assoc, Rinv_l; lra.
  - split.
    + intros E. apply Z.mod_divide; [lia|]. apply eq_IZR. apply Rmult_eq_reg_r with (/ IZR q); [|apply Rinv_neq_0_compat; lra]. unfold Rdiv in E. lra.
    + intros E. apply Z.mod_divide in E; [|lia]. rewrite E. unfold Rdiv. ring.
Qed.
Theorem C62_registration_refuted :
  ~ (forall xs ys ov a b c d tw p x, plan anywhere north_up xs ys ov a b c d tw = Ok (Some p) ->
       let '(c0, _, _, _) := clipped p in let '(w0, _, _, _) := window p in to_source (level p) c0 x = x / IZR (2 ^ level p) - IZR w0 + 2).
Proof.
  intros H. destruct (north_up_plan 100 100 2 1 0 65 64 16 2) as (p & P & L & C & W); [lia | lia | reflexivity | reflexivity |].
  specialize (H _ _ _ _ _ _ _ _ _ 1 P). rewrite W, C, L in H. cbn -[IZR] in H. unfold to_source in H. cbn in H. change (Z.to_nat 2) with 2%nat in H. cbn in H. lra.
Qed.

(** *** Elevation *)
Theorem C62_elevation_square : forall i2w n w, i2w (IZR n / 2, IZR n / 2) = Ok w -> default_elevation i2w n n = Ok (elevation w).
Proof. intros i2w n w H. unfold default_elevation. rewrite H. reflexivity. Qed.
Theorem C62_elevation_refuted :
  ~ (forall i2w xs ys w, i2w (IZR xs / 2, IZR ys / 2) = Ok w -> default_elevation i2w xs ys = Ok (elevation w)).
Proof.
  intros H. specialize (H (fun v => Ok (mkGeo 0 0 (fst v))) 100%Z 200%Z _ eq_refl). cbn in H. injection H as H. lra.
Qed.
Example C62_non_vacuous : exists p m, plan anywhere north_up 10000 10000 5 100 (-1224) 1124 (-200) 256 = Ok (Some p) /\ maps lin_spline p 256 256 = Ok m
  /\ src_coords north_up 0 100 (-1224) 1124 (-200) = Ok (nodes p).
Proof.
  destruct (north_up_plan 10000 10000 5 100 200 1124 1224 256 2) as (p & P & L & C & W); [lia | lia | reflexivity | reflexivity |].
  destruct (plan_some anywhere north_up 10000 10000 5 0 100 (-1224) 1124 (-200) 256 p eq_refl P) as (b0 & b1 & b2 & b3 & r0 & G & _).
  destruct (C62_source lin_spline lin_spline_law north_up 0 100 (-1224) 1124 (-200) p 256 256 (100) (200) (1124) (1224)) as (m & M & _); [lia | lia | exact G | rewrite C; reflexivity |].
  exists p, m. auto.
Qed.

(** The ways to get no tile: the area is beside the image, or the sensor model fails somewhere in it. *)
Definition half_world (w : Geodetic) : res Vertex := if Rle_dec (longitude w) 500 then north_up w else Err ValueError.
Example C61_no_tile_cases :
  plan anywhere north_up 100 100 5 200 (-50) 300 (-20) 256 = Ok None /\
  plan anywhere half_world 10000 10000 5 100 (-1224) 1124 (-200) 256 = Ok None /\
  half_world (mkGeo 100 (-200) 0) = Ok (100, 200) /\
  (forall v, node_of north_up 0 200 (-50) 300 (-20) v -> IZR 100 + 1 <= fst v).
Proof.
  assert (N : forall v, node_of north_up 0 200 (-50) 300 (-20) v -> IZR 100 + 1 <= fst v).
  { intros v (lon & lat & L & _ & E). injection E as <-. cbn [fst longitude]. destruct L as [->|[->| ->]]; lra. }
  split; [|split; [|split; [|exact N]]].
  - apply (C61_none anywhere north_up 100 100 5 0); [reflexivity|]. right. left. exact N.
  - apply (C61_none anywhere half_world 10000 10000 5 0); [reflexivity|]. left. exists 1124, (-200), ValueError.
    split; [right; right; reflexivity|]. split; [left; reflexivity|]. unfold half_world. cbn [longitude]. destruct (Rle_dec 1124 500); [lra | reflexivity].
  - unfold half_world, north_up. cbn [longitude latitude]. destruct (Rle_dec 100 500); [|lra]. f_equal. f_equal. lra.
Qed.
(** A line on the image meets what C61_degenerate asks; reading a window of three bands gives all
    three, in the order asked for, at the overview before the level. *)
Example C61_line_and_read :
  plan anywhere north_up 100 100 0 5 (-50) 5 (-20) 256 = Err OtherError /\
  (exists grid, default_elevation anywhere 100 100 = Ok 0 /\ src_coords north_up 0 5 (-50) 5 (-20) = Ok grid /\ src_bbox grid = (5, 20, 5, 50)%Z
     /\ misses 100 100 (5, 20, 5, 50)%Z = false) /\
  (forall A (f : nat -> option Z -> ZBox -> A), let read := fun n o b => Ok (f n o b) in let o := Some 1%Z in let b := (10, 20, 20, 30)%Z in
     read_from_rlevel read 3 (10, 20, 30, 50)%Z 2 [3; 1]%nat = Ok (Bands [f 3%nat o b; f 1%nat o b]) /\
     read_from_rlevel read 1 (10, 20, 30, 50)%Z 0 [] = Ok (Grayscale (f 1%nat None b))).
Proof.
  destruct (north_up_bbox 5 20 5 50) as (grid & G & B); [lia | lia |].
  split; [|split].
  - apply (C61_degenerate anywhere north_up 100 100 0 5 (-50) 5 (-20) 256 0 grid 5 20 5 50); [reflexivity | exact G | exact B | reflexivity | reflexivity].
  - exists grid. repeat split; assumption.
  - intros A f. split; reflexivity.
Qed.
(** A whole tile of the north-up image, 256 by 256 at the second overview: what C62_square and
    C62_tile ask, and the place of its first pixel. *)
Example C62_whole_tile : exists p m,
  plan anywhere north_up 10000 10000 5 100 (-1224) 1124 (-200) (Z.of_nat 256) = Ok (Some p) /\ maps lin_spline p 256 256 = Ok m /\
  (forall lon lat, north_up (mkGeo lon lat 0) = Ok (0 + 1 * lon + 0 * lat, 0 + 0 * lon + -1 * lat)) /\
  clipped p = (100, 200, 1124, 1224)%Z /\
  orthophoto anywhere north_up 10000 10000 5 lin_spline (fun r b => Ok (r, b)) (fun img v => (img, v)) 100 (-1224) 1124 (-200) 256 256
    = Ok (Some (List.map (List.map (fun v => ((2, (25, 50, 281, 306))%Z, v))) m)) /\
  exists row, nth_error m 0 = Some row /\ nth_error row 0 = Some (to_source 2 100 100, to_source 2 200 200).
Proof.
  destruct (north_up_plan 10000 10000 5 100 200 1124 1224 256 2) as (p & P & L & C & W); [lia | lia | reflexivity | reflexivity |].
  assert (A : forall lon lat, north_up (mkGeo lon lat 0) = Ok (0 + 1 * lon + 0 * lat, 0 + 0 * lon + -1 * lat)).
  { intros lon lat. unfold north_up. cbn [longitude latitude]. f_equal. f_equal; lra. }
  assert (G : src_coords north_up 0 100 (-1224) 1124 (-200) = Ok (nodes p)).
  { destruct (plan_some anywhere north_up 10000 10000 5 0 _ _ _ _ _ _ eq_refl P) as (? & ? & ? & ? & ? & G & _). exact G. }
  destruct (C62_square lin_spline lin_spline_law _ _ _ _ _ _ p 256 100 200 1124 1224 0 1 0 0 0 (-1) ltac:(lia) A G C) as (m & M & _ & _ & O).
  exists p, m. split; [exact P|]. split; [exact M|]. split; [exact A|]. split; [rewrite C; reflexivity|]. split.
  - unfold orthophoto. change (Z.of_nat 256) with 256%Z. change (plan anywhere north_up 10000 10000 5 100 (-1224) 1124 (-200) 256 = Ok (Some p)) in P. rewrite P. cbn [bind]. rewrite M. cbn [bind]. rewrite W, C, L. reflexivity.
  - destruct (O 0%nat 0%nat ltac:(lia) ltac:(lia)) as (row & v & V & R & E). exists row. split; [exact R|]. rewrite E, V, L. unfold along, part. cbn [fst snd INR].
    do 3 f_equal; lra.
Qed.

(** ** C77: transparency *)
Theorem C77_alpha : forall gray channels, exists alpha, with_alpha gray channels = (if gray then channels ++ channels ++ channels else channels) ++ [alpha]
  /\ (alpha = 255%Z <-> ~ In 0%Z channels) /\ (alpha = 0%Z <-> In 0%Z channels).
Proof.
  intros gray ch. exists (opaque ch). split; [reflexivity|]. unfold opaque. destruct (forallb (fun c => negb (c =? 0)%Z) ch) eqn:F.
  - rewrite forallb_forall in F. assert (N : ~ In 0%Z ch) by (intros I; apply F in I; discriminate). split; split; intros; try tauto; try reflexivity; discriminate.
  - assert (I : In 0%Z ch).
    { clear gray. induction ch as [|c ch IH]; [discriminate|]. cbn in F. destruct (Z.eqb_spec c 0) as [->|N]; [left; reflexivity | right; apply IH; exact F]. }
    split; split; intros; try tauto; try reflexivity; discriminate.
Qed.
Theorem C77_gray : forall v, with_alpha true [v] = [v; v; v; if (v =? 0)%Z then 0%Z else 255%Z].
Proof. intros v. unfold with_alpha, opaque. cbn. destruct (v =? 0)%Z; reflexivity. Qed.
(** Pixels that are not black are made transparent too, when one of their channels is zero. *)
Theorem C77_only_black_refuted : ~ (forall channels, last (with_alpha false channels) 0%Z = 0%Z -> Forall (fun c => c = 0%Z) channels).
Proof. intros H. specialize (H [255; 0; 0]%Z eq_refl). inversion H; discriminate. Qed.
Example C77_non_vacuous : with_alpha false [1; 2; 3]%Z = [1; 2; 3; 255]%Z /\ with_alpha true [0]%Z = [0; 0; 0; 0]%Z.
Proof. split; reflexivity. Qed.

Print Assumptions C61_none.
Print Assumptions C61_level.
Print Assumptions C61_window.
Print Assumptions C61_window_tight.
Print Assumptions C61_width.
Print Assumptions C61_read.
Print Assumptions C61_no_bands.
Print Assumptions C61_degenerate.
Print Assumptions C61_touching_refuted.
Print Assumptions C61_narrow_refuted.
Print Assumptions C61_degenerate_refuted.
Print Assumptions C62_source.
Print Assumptions C62_square.
Print Assumptions C62_nonsquare_refuted.
Print Assumptions C62_one_pixel_refuted.
Print Assumptions C62_tile.
Print Assumptions C62_registration.
Print Assumptions C62_registration_refuted.
Print Assumptions C62_elevation_square.
Print Assumptions C62_elevation_refuted.
Print Assumptions C77_alpha.
Print Assumptions C77_gray.
Print Assumptions C77_only_black_refuted.
