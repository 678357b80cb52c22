(** Lemmas about geolocation. *)
Require Import Reals Lra Lia String List Bool Arith.
Require Import Verif.Base Verif.TileModel Verif.CoordModel Verif.CoordSpec Verif.RsmModel Verif.BuilderModel Verif.BuilderProofs Verif.ConfigModel Verif.ConfigProofs
  Verif.FeatureModel Verif.GeolocModel Verif.GeolocSpec.
Import ListNotations.
Local Open Scope R_scope.

(** *** Geometries *)
Section GeomInd.
Variable P : Geom -> Prop.
Hypothesis HP : forall v, P (Point v).
Hypothesis HL : forall vs, P (LineString vs).
Hypothesis HR : forall vs, P (LinearRing vs).
Hypothesis HG : forall e is, P (Polygon e is).
Hypothesis HMP : forall ps, P (MultiPoint ps).
Hypothesis HML : forall ls, P (MultiLineString ls).
Hypothesis HMG : forall ps, P (MultiPolygon ps).
Hypothesis HC : forall gs, Forall P gs -> P (GeometryCollection gs).
Hypothesis HU : P Unhandled.
Fixpoint geom_ind (g : Geom) : P g :=
  match g with
  | Point v => HP v | LineString vs => HL vs | LinearRing vs => HR vs | Polygon e is => HG e is
  | MultiPoint ps => HMP ps | MultiLineString ls => HML ls | MultiPolygon ps => HMG ps
  | GeometryCollection gs => HC gs ((fix go l : Forall P l := match l with [] => Forall_nil P | x :: r => Forall_cons x (geom_ind x) (go r) end) gs)
  | Unhandled => HU
  end.
End GeomInd.

Lemma forall2_iff {A B} (P Q : A -> B -> Prop) l : (forall a, In a l -> forall b, P a b <-> Q a b) -> forall m, Forall2 P l m <-> Forall2 Q l m.
Proof.
  induction l as [|a l IH]; intros H m.
  - split; intros F; inversion F; constructor.
  - split; intros F; inversion F as [|? b ? m' X Y]; subst; constructor; try (apply (H a (or_introl eq_refl)); exact X);
      apply IH; try exact Y; intros a' I; apply H; right; exact I.
Qed.
Lemma ok_inj {A} (a b : A) : Ok a = Ok b <-> a = b.
Proof. split; [intros H; injection H; auto | congruence]. Qed.
Lemma bind_ok1 {A B} (m : res A) (f : A -> B) b : bind m (fun a => Ok (f a)) = Ok b <-> exists a, m = Ok a /\ b = f a.
Proof. rewrite bind_ok. split; intros [a [M E]]; exists a; split; auto; [injection E; auto | congruence]. Qed.

Section Located.
Variable rnd : R -> R.
Variable grid : Vertex -> res Geodetic.
Lemma locate_vertex_spec v p : (exists c, locate_vertex grid v = Ok c /\ p = position rnd c) <-> position_of rnd grid v p.
Proof.
  unfold locate_vertex, position_of. split.
  - intros [c [L ->]]. apply bind_ok1 in L as [w [W ->]]. exists w. split; [exact W | reflexivity].
  - intros [w [W ->]]. exists (radians_coordinate_to_degrees w). rewrite W. split; reflexivity.
Qed.
Lemma forall2_map {A B C} (P : A -> B -> Prop) (f : B -> C) l m : (exists k, Forall2 P l k /\ m = List.map f k) <-> Forall2 (fun a c => exists b, P a b /\ c = f b) l m.
Proof.
  split.
  - intros [k [F ->]]. induction F; constructor; [eexists; split; [eassumption | reflexivity] | assumption].
  - induction 1 as [|a c l m [b [H ->]] F [k [K ->]]]; [exists []; split; [constructor | reflexivity]|].
    exists (b :: k). split; [constructor; assumption | reflexivity].
Qed.
Lemma locate_line_spec vs j : locate_line rnd grid vs = Ok j <-> line_of rnd grid vs j.
Proof.
  unfold locate_line, line_of. rewrite bind_ok1. split.
  - intros [cs [M ->]]. apply map_res_ok in M. eexists. split; [|reflexivity].
    apply (forall2_iff (fun v p => exists c, locate_vertex grid v = Ok c /\ p = position rnd c)).
    + intros v _ p. apply locate_vertex_spec.
    + apply forall2_map. exists cs. split; [exact M | reflexivity].
  - intros [ps [F ->]].
    apply (forall2_iff (fun v p => exists c, locate_vertex grid v = Ok c /\ p = position rnd c) (position_of rnd grid)) in F; [|intros; apply locate_vertex_spec].
    apply forall2_map in F as [cs [F ->]]. exists cs. split; [apply map_res_ok, F | reflexivity].
Qed.
Lemma locate_point_spec p c : locate_point rnd grid p = Ok c <-> exists v, p = Some v /\ position_of rnd grid v c.
Proof.
  unfold locate_point. destruct p as [v|].
  - rewrite bind_ok1, locate_vertex_spec. split; [intros H; exists v; auto | intros [w [E H]]; injection E as <-; exact H].
  - split; [discriminate | intros [v [E _]]; discriminate].
Qed.
Lemma locate_polygon_spec e is j : locate_polygon rnd grid e is = Ok j <-> rings_of rnd grid e is j.
Proof.
  unfold locate_polygon, rings_of. rewrite bind_ok. split.
  - intros [b [B E]]. apply bind_ok1 in E as [hs [H ->]]. apply map_res_ok in H. apply locate_line_spec in B.
    exists (b :: hs). split; [|reflexivity]. constructor; [exact B|].
    apply (forall2_iff (fun a b => locate_line rnd grid a = Ok b)); [intros; apply locate_line_spec | exact H].
  - intros [rs [F ->]]. inversion F as [|? b ? hs B H]; subst. exists b. split; [apply locate_line_spec, B|].
    apply bind_ok1. exists hs. split; [|reflexivity]. apply map_res_ok.
    apply (forall2_iff (fun a b => locate_line rnd grid a = Ok b) (line_of rnd grid)); [intros; apply locate_line_spec | exact H].
Qed.
Lemma collection_go gs : forall js,
  (fix go (l : list Geom) : res (list Json) :=
     match l with [] => Ok [] | x :: r => bind (geolocate_image_geometry rnd grid x) (fun j => bind (go r) (fun js => Ok (j :: js))) end) gs = Ok js
  <-> Forall2 (fun g j => geolocate_image_geometry rnd grid g = Ok j) gs js.
Proof.
  intros js. rewrite <- map_res_ok.
  match goal with |- ?a = _ <-> ?b = _ => assert (E : a = b); [|rewrite E; reflexivity] end.
  induction gs as [|g gs IH]; [reflexivity|]. cbn [RsmModel.map_res]. rewrite <- IH. reflexivity.
Qed.

Lemma geolocate_spec g : forall j, geolocate_image_geometry rnd grid g = Ok j <-> located rnd grid g j.
Proof.
  induction g using geom_ind; intros j; cbn [geolocate_image_geometry].
  - rewrite bind_ok1. split.
    + intros [c [C ->]]. apply locate_point_spec in C as [w [-> W]]. constructor. exact W.
    + intros L. inversion L as [w p W| | | | | | |]; subst. exists p. split; [apply locate_point_spec; exists w; auto | reflexivity].
  - rewrite bind_ok1. split.
    + intros [c [C ->]]. apply locate_line_spec in C. constructor. exact C.
    + intros L. inversion L as [|? c C| | | | | |]; subst. exists c. split; [apply locate_line_spec, C | reflexivity].
  - rewrite bind_ok1. split.
    + intros [c [C ->]]. apply locate_line_spec in C. constructor. exact C.
    + intros L. inversion L as [| |? c C| | | | |]; subst. exists c. split; [apply locate_line_spec, C | reflexivity].
  - rewrite bind_ok1. split.
    + intros [c [C ->]]. apply locate_polygon_spec in C. constructor. exact C.
    + intros L. inversion L as [| | |? ? c C| | | |]; subst. exists c. split; [apply locate_polygon_spec, C | reflexivity].
  - rewrite bind_ok1. split.
    + intros [c [C ->]]. apply map_res_ok in C. constructor.
      apply (forall2_iff (fun p c => locate_point rnd grid p = Ok c)); [intros; apply locate_point_spec | exact C].
    + intros L. inversion L as [| | | |? c C| | |]; subst. exists c. split; [apply map_res_ok | reflexivity].
      apply (forall2_iff (fun p c => locate_point rnd grid p = Ok c)) in C; [exact C | intros; apply locate_point_spec].
  - rewrite bind_ok1. split.
    + intros [c [C ->]]. apply map_res_ok in C. constructor.
      apply (forall2_iff (fun p c => locate_line rnd grid p = Ok c)); [intros; apply locate_line_spec | exact C].
    + intros L. inversion L as [| | | | |? c C| |]; subst. exists c. split; [apply map_res_ok | reflexivity].
      apply (forall2_iff (fun p c => locate_line rnd grid p = Ok c)) in C; [exact C | intros; apply locate_line_spec].
  - rewrite bind_ok1. split.
    + intros [c [C ->]]. apply map_res_ok in C. constructor.
      apply (forall2_iff (fun p c => locate_polygon rnd grid (fst p) (snd p) = Ok c)); [intros; apply locate_polygon_spec | exact C].
    + intros L. inversion L as [| | | | | |? c C|]; subst. exists c. split; [apply map_res_ok | reflexivity].
      apply (forall2_iff (fun p c => locate_polygon rnd grid (fst p) (snd p) = Ok c)) in C; [exact C | intros; apply locate_polygon_spec].
  - rewrite bind_ok1. rewrite Forall_forall in H. split.
    + intros [c [C ->]]. apply collection_go in C. constructor.
      apply (forall2_iff (fun g j => geolocate_image_geometry rnd grid g = Ok j)); [intros a I b; apply H, I | exact C].
    + intros L. inversion L as [| | | | | | |? c C]; subst. exists c. split; [apply collection_go | reflexivity].
      apply (forall2_iff (fun g j => geolocate_image_geometry rnd grid g = Ok j)) in C; [exact C | intros a I b; apply H, I].
  - split; [discriminate | intros L; inversion L].
Qed.

Lemma forall2_exists {A B} (P : A -> B -> Prop) l : (forall a, In a l -> exists b, P a b) -> exists m, Forall2 P l m.
Proof.
  induction l as [|a l IH]; intros H; [exists []; constructor|].
  destruct (H a (or_introl eq_refl)) as [b Hb]. destruct IH as [m M]; [intros a' I; apply H; right; exact I|]. exists (b :: m). constructor; assumption.
Qed.
Lemma located_total g : supported g -> (forall v, vertex_of g v -> is_ok (grid v)) -> exists j, located rnd grid g j.
Proof.
  assert (V : forall v, is_ok (grid v) -> exists p, position_of rnd grid v p) by (intros v [w W]; eexists; exists w; split; [exact W | reflexivity]).
  assert (L : forall vs, (forall v, In v vs -> is_ok (grid v)) -> exists j, line_of rnd grid vs j).
  { intros vs H. destruct (forall2_exists (position_of rnd grid) vs) as [ps F]; [intros v I; apply V, H, I|]. eexists; exists ps; split; [exact F | reflexivity]. }
  assert (Po : forall e is, (forall l v, In l (e :: is) -> In v l -> is_ok (grid v)) -> exists j, rings_of rnd grid e is j).
  { intros e is H. destruct (forall2_exists (line_of rnd grid) (e :: is)) as [rs F]; [intros l I; apply L; intros v J; apply (H l v I J)|]. eexists; exists rs; split; [exact F | reflexivity]. }
  induction g using geom_ind; intros S H0; inversion S; subst.
  - destruct (V v0) as [p Q]; [apply H0; constructor|]. eexists; constructor; exact Q.
  - destruct (L vs) as [p Q]; [intros v I; apply H0; constructor; exact I|]. eexists; constructor; exact Q.
  - destruct (L vs) as [p Q]; [intros v I; apply H0; constructor; exact I|]. eexists; constructor; exact Q.
  - destruct (Po e is) as [p Q]; [intros l v I J; apply H0; econstructor; eassumption|]. eexists; constructor; exact Q.
  - destruct (forall2_exists (fun p c => exists v, p = Some v /\ position_of rnd grid v c) ps) as [cs F].
    { intros [v|] I; [|contradiction]. destruct (V v) as [p Q]; [apply H0; constructor; exact I|]. exists p, v. auto. }
    eexists; constructor; exact F.
  - destruct (forall2_exists (line_of rnd grid) ls) as [cs F]; [intros l I; apply L; intros v J; apply H0; econstructor; eassumption|]. eexists; constructor; exact F.
  - destruct (forall2_exists (fun p => rings_of rnd grid (fst p) (snd p)) ps) as [cs F]; [intros p I; apply Po; intros l v J K; apply H0; econstructor; eassumption|]. eexists; constructor; exact F.
  - destruct (forall2_exists (located rnd grid) gs) as [cs F].
    { rewrite Forall_forall in H, H2. intros g I. apply (H g I (H2 g I)). intros v J. apply H0. econstructor; eassumption. }
    eexists; constructor; exact F.
Qed.
End Located.

(** *** Interpolation *)
Lemma linspace_length a b n : List.length (linspace a b n) = n.
Proof. destruct n as [|[|n]]; [reflexivity | reflexivity |]. unfold linspace. rewrite map_length, seq_length. reflexivity. Qed.
Lemma linspace_nth a b n i : (2 <= n)%nat -> (i < n)%nat -> nth_error (linspace a b n) i = Some (a + INR i * ((b - a) / INR (n - 1))).
Proof.
  intros N I. destruct n as [|[|n]]; [lia | lia |]. unfold linspace. replace (S (S n) - 1)%nat with (S n) by lia.
  erewrite map_nth_error; [reflexivity|]. rewrite nth_error_nth' with (d := 0%nat) by (rewrite seq_length; exact I). rewrite seq_nth by exact I. reflexivity.
Qed.
Lemma increasing_nth l : (forall i x y, nth_error l i = Some x -> nth_error l (S i) = Some y -> x < y) -> increasing l.
Proof.
  induction l as [|a [|b r] IH]; intros H; [exact I | exact I |]. cbn [increasing]. split; [apply (H 0%nat); reflexivity|].
  apply IH. intros i x y X Y. apply (H (S i)); assumption.
Qed.
Lemma linspace_increasing a b n : a < b -> (2 <= n)%nat -> increasing (linspace a b n).
Proof.
  intros AB N. apply increasing_nth. intros i x y X Y.
  assert (I : (S i < n)%nat) by (rewrite <- (linspace_length a b n); apply nth_error_Some; congruence).
  rewrite linspace_nth in X, Y by lia. rewrite S_INR in Y.
  assert (EX : x = a + INR i * ((b - a) / INR (n - 1))) by congruence. assert (EY : y = a + (INR i + 1) * ((b - a) / INR (n - 1))) by congruence.
  assert (0 < INR (n - 1)) by (apply lt_0_INR; lia). assert (0 < (b - a) / INR (n - 1)) by (apply Rdiv_lt_0_compat; lra). lra.
Qed.
Lemma linspace_hd a b n : (2 <= n)%nat -> hd 0 (linspace a b n) = a.
Proof.
  intros N. pose proof (linspace_nth a b n 0 N ltac:(lia)) as H. destruct (linspace a b n) as [|x l]; [discriminate|]. cbn [nth_error] in H. cbn [hd].
  assert (E : x = a + INR 0 * ((b - a) / INR (n - 1))) by congruence. rewrite E. cbn [INR]. ring.
Qed.
Lemma last_nth (l : list R) : last l 0 = nth (List.length l - 1) l 0.
Proof. induction l as [|a [|b l] IH]; [reflexivity | reflexivity |]. change (last (a :: b :: l) 0) with (last (b :: l) 0). rewrite IH. cbn [List.length]. replace (S (S (List.length l)) - 1)%nat with (S (S (List.length l) - 1)) by lia. reflexivity. Qed.
Lemma linspace_last a b n : (2 <= n)%nat -> last (linspace a b n) 0 = b.
Proof.
  intros N. rewrite last_nth, linspace_length. pose proof (linspace_nth a b n (n - 1) N ltac:(lia)) as H. apply nth_error_nth with (d := 0) in H. rewrite H.
  field. apply not_0_INR. lia.
Qed.
(** Every point of the interval is in a part. *)
Lemma part_exists a b n x : a < b -> (2 <= n)%nat -> a <= x <= b -> exists lo hi, part_of a b n x lo hi.
Proof.
  intros AB N X. set (s := (b - a) / INR (n - 1)). assert (P : 0 < INR (n - 1)) by (apply lt_0_INR; lia).
  assert (Q : 0 < s) by (apply Rdiv_lt_0_compat; lra).
  assert (E : a + INR (n - 1) * s = b) by (unfold s; field; lra).
  assert (H : forall m, (m <= n - 1)%nat -> x <= a + INR m * s -> (1 <= m)%nat -> exists i, (i < m)%nat /\ a + INR i * s <= x <= a + INR (S i) * s).
  { induction m as [|m IH]; intros M XM M1; [lia|]. destruct (Rle_dec (a + INR m * s) x) as [L|L]; [exists m; split; [lia | split; assumption]|].
    apply Rnot_le_lt in L. destruct m as [|m]; [cbn [INR] in L; lra|]. destruct (IH ltac:(lia) ltac:(lra) ltac:(lia)) as [i [I B]]. exists i. split; [lia | exact B]. }
  destruct (H (n - 1)%nat) as [i [I B]]; [lia | lra | lia |].
  exists (a + INR i * s), (a + INR (S i) * s). split; [exists i; split; [exact I | split; reflexivity] | exact B].
Qed.

(** The mean is between the corner values. *)
Lemma bilinear_near x0 x1 y0 y1 z00 z01 z10 z11 x y c e : x0 < x1 -> y0 < y1 -> x0 <= x <= x1 -> y0 <= y <= y1 ->
  Rabs (z00 - c) <= e -> Rabs (z01 - c) <= e -> Rabs (z10 - c) <= e -> Rabs (z11 - c) <= e -> Rabs (bilinear x0 x1 y0 y1 z00 z01 z10 z11 x y - c) <= e.
Proof.
  intros HX HY X Y A B C D. unfold bilinear.
  assert (P : 0 < (x1 - x0) * (y1 - y0)) by (apply Rmult_lt_0_compat; lra).
  set (p := (x1 - x) * (y1 - y)). set (q := (x1 - x) * (y - y0)). set (r := (x - x0) * (y1 - y)). set (s := (x - x0) * (y - y0)).
  assert (p0 : 0 <= p) by (apply Rmult_le_pos; lra). assert (q0 : 0 <= q) by (apply Rmult_le_pos; lra).
  assert (r0 : 0 <= r) by (apply Rmult_le_pos; lra). assert (s0 : 0 <= s) by (apply Rmult_le_pos; lra).
  assert (T : p + q + r + s = (x1 - x0) * (y1 - y0)) by (unfold p, q, r, s; ring). rewrite <- T in P |- *.
  clearbody p q r s. clear T X Y HX HY.
  replace ((p * z00 + q * z01 + r * z10 + s * z11) / (p + q + r + s) - c) with ((p * (z00 - c) + q * (z01 - c) + r * (z10 - c) + s * (z11 - c)) / (p + q + r + s)) by (field; lra).
  unfold Rdiv. rewrite Rabs_mult, (Rabs_right (/ _)) by (apply Rle_ge, Rlt_le, Rinv_0_lt_compat; exact P).
  apply Rmult_le_reg_r with (p + q + r + s); [exact P|]. rewrite Rmult_assoc, Rinv_l, Rmult_1_r by lra.
  eapply Rle_trans; [apply Rabs_triang|]. eapply Rle_trans; [apply Rplus_le_compat_r, Rabs_triang|]. eapply Rle_trans; [apply Rplus_le_compat_r, Rplus_le_compat_r, Rabs_triang|].
  rewrite !Rabs_mult, (Rabs_right p), (Rabs_right q), (Rabs_right r), (Rabs_right s) by lra.
  pose proof (Rmult_le_compat_l p _ _ p0 A). pose proof (Rmult_le_compat_l q _ _ q0 B). pose proof (Rmult_le_compat_l r _ _ r0 C). pose proof (Rmult_le_compat_l s _ _ s0 D). lra.
Qed.
Lemma bilinear_affine x0 x1 y0 y1 a b c x y : x0 < x1 -> y0 < y1 ->
  bilinear x0 x1 y0 y1 (a + b * x0 + c * y0) (a + b * x0 + c * y1) (a + b * x1 + c * y0) (a + b * x1 + c * y1) x y = a + b * x + c * y.
Proof. intros. unfold bilinear. field. lra. Qed.

(** *** A spline that satisfies the law *)
Fixpoint lin (xs vs : list R) (x : R) : R :=
  match xs, vs with
  | x0 :: ((x1 :: _) as xr), v0 :: ((v1 :: _) as vr) =>
      if Rle_dec x x0 then v0 else if Rle_dec x x1 then ((x1 - x) * v0 + (x - x0) * v1) / (x1 - x0) else lin xr vr x
  | _, v :: _ => v
  | _, [] => 0
  end.
Fixpoint increasing_b (l : list R) : bool :=
  match l with a :: ((b :: _) as r) => (if Rlt_dec a b then true else false) && increasing_b r | _ => true end.
Lemma increasing_b_spec l : increasing_b l = true <-> increasing l.
Proof.
  induction l as [|a [|b r] IH]; [split; intros _; [exact I | reflexivity] | split; intros _; [exact I | reflexivity] |]. change (increasing_b (a :: b :: r)) with ((if Rlt_dec a b then true else false) && increasing_b (b :: r)).
  change (increasing (a :: b :: r)) with (a < b /\ increasing (b :: r)). rewrite andb_true_iff, IH. destruct (Rlt_dec a b); intuition discriminate.
Qed.
Definition lin_spline (xs ys : list R) (z : list (list R)) : res (R -> R -> R) :=
  if (2 <=? List.length xs)%nat && (2 <=? List.length ys)%nat && increasing_b xs && increasing_b ys then Ok (fun x y => lin xs (List.map (fun row => lin ys row y) z) x) else Err ValueError.

Lemma increasing_head a r i x : increasing (a :: r) -> nth_error (a :: r) i = Some x -> a <= x.
Proof.
  revert a i. induction r as [|b r IH]; intros a i H N.
  - destruct i as [|i]; [injection N as <-; lra | destruct i; discriminate].
  - destruct i as [|i]; [injection N as <-; lra|]. destruct H as [L H]. specialize (IH b i H N). lra.
Qed.
Lemma lin_step a b r u v vr x : lin (a :: b :: r) (u :: v :: vr) x =
  if Rle_dec x a then u else if Rle_dec x b then ((b - x) * u + (x - a) * v) / (b - a) else lin (b :: r) (v :: vr) x.
Proof. reflexivity. Qed.
Lemma lin_cell xs : forall vs i x0 x1 v0 v1 x, increasing xs -> nth_error xs i = Some x0 -> nth_error xs (S i) = Some x1 ->
  nth_error vs i = Some v0 -> nth_error vs (S i) = Some v1 -> x0 <= x <= x1 -> lin xs vs x = ((x1 - x) * v0 + (x - x0) * v1) / (x1 - x0).
Proof.
  induction xs as [|a [|b r] IH]; intros vs i x0 x1 v0 v1 x Inc X0 X1 V0 V1 X; [destruct i; discriminate | destruct i; [discriminate | destruct i; discriminate] |].
  destruct Inc as [AB Inc]. destruct vs as [|u [|v vr]]; [destruct i; discriminate | destruct i; [discriminate | destruct i; discriminate] |].
  rewrite lin_step. destruct i as [|i].
  - cbn in X0, X1, V0, V1. injection X0 as <-. injection X1 as <-. injection V0 as <-. injection V1 as <-.
    destruct (Rle_dec x a); [|destruct (Rle_dec x b); [reflexivity | lra]]. replace x with a by lra. field. lra.
  - cbn [nth_error] in X0, V0. change (nth_error (b :: r) (S i) = Some x1) in X1. change (nth_error (v :: vr) (S i) = Some v1) in V1.
    pose proof (increasing_head b r i x0 Inc X0) as B0.
    assert (L : x0 < x1). { clear - Inc X0 X1. revert b r Inc X0 X1. induction i as [|i IHi]; intros b r Inc X0 X1.
      - destruct r as [|c r]; [discriminate|]. cbn in X0, X1. injection X0 as <-. injection X1 as <-. apply Inc.
      - destruct r as [|c r]; [discriminate|]. apply (IHi c r); [apply Inc | exact X0 | exact X1]. }
    assert (G : lin (b :: r) (v :: vr) x = ((x1 - x) * v0 + (x - x0) * v1) / (x1 - x0)) by (apply (IH (v :: vr) i x0 x1 v0 v1 x Inc X0 X1 V0 V1 X)).
    destruct (Rle_dec x a); [lra|]. destruct (Rle_dec x b) as [XB|XB]; [|exact G].
    rewrite <- G. replace x with b by lra. destruct r as [|c r]; [destruct i; discriminate|]. destruct vr as [|w vr]; [destruct i; discriminate|].
    rewrite lin_step. destruct (Rle_dec b b); [field; lra | lra].
Qed.
Lemma last_ge a r : increasing (a :: r) -> a <= last (a :: r) 0.
Proof. revert a. induction r as [|b r IH]; intros a H; [cbn; lra|]. destruct H as [L H]. specialize (IH b H). change (last (a :: b :: r) 0) with (last (b :: r) 0). lra. Qed.
Lemma lin_low a r vs x : x <= a -> lin (a :: r) vs x = hd 0 vs.
Proof. intros H. destruct r as [|b r], vs as [|v [|w vs]]; cbn; try reflexivity. destruct (Rle_dec x a); [reflexivity | contradiction]. Qed.
Lemma lin_high r : forall a vs x, increasing (a :: r) -> List.length vs = S (List.length r) -> last (a :: r) 0 <= x -> lin (a :: r) vs x = last vs 0.
Proof.
  induction r as [|b r IH]; intros a vs x Inc L H.
  - destruct vs as [|v [|w vs]]; [discriminate | reflexivity | discriminate].
  - destruct Inc as [AB Inc]. change (last (a :: b :: r) 0) with (last (b :: r) 0) in H. pose proof (last_ge b r Inc).
    destruct vs as [|v [|w vs]]; [discriminate | discriminate |]. rewrite lin_step. destruct (Rle_dec x a); [lra|].
    change (last (v :: w :: vs) 0) with (last (w :: vs) 0).
    assert (G : lin (b :: r) (w :: vs) x = last (w :: vs) 0) by (apply IH; [exact Inc | cbn in *; lia | exact H]).
    destruct (Rle_dec x b); [|exact G]. rewrite <- G. rewrite lin_low by lra. cbn [hd]. replace x with b by lra. field. lra.
Qed.
Lemma lin_clamp a r vs x : increasing (a :: r) -> List.length vs = S (List.length r) -> lin (a :: r) vs x = lin (a :: r) vs (clamp a (last (a :: r) 0) x).
Proof.
  intros Inc L. pose proof (last_ge a r Inc). unfold clamp, Rmax, Rmin.
  destruct (Rle_dec (last (a :: r) 0) x) as [H1|H1].
  - destruct (Rle_dec a _); [|lra]. rewrite !lin_high by (try assumption; lra). reflexivity.
  - destruct (Rle_dec a x); [reflexivity|]. rewrite !lin_low by lra. reflexivity.
Qed.
Lemma lin_spline_law : spline_law lin_spline.
Proof.
  split.
  - intros xs ys z IX IY LX LY LZ LR. unfold lin_spline. apply Nat.leb_le in LX as BX. apply Nat.leb_le in LY as BY. apply increasing_b_spec in IX as CX. apply increasing_b_spec in IY as CY. rewrite BX, BY, CX, CY. cbn [andb]. eexists. split; [reflexivity|]. split.
    + intros i j x0 x1 y0 y1 z00 z01 z10 z11 X0 X1 Y0 Y1 A B C D x y HX HY. unfold value in A, B, C, D.
      destruct (nth_error z i) as [r0|] eqn:R0; [|discriminate]. destruct (nth_error z (S i)) as [r1|] eqn:R1; [|discriminate].
      erewrite (lin_cell xs _ i x0 x1 _ _ x IX X0 X1); [| apply map_nth_error; exact R0 | apply map_nth_error; exact R1 | exact HX].
      rewrite (lin_cell ys r0 j y0 y1 z00 z01 y IY Y0 Y1 A B HY), (lin_cell ys r1 j y0 y1 z10 z11 y IY Y0 Y1 C D HY).
      assert (LT : forall l i a b, increasing l -> nth_error l i = Some a -> nth_error l (S i) = Some b -> a < b).
      { clear. intros l. induction l as [|c [|d l] IH]; intros i a b Inc X Y; [destruct i; discriminate | destruct i; [discriminate | destruct i; discriminate] |].
        destruct i as [|i]; [cbn in X, Y; injection X as <-; injection Y as <-; apply Inc | apply (IH i); [apply Inc | exact X | exact Y]]. }
      pose proof (LT _ _ _ _ IX X0 X1). pose proof (LT _ _ _ _ IY Y0 Y1). unfold bilinear. field. lra.
    + intros x y. destruct xs as [|a xs]; [cbn in LX; lia|]. destruct ys as [|b ys]; [cbn in LY; lia|]. cbn [hd].
      rewrite lin_clamp by (try assumption; rewrite map_length; exact LZ). f_equal. apply map_ext_in. intros row I.
      rewrite Forall_forall in LR. apply lin_clamp; [exact IY | apply LR, I].
  - intros xs ys z H. unfold lin_spline. exists ValueError.
    destruct (Nat.leb_spec 2 (List.length xs)); destruct (Nat.leb_spec 2 (List.length ys)); cbn [andb]; try reflexivity.
    destruct (increasing_b xs) eqn:CX, (increasing_b ys) eqn:CY; cbn [andb]; try reflexivity. apply increasing_b_spec in CX, CY. exfalso. intuition lia.
Qed.

(** *** The grid *)
Section Grid.
Variable i2w : Vertex -> res Geodetic.
Lemma map_res_total {A B} (f : A -> res B) l : (forall a, In a l -> is_ok (f a)) -> exists bs, map_res f l = Ok bs.
Proof. intros H. destruct (forall2_exists (fun a b => f a = Ok b) l) as [bs F]; [exact H|]. exists bs. apply map_res_ok, F. Qed.
Lemma correspondences_nth xs ys ws : correspondences i2w xs ys = Ok ws ->
  List.length ws = List.length xs /\ Forall (fun row => List.length row = List.length ys) ws
  /\ forall i j x y, nth_error xs i = Some x -> nth_error ys j = Some y -> exists row w, nth_error ws i = Some row /\ nth_error row j = Some w /\ i2w (x, y) = Ok w.
Proof.
  unfold correspondences. intros H. apply map_res_ok in H. split; [symmetry; eapply forall2_len; exact H|]. split.
  - induction H as [|x row xs ws R F IH]; constructor; [apply map_res_ok in R; symmetry; eapply forall2_len; exact R | exact IH].
  - intros i j x y X Y. destruct (forall2_nth _ _ _ H i x X) as [row [Rn R]]. apply map_res_ok in R. destruct (forall2_nth _ _ _ R j y Y) as [w [Wn W]].
    exists row, w. auto.
Qed.
Lemma value_map (f : Geodetic -> R) ws i j row w : nth_error ws i = Some row -> nth_error row j = Some w -> value (List.map (List.map f) ws) i j = Some (f w).
Proof. intros R W. unfold value. erewrite map_nth_error by exact R. erewrite map_nth_error by exact W. reflexivity. Qed.
End Grid.

(** *** Extent *)
Section Extent.
Variable sh : Shapely Geom.
Variable allow : bool.
Definition found (f : Feature) (g : Geom) : Prop := find_image_geometry sh allow (properties f) = Ok (Some g).
Lemma extend_spec acc b : exists c, extend acc b = Some c /\ within b c /\ (forall a, acc = Some a -> within a c)
  /\ forall i, (i < 4)%nat -> side i c = side i b \/ exists a, acc = Some a /\ side i c = side i a.
Proof.
  destruct b as [[[b0 b1] b2] b3]. destruct acc as [[[[a0 a1] a2] a3]|]; cbn [extend].
  - eexists. split; [reflexivity|]. pose proof (Rmin_l a0 b0). pose proof (Rmin_r a0 b0). pose proof (Rmin_l a1 b1). pose proof (Rmin_r a1 b1).
    pose proof (Rmax_l a2 b2). pose proof (Rmax_r a2 b2). pose proof (Rmax_l a3 b3). pose proof (Rmax_r a3 b3).
    split; [cbn; lra|]. split; [intros a E; injection E as <-; cbn; lra|].
    intros i I. unfold Rmin, Rmax. destruct i as [|[|[|[|i]]]]; [| | | |lia]; cbn.
    + destruct (Rle_dec a0 b0); [right; eexists; split; [reflexivity | reflexivity] | left; reflexivity].
    + destruct (Rle_dec a1 b1); [right; eexists; split; [reflexivity | reflexivity] | left; reflexivity].
    + destruct (Rle_dec a2 b2); [left; reflexivity | right; eexists; split; [reflexivity | reflexivity]].
    + destruct (Rle_dec a3 b3); [left; reflexivity | right; eexists; split; [reflexivity | reflexivity]].
  - eexists. split; [reflexivity|]. split; [cbn; lra|]. split; [discriminate|]. intros i _. left. reflexivity.
Qed.
Lemma within_trans a b c : within a b -> within b c -> within a c.
Proof. destruct a as [[[? ?] ?] ?], b as [[[? ?] ?] ?], c as [[[? ?] ?] ?]. cbn. lra. Qed.
Lemma within_refl a : within a a.
Proof. destruct a as [[[? ?] ?] ?]. cbn. lra. Qed.
Lemma feature_bounds_spec fs : forall acc o, feature_bounds sh allow acc fs = Ok o ->
  (forall f, In f fs -> is_ok (find_image_geometry sh allow (properties f)))
  /\ match o with
     | None => acc = None /\ forall f g, In f fs -> ~ found f g
     | Some b => (forall a, acc = Some a -> within a b) /\ (forall f g, In f fs -> found f g -> within (bounds sh g) b)
         /\ forall i, (i < 4)%nat -> (exists a, acc = Some a /\ side i b = side i a) \/ exists f g, In f fs /\ found f g /\ side i b = side i (bounds sh g)
     end.
Proof.
  induction fs as [|f fs IH]; intros acc o H; cbn [feature_bounds] in H.
  - injection H as <-. split; [intros f []|]. destruct acc as [b|].
    + split; [intros a E; injection E as <-; apply within_refl|]. split; [intros f g []|]. intros i I. left. exists b. split; reflexivity.
    + split; [reflexivity | intros f g []].
  - apply bind_ok in H as [og [F H]]. destruct og as [g|].
    + destruct (extend_spec acc (bounds sh g)) as (c & E & W & A & S). rewrite E in H. destruct (IH _ _ H) as [K L].
      split; [intros f' [<-|I]; [eexists; exact F | apply K, I]|]. destruct o as [b|]; [|destruct L; discriminate].
      destruct L as (L1 & L2 & L3). specialize (L1 c eq_refl). split; [intros a Ea; eapply within_trans; [apply A, Ea | exact L1]|]. split.
      * intros f' g' [<-|I] Fo; [|apply (L2 f' g' I Fo)]. unfold found in Fo. rewrite F in Fo. injection Fo as <-. eapply within_trans; [exact W | exact L1].
      * intros i I. destruct (L3 i I) as [[a [Ea Sa]] | (f' & g' & I' & F' & S')].
        -- injection Ea as <-. destruct (S i I) as [Sb | [a [Ea Sb]]].
           ++ right. exists f, g. split; [left; reflexivity|]. split; [exact F | congruence].
           ++ left. exists a. split; [exact Ea | congruence].
        -- right. exists f', g'. split; [right; exact I' | split; assumption].
    + destruct (IH _ _ H) as [K L]. split; [intros f' [<-|I]; [eexists; exact F | apply K, I]|]. destruct o as [b|].
      * destruct L as (L1 & L2 & L3). split; [exact L1|]. split.
        -- intros f' g' [<-|I] Fo; [unfold found in Fo; congruence | apply (L2 f' g' I Fo)].
        -- intros i I. destruct (L3 i I) as [X | (f' & g' & I' & F' & S')]; [left; exact X | right; exists f', g'; split; [right; exact I' | split; assumption]].
      * destruct L as [L1 L2]. split; [exact L1|]. intros f' g' [<-|I] Fo; [unfold found in Fo; congruence | apply (L2 f' g' I Fo)].
Qed.
End Extent.

(** *** The box of the four corners *)
Lemma fold_min l : forall x, (fold_left Rmin l x <= x /\ forall y, In y l -> fold_left Rmin l x <= y) /\ In (fold_left Rmin l x) (x :: l).
Proof.
  induction l as [|a l IH]; intros x; [split; [split; [cbn; lra | intros y []] | left; reflexivity]|]. cbn [fold_left].
  destruct (IH (Rmin x a)) as [[L F] I]. pose proof (Rmin_l x a). pose proof (Rmin_r x a). split; [split; [lra | intros y [<-|Y]; [lra | apply F, Y]]|].
  destruct I as [I|I]; [|right; right; exact I]. rewrite <- I. unfold Rmin. destruct (Rle_dec x a); [left; reflexivity | right; left; reflexivity].
Qed.
Lemma fold_max l : forall x, (x <= fold_left Rmax l x /\ forall y, In y l -> y <= fold_left Rmax l x) /\ In (fold_left Rmax l x) (x :: l).
Proof.
  induction l as [|a l IH]; intros x; [split; [split; [cbn; lra | intros y []] | left; reflexivity]|]. cbn [fold_left].
  destruct (IH (Rmax x a)) as [[L F] I]. pose proof (Rmax_l x a). pose proof (Rmax_r x a). split; [split; [lra | intros y [<-|Y]; [lra | apply F, Y]]|].
  destruct I as [I|I]; [|right; right; exact I]. rewrite <- I. unfold Rmax. destruct (Rle_dec x a); [right; left; reflexivity | left; reflexivity].
Qed.
Lemma points_bounds_spec p ps : hull_of (fun b => exists q, In q (p :: ps) /\ b = (fst (fst q), snd (fst q), fst (fst q), snd (fst q))) (points_bounds p ps).
Proof.
  unfold points_bounds. cbv zeta. set (xs := List.map (fun q => fst (fst q)) ps). set (ys := List.map (fun q => snd (fst q)) ps).
  destruct (fold_min xs (fst (fst p))) as [[M1 M2] M3]. destruct (fold_min ys (snd (fst p))) as [[N1 N2] N3].
  destruct (fold_max xs (fst (fst p))) as [[P1 P2] P3]. destruct (fold_max ys (snd (fst p))) as [[Q1 Q2] Q3].
  assert (X : forall q, In q ps -> In (fst (fst q)) xs /\ In (snd (fst q)) ys).
  { intros q I. split; [apply (in_map (fun q => fst (fst q))), I | apply (in_map (fun q => snd (fst q))), I]. }
  assert (Y : (forall x, In x (fst (fst p) :: xs) -> exists q, In q (p :: ps) /\ fst (fst q) = x) /\ (forall y, In y (snd (fst p) :: ys) -> exists q, In q (p :: ps) /\ snd (fst q) = y)).
  { split; (intros x [<-|I]; [exists p; split; [left|]; reflexivity|]); apply in_map_iff in I as [q [E I]]; exists q; split; auto; right; exact I. }
  destruct Y as [YX YY]. split.
  - intros b [q [[<-|I] ->]]; cbn [within]; [auto|]. destruct (X q I) as [X1 X2]. repeat split; auto.
  - intros i I. destruct i as [|[|[|[|i]]]]; [| | | |lia]; cbn [side nth];
      [destruct (YX _ M3) as [q [Iq Eq]] | destruct (YY _ N3) as [q [Iq Eq]] | destruct (YX _ P3) as [q [Iq Eq]] | destruct (YY _ Q3) as [q [Iq Eq]]];
      (exists (fst (fst q), snd (fst q), fst (fst q), snd (fst q)); split; [exists q; auto | exact Eq]).
Qed.
Lemma hull_ext P Q b : (forall a, P a <-> Q a) -> hull_of P b -> hull_of Q b.
Proof. intros E [H1 H2]. split; [intros a A; apply H1, E, A|]. intros i I. destruct (H2 i I) as [a [A S]]. exists a. split; [apply E, A | exact S]. Qed.
