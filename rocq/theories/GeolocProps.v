(** Properties of feature geolocation: C58, C59, C76. *)
Require Import Reals Lra Lia String List Bool Arith.
Require Import Verif.Base Verif.TileModel Verif.CoordModel Verif.CoordSpec Verif.RsmModel Verif.BuilderModel Verif.BuilderProofs Verif.ConfigModel Verif.ConfigProofs
  Verif.FeatureModel Verif.FeatureProps Verif.GeolocModel Verif.GeolocSpec Verif.GeolocProofs.
Import ListNotations.
Local Open Scope R_scope.

(** ** C58: structure *)
Theorem C58_structure : forall rnd grid g j, geolocate_image_geometry rnd grid g = Ok j <-> located rnd grid g j.
Proof. intros. apply geolocate_spec. Qed.
Theorem C58_total : forall rnd grid g, supported g -> (forall v, vertex_of g v -> is_ok (grid v)) -> exists j, geolocate_image_geometry rnd grid g = Ok j.
Proof. intros rnd grid g S H. destruct (located_total rnd grid g S H) as [j J]. exists j. apply geolocate_spec, J. Qed.
(** What is wrong, when something is: an empty point, a geometry of an unknown kind, or a vertex
    that cannot be located. *)
Inductive piece : Geom -> Geom -> Prop :=
| piece_itself g : piece g g
| piece_point ps p : In p ps -> piece (Point p) (MultiPoint ps)
| piece_member gs g h : In g gs -> piece h g -> piece h (GeometryCollection gs).
Theorem C58_errors : forall rnd grid g e, geolocate_image_geometry rnd grid g = Err e ->
  (e = IndexError /\ piece (Point None) g) \/ (e = ValueError /\ piece Unhandled g) \/ exists v, vertex_of g v /\ grid v = Err e.
Proof.
  intros rnd grid.
  assert (V : forall v, raises (fun e => grid v = Err e) (locate_vertex grid v)).
  { intros v. unfold locate_vertex. destruct (grid v) as [w|e0] eqn:G; cbn; [apply raises_ok|]. intros e [= <-]. reflexivity. }
  assert (W : forall {A} (P Q : exn -> Prop) (r : res A), raises P r -> (forall e, P e -> Q e) -> raises Q r).
  { intros A P Q r H I e E. apply I, H, E. }
  assert (B : forall {A B} (P : exn -> Prop) (r : res A) (k : A -> res B), raises P r -> (forall a, raises P (k a)) -> raises P (bind r k)).
  { intros A B P r k H I e E. destruct r as [a|e0]; cbn in E; [exact (I a e E) | apply H; congruence]. }
  assert (Y : forall {A} (P : exn -> Prop) (a : A), raises P (Ok a)) by (intros A P a e E; discriminate).
  assert (L : forall vs, raises (fun e => exists v, In v vs /\ grid v = Err e) (locate_line rnd grid vs)).
  { intros vs. unfold locate_line. apply B; [|intros; apply Y]. apply raises_map_res. intros v I. eapply W; [apply V|]. intros e E. exists v. split; assumption. }
  assert (PG : forall e0 is, raises (fun e => exists l v, In l (e0 :: is) /\ In v l /\ grid v = Err e) (locate_polygon rnd grid e0 is)).
  { intros e0 is. unfold locate_polygon. apply B.
    - eapply W; [apply L|]. intros e (v & I & E). exists e0, v. split; [now left|]. split; assumption.
    - intros b. apply B; [|intros; apply Y]. apply raises_map_res. intros l I. eapply W; [apply L|]. intros e (v & I' & E). exists l, v. split; [now right|]. split; assumption. }
  assert (P : forall p, raises (fun e => (e = IndexError /\ p = None) \/ exists v, p = Some v /\ grid v = Err e) (locate_point rnd grid p)).
  { intros [v|]; cbn [locate_point].
    - apply B; [|intros; apply Y]. eapply W; [apply V|]. intros e E. right. exists v. split; [reflexivity|exact E].
    - intros e [= <-]. left. split; reflexivity. }
  set (bad g e := (e = IndexError /\ piece (Point None) g) \/ (e = ValueError /\ piece Unhandled g) \/ exists v, vertex_of g v /\ grid v = Err e).
  enough (H : forall g, raises (bad g) (geolocate_image_geometry rnd grid g)) by (intros g e E; exact (H g e E)).
  apply geom_ind; cbn [geolocate_image_geometry].
  - intros p. apply B; [|intros; apply Y]. eapply W; [apply P|]. intros e [[-> ->]|(v & -> & E)]; [left; split; [reflexivity|constructor] | right; right; exists v; split; [constructor|exact E]].
  - intros vs. apply B; [|intros; apply Y]. eapply W; [apply L|]. intros e (v & I & E). right. right. exists v. split; [now constructor|exact E].
  - intros vs. apply B; [|intros; apply Y]. eapply W; [apply L|]. intros e (v & I & E). right. right. exists v. split; [now constructor|exact E].
  - intros e0 is. apply B; [|intros; apply Y]. eapply W; [apply PG|]. intros e (l & v & I & J & E). right. right. exists v. split; [econstructor; eassumption|exact E].
  - intros ps. apply B; [|intros; apply Y]. apply raises_map_res. intros p I. eapply W; [apply P|].
    intros e [[-> ->]|(v & -> & E)]; [left; split; [reflexivity|now constructor] | right; right; exists v; split; [now constructor|exact E]].
  - intros ls. apply B; [|intros; apply Y]. apply raises_map_res. intros l I. eapply W; [apply L|]. intros e (v & J & E). right. right. exists v. split; [econstructor; eassumption|exact E].
  - intros ps. apply B; [|intros; apply Y]. apply raises_map_res. intros p I. eapply W; [apply PG|]. intros e (l & v & J & K & E). right. right. exists v. split; [econstructor; eassumption|exact E].
  - intros gs F. apply B; [|intros; apply Y].
    assert (G : forall l, incl l gs -> raises (bad (GeometryCollection gs))
      ((fix go (l : list Geom) : res (list Json) :=
          match l with [] => Ok [] | x :: r => do j <- geolocate_image_geometry rnd grid x; do js <- go r; Ok (j :: js) end) l)).
    { induction l as [|g l IH]; intros S; [apply Y|]. apply B.
      - rewrite Forall_forall in F. eapply W; [apply F, S; now left|]. assert (I : In g gs) by (apply S; now left).
        intros e [[-> H]|[[-> H]|(v & H & E)]]; [left|right; left|right; right; exists v]; (split; [try reflexivity; econstructor; eassumption|try (econstructor; eassumption); try exact E]).
      - intros j. apply B; [apply IH; intros x X; apply S; now right|intros; apply Y]. }
    apply G, incl_refl.
  - intros e [= <-]. right. left. split; [reflexivity|constructor].
Qed.
Theorem C58_unusable : forall rnd grid, geolocate_image_geometry rnd grid (Point None) = Err IndexError /\ geolocate_image_geometry rnd grid Unhandled = Err ValueError.
Proof. split; reflexivity. Qed.


Section Feature.
Variable sh : Shapely Geom.
Variable allow : bool.
Variable centroid : Geom -> Vertex.
Variable rnd : R -> R.

Lemma get_put_other (d : Dict Json) k v k' : k' <> k -> get (put d k v) k' = get d k'.
Proof. intros N. rewrite get_put. apply String.eqb_neq in N. rewrite N. reflexivity. Qed.
Lemma get_put_same (d : Dict Json) k v : get (put d k v) k = Some v.
Proof. rewrite get_put, String.eqb_refl. reflexivity. Qed.
Lemma same_refl f : same_but_location f f.
Proof. split; intros; reflexivity. Qed.
Lemma same_trans f g h : same_but_location f g -> same_but_location g h -> same_but_location f h.
Proof. intros [A B] [C D]. split; intros k K L; [rewrite C, A by assumption | rewrite D, B by assumption]; reflexivity. Qed.
Lemma same_bbox f v : same_but_location f (mkFeature (put (members f) "bbox" v) (properties f)).
Proof. split; intros k K L; [apply get_put_other, K | reflexivity]. Qed.
Lemma same_geometry f v : same_but_location f (mkFeature (put (members f) "geometry" v) (properties f)).
Proof. split; intros k K L; [apply get_put_other, L | reflexivity]. Qed.

Section Grid.
Variable grid : Vertex -> res Geodetic.
Lemma center_same f v : same_but_location f (fst (locate_center grid f v)).
Proof. unfold locate_center. destruct (grid v) as [w|e]; cbn [fst]; [|apply same_refl]. split; intros k K L; [reflexivity | cbn [properties]; rewrite !get_put_other by assumption; reflexivity]. Qed.
Lemma geometry_same f g : same_but_location f (fst (locate_geometry centroid rnd grid f g)).
Proof. unfold locate_geometry. destruct (geolocate_image_geometry rnd grid g) as [j|e]; [|apply same_refl]. eapply same_trans; [apply same_geometry | apply center_same]. Qed.
Lemma bbox_same f g f' v : locate_bbox sh grid f g = Ok (f', v) -> same_but_location f f' /\ properties f' = properties f.
Proof.
  unfold locate_bbox. destruct (bounds sh g) as [[[x0 y0] x1] y1]. intros H.
  apply bind_ok in H as [a [_ H]]. apply bind_ok in H as [b [_ H]]. apply bind_ok in H as [c [_ H]]. apply bind_ok in H as [d [_ H]].
  injection H as <- _. split; [apply same_bbox | reflexivity].
Qed.
Lemma feature_same f : same_but_location f (fst (locate_feature sh allow centroid rnd grid f)).
Proof.
  unfold locate_feature. destruct (get_image_bbox sh (properties f)) as [[b|]|e]; [| |apply same_refl].
  - destruct (locate_bbox sh grid f b) as [[f1 c]|e] eqn:B; [|apply same_refl]. destruct (bbox_same _ _ _ _ B) as [S _].
    destruct (get_image_geometry sh (properties f)) as [[g|]|e]; (eapply same_trans; [exact S|]); [apply geometry_same | apply center_same | apply same_refl].
  - destruct (get_image_geometry sh (properties f)) as [[g|]|e]; [apply geometry_same | | apply same_refl].
    destruct (find_image_geometry sh allow (properties f)) as [[g|]|e]; [apply geometry_same | apply same_refl | apply same_refl].
Qed.

(** Only the location changes, also when geolocation raises. *)
Lemma features_same fs : forall fs' r, locate_features sh allow centroid rnd grid fs = (fs', r) -> Forall2 same_but_location fs fs'.
Proof.
  induction fs as [|f fs IH]; intros fs' r H; cbn [locate_features] in H; [injection H as <- _; constructor|].
  pose proof (feature_same f) as S. destruct (locate_feature sh allow centroid rnd grid f) as [f' x]. cbn [fst] in S. destruct x as [u|e].
  - destruct (locate_features sh allow centroid rnd grid fs) as [r' y]. injection H as <- _. constructor; [exact S | eapply IH; reflexivity].
  - injection H as <- _. constructor; [exact S|]. clear. induction fs; constructor; [apply same_refl | assumption].
Qed.

Lemma center_ok f v f' : locate_center grid f v = (f', Ok tt) -> members f' = members f /\ centered grid f' v /\ same_but_location f f'.
Proof.
  intros H. pose proof (center_same f v) as S. rewrite H in S. cbn [fst] in S. unfold locate_center in H. destruct (grid v) as [w|e] eqn:W; [|discriminate].
  injection H as <-. split; [reflexivity|]. split; [|exact S]. exists w. split; [exact W|]. cbn [properties]. split; [rewrite get_put_other by discriminate; apply get_put_same | apply get_put_same].
Qed.
Lemma geometry_ok f g f' : locate_geometry centroid rnd grid f g = (f', Ok tt) ->
  (forall k, k <> "geometry"%string -> get (members f') k = get (members f) k) /\ (exists j, located rnd grid g j /\ get (members f') "geometry" = Some j) /\ centered grid f' (centroid g).
Proof.
  unfold locate_geometry. destruct (geolocate_image_geometry rnd grid g) as [j|e] eqn:J; [|discriminate]. intros H.
  apply center_ok in H as (M & C & _). rewrite M. cbn [members]. split; [intros k K; apply get_put_other, K|]. split; [|exact C].
  exists j. split; [apply geolocate_spec, J | apply get_put_same].
Qed.
Lemma corner_box v c : locate_vertex grid v = Ok c -> point_box grid v (fst (fst c), snd (fst c), fst (fst c), snd (fst c)).
Proof. unfold locate_vertex. intros H. apply bind_ok1 in H as [w [W ->]]. exists w. split; [exact W | reflexivity]. Qed.
Lemma bbox_ok f g f1 v : locate_bbox sh grid f g = Ok (f1, v) ->
  (forall c, corner_of (bounds sh g) c -> exists pb, point_box grid c pb)
  /\ (exists b, hull_of (fun pb => exists c, corner_of (bounds sh g) c /\ point_box grid c pb) b /\ get (members f1) "bbox" = Some (json_of_box b))
  /\ (forall k, k <> "bbox"%string -> get (members f1) k = get (members f) k) /\ properties f1 = properties f
  /\ let '(x0, y0, x1, y1) := bounds sh g in v = ((x0 + x1) / 2, (y0 + y1) / 2).
Proof.
  unfold locate_bbox. destruct (bounds sh g) as [[[x0 y0] x1] y1]. intros H.
  apply bind_ok in H as [a [A H]]. apply bind_ok in H as [b [B H]]. apply bind_ok in H as [c [C H]]. apply bind_ok in H as [d [D H]].
  injection H as <- <-. apply corner_box in A, B, C, D. split; [|split; [|split; [|split; reflexivity]]].
  - intros p [-> | [-> | [-> | ->]]]; eexists; eassumption.
  - exists (points_bounds a [b; c; d]). split; [|apply get_put_same]. eapply hull_ext; [|apply points_bounds_spec]. intros pb. cbn [In].
    assert (U : forall v p q, point_box grid v p -> point_box grid v q -> p = q) by (intros v p q [w [W ->]] [w' [W' ->]]; rewrite W in W'; injection W' as <-; reflexivity).
    split.
    + intros (q & [<- | [<- | [<- | [<- | []]]]] & ->); eexists; (split; [|eassumption]); cbn; tauto.
    + intros (p & [-> | [-> | [-> | ->]]] & Q); eexists; (split; [|eapply U; [exact Q | eassumption]]); tauto.
  - intros k K. apply get_put_other, K.
Qed.

Theorem C58_feature : forall f f', locate_feature sh allow centroid rnd grid f = (f', Ok tt) -> feature_located sh allow centroid rnd grid f f'.
Proof.
  intros f f' H. pose proof (feature_same f) as S. rewrite H in S. cbn [fst] in S. split; [exact S|].
  unfold locate_feature in H. unfold source. unfold get_image_bbox in H. unfold get_image_geometry in H.
  destruct (get (properties f) "imageBBox") as [vb|].
  - destruct (box_of sh vb) as [gb|e] eqn:Bx; [|discriminate]. cbn [bind] in H.
    destruct (locate_bbox sh grid f gb) as [[f1 c]|e] eqn:B; [|discriminate]. destruct (bbox_ok _ _ _ _ B) as (B1 & (b & B2 & B3) & B4 & B5 & B6).
    destruct (get (properties f) "imageGeometry") as [vg|].
    + destruct (shape sh vg) as [g|e]; [|discriminate]. cbn [bind] in H. destruct (geometry_ok _ _ _ H) as (G1 & G2 & G3). split.
      * exists gb, b. do 3 (split; [assumption || reflexivity|]). rewrite G1 by discriminate. exact B3.
      * exists (Some g). split; [reflexivity|]. split; [exact G2 | exact G3].
    + destruct (center_ok _ _ _ H) as (M & C & _). split.
      * exists gb, b. do 3 (split; [assumption || reflexivity|]). rewrite M. exact B3.
      * exists None. split; [reflexivity|]. split; [rewrite M; apply B4; discriminate|]. intros g E. injection E as <-.
        destruct (bounds sh gb) as [[[x0 y0] x1] y1]. rewrite <- B6. exact C.
  - destruct (get (properties f) "imageGeometry") as [vg|] eqn:Ig.
    + destruct (shape sh vg) as [g|e]; [|discriminate]. cbn [bind] in H. destruct (geometry_ok _ _ _ H) as (G1 & G2 & G3). split; [apply G1; discriminate|].
      exists (Some g). split; [reflexivity|]. split; assumption.
    + destruct (find_image_geometry sh allow (properties f)) as [[g|]|e]; [| |discriminate].
      * destruct (geometry_ok _ _ _ H) as (G1 & G2 & G3). split; [apply G1; discriminate|]. exists (Some g). split; [reflexivity|]. split; assumption.
      * injection H as <-. split; [reflexivity|]. exists None. repeat split.
Qed.
Theorem C58_untouched : forall f, find_image_geometry sh allow (properties f) = Ok None -> locate_feature sh allow centroid rnd grid f = (f, Ok tt).
Proof.
  intros f F. pose proof F as N. apply C56_none in N as (N1 & N2 & _). apply absent_get in N1, N2.
  unfold locate_feature, get_image_bbox, get_image_geometry. rewrite N1, N2, F. reflexivity.
Qed.
(** In order; the first failure leaves the later features as they were. *)
Theorem C58_order : forall fs fs' r, locate_features sh allow centroid rnd grid fs = (fs', r) ->
  match r with
  | Ok _ => Forall2 (feature_located sh allow centroid rnd grid) fs fs'
  | Err e => exists done done' f f' rest, fs = done ++ f :: rest /\ fs' = done' ++ f' :: rest
               /\ Forall2 (feature_located sh allow centroid rnd grid) done done' /\ locate_feature sh allow centroid rnd grid f = (f', Err e)
  end.
Proof.
  induction fs as [|f fs IH]; intros fs' r H; cbn [locate_features] in H; [injection H as <- <-; constructor|].
  destruct (locate_feature sh allow centroid rnd grid f) as [f' [[]|e]] eqn:F.
  - destruct (locate_features sh allow centroid rnd grid fs) as [r' y] eqn:L. injection H as <- <-. specialize (IH _ _ eq_refl). destruct y as [u|e].
    + constructor; [apply C58_feature, F | exact IH].
    + destruct IH as (d & d' & g & g' & rest & -> & -> & D & G). exists (f :: d), (f' :: d'), g, g', rest. split; [reflexivity|]. split; [reflexivity|].
      split; [constructor; [apply C58_feature, F | exact D] | exact G].
  - injection H as <- <-. exists [], [], f, f', fs. repeat split; [constructor | exact F].
Qed.
End Grid.

(** ** The whole call *)
Section Call.
Variable i2w : Vertex -> res Geodetic.
Variable spline : list R -> list R -> list (list R) -> res (R -> R -> R).
Variable set_elevation : option (Geodetic -> res Geodetic).
Variable nan_grid : exn.
Notation call := (geolocate_features sh allow centroid rnd i2w spline set_elevation nan_grid).

Theorem C58_frame : forall n fs fs' r, call n fs = (fs', r) -> Forall2 same_but_location fs fs'.
Proof.
  assert (Z : forall fs, Forall2 same_but_location fs fs) by (induction fs; constructor; [apply same_refl | assumption]).
  intros n fs fs' r H. unfold geolocate_features in H. destruct fs as [|f fs]; [injection H as <- _; constructor|].
  destruct (feature_bounds sh allow None (f :: fs)) as [[[[[x0 y0] x1] y1]|]|e]; [|injection H as <- _; apply Z | injection H as <- _; apply Z].
  destruct (location_grid _ _ _ _ _ _ _ _) as [grid|e]; [|injection H as <- _; apply Z]. eapply features_same; exact H.
Qed.
(** Success means that one grid was used for every feature. *)
Theorem C58_call : forall n fs fs', call n fs = (fs', Ok tt) -> fs <> [] -> exists grid, Forall2 (feature_located sh allow centroid rnd grid) fs fs'.
Proof.
  intros n fs fs' H N. unfold geolocate_features in H. destruct fs as [|f fs]; [contradiction|].
  destruct (feature_bounds sh allow None (f :: fs)) as [[[[[x0 y0] x1] y1]|]|e]; [|discriminate|discriminate].
  destruct (location_grid _ _ _ _ _ _ _ _) as [grid|e]; [|discriminate]. exists grid. exact (C58_order grid _ _ _ H).
Qed.

(** ** C59: extent of the grid *)
Theorem C59_extent : forall fs b, feature_bounds sh allow None fs = Ok (Some b) ->
  hull_of (fun a => exists f g, In f fs /\ find_image_geometry sh allow (properties f) = Ok (Some g) /\ a = bounds sh g) b.
Proof.
  intros fs b H. destruct (feature_bounds_spec sh allow fs None _ H) as (_ & _ & C & T). split.
  - intros a (f & g & I & F & ->). apply (C f g I F).
  - intros i I. destruct (T i I) as [[a [E _]] | (f & g & If & F & S)]; [discriminate|]. exists (bounds sh g). split; [exists f, g; auto | auto].
Qed.
(** No geometry at all: the call raises and changes nothing. *)
Theorem C59_no_geometry : forall n fs, fs <> [] -> (forall f, In f fs -> find_image_geometry sh allow (properties f) = Ok None) -> call n fs = (fs, Err nan_grid).
Proof.
  intros n fs N H. assert (E : feature_bounds sh allow None fs = Ok None).
  { clear N. induction fs as [|f fs IH]; [reflexivity|]. cbn [feature_bounds]. rewrite (H f (or_introl eq_refl)). cbn [bind]. apply IH. intros f' I. apply H. right. exact I. }
  unfold geolocate_features. destruct fs as [|f fs]; [contradiction|]. rewrite E. reflexivity.
Qed.
(** A grid of fewer than two points per side: the call raises and changes nothing. *)
Theorem C59_small_grid : forall n fs, spline_law spline -> (n < 2)%nat -> fs <> [] -> exists e, call n fs = (fs, Err e).
Proof.
  intros n fs [_ Law] N F. unfold geolocate_features. destruct fs as [|f fs]; [contradiction|].
  destruct (feature_bounds sh allow None (f :: fs)) as [[[[[x0 y0] x1] y1]|]|e]; [|eexists; reflexivity|eexists; reflexivity].
  unfold location_grid. destruct (correspondences _ _ _) as [ws|e]; [|eexists; reflexivity]. cbn [bind].
  match goal with |- context [spline ?xs ?ys ?z] => destruct (Law xs ys z) as [e E]; [left; rewrite linspace_length; exact N|]; rewrite E end. eexists; reflexivity.
Qed.

(** The grid built over an area: every location in the area is interpolated from the corners of a
    cell that contains it, and one outside like the nearest location of the area; the elevation
    model then replaces the elevation. *)
Theorem C59_cells : forall ulx uly w h n, spline_law spline -> (2 <= n)%nat -> 0 < w -> 0 < h ->
  (forall v, ulx <= fst v <= ulx + w -> uly <= snd v <= uly + h -> is_ok (i2w v)) ->
  exists grid, location_grid i2w spline set_elevation ulx uly w h n = Ok grid
  /\ (forall v, grid v = grid (clamp ulx (ulx + w) (fst v), clamp uly (uly + h) (snd v)))
  /\ forall v, ulx <= fst v <= ulx + w -> uly <= snd v <= uly + h ->
       exists x0 x1 y0 y1 w00 w01 w10 w11,
         part_of ulx (ulx + w) n (fst v) x0 x1 /\ part_of uly (uly + h) n (snd v) y0 y1
         /\ i2w (x0, y0) = Ok w00 /\ i2w (x0, y1) = Ok w01 /\ i2w (x1, y0) = Ok w10 /\ i2w (x1, y1) = Ok w11
         /\ let at_v := fun f : Geodetic -> R => bilinear x0 x1 y0 y1 (f w00) (f w01) (f w10) (f w11) (fst v) (snd v) in
            let at_grid := mkGeo (at_v longitude) (at_v latitude) (at_v elevation) in
            grid v = match set_elevation with None => Ok at_grid | Some set => set at_grid end.
Proof using i2w spline set_elevation. clear nan_grid rnd centroid allow sh.
  intros ulx uly w h n [Law _] N W H Total. unfold location_grid.
  assert (AX : ulx < ulx + w) by lra. assert (AY : uly < uly + h) by lra. set (bx := ulx + w) in *. set (by_ := uly + h) in *.
  set (xs := linspace ulx bx n). set (ys := linspace uly by_ n).
  assert (RX : forall a b i, a < b -> (i < n)%nat -> a <= a + INR i * ((b - a) / INR (n - 1)) <= b).
  { intros a b i AB I. assert (P : 0 < INR (n - 1)) by (apply lt_0_INR; lia). assert (L : INR i <= INR (n - 1)) by (apply le_INR; lia). pose proof (pos_INR i).
    assert (Q : 0 <= INR i / INR (n - 1) <= 1) by (split; [apply Rmult_le_pos; [assumption | apply Rlt_le, Rinv_0_lt_compat, P] | apply Rmult_le_reg_r with (INR (n - 1)); [exact P|]; unfold Rdiv; rewrite Rmult_assoc, Rinv_l by lra; lra]).
    replace (INR i * ((b - a) / INR (n - 1))) with (INR i / INR (n - 1) * (b - a)) by (unfold Rdiv; ring). split; nra. }
  assert (NX : forall i x, nth_error xs i = Some x -> ulx <= x <= bx).
  { intros i x E. assert (I : (i < n)%nat) by (rewrite <- (linspace_length ulx bx n); apply nth_error_Some; fold xs; congruence).
    unfold xs in E. rewrite linspace_nth in E by lia. replace x with (ulx + INR i * ((bx - ulx) / INR (n - 1))) by congruence. apply RX; assumption. }
  assert (NY : forall i x, nth_error ys i = Some x -> uly <= x <= by_).
  { intros i x E. assert (I : (i < n)%nat) by (rewrite <- (linspace_length uly by_ n); apply nth_error_Some; fold ys; congruence).
    unfold ys in E. rewrite linspace_nth in E by lia. replace x with (uly + INR i * ((by_ - uly) / INR (n - 1))) by congruence. apply RX; assumption. }
  assert (C : exists ws, correspondences i2w xs ys = Ok ws).
  { unfold correspondences. apply map_res_total. intros x Ix. destruct (map_res_total (fun y => i2w (x, y)) ys) as [row Row].
    - intros y Iy. apply In_nth_error in Ix as [i Ix]. apply In_nth_error in Iy as [j Iy]. apply Total; [apply (NX i x Ix) | apply (NY j y Iy)].
    - exists row. exact Row. }
  destruct C as [ws C]. cbv zeta. fold xs ys. rewrite C. cbn [bind]. destruct (correspondences_nth _ _ _ _ C) as (LW & LR & Node).
  assert (LX : List.length xs = n) by apply linspace_length. assert (LY : List.length ys = n) by apply linspace_length.
  assert (Sp : forall f : Geodetic -> R, exists s, spline xs ys (List.map (List.map f) ws) = Ok s /\ interpolates xs ys (List.map (List.map f) ws) s /\ clamped xs ys s).
  { intros f. destruct (Law xs ys (List.map (List.map f) ws)) as (s & E & In & Cl).
    - apply linspace_increasing; assumption.
    - apply linspace_increasing; assumption.
    - rewrite LX; exact N.
    - rewrite LY; exact N.
    - rewrite map_length. exact LW.
    - apply Forall_forall. intros row I. apply in_map_iff in I as [r [<- I]]. rewrite map_length. rewrite Forall_forall in LR. apply LR, I.
    - exists s. split; [|split]; assumption. }
  destruct (Sp longitude) as (lo & Elo & Ilo & Clo). destruct (Sp latitude) as (la & Ela & Ila & Cla). destruct (Sp elevation) as (el & Eel & Iel & Cel).
  rewrite Elo, Ela, Eel. cbn [bind]. eexists. split; [reflexivity|]. split.
  { intros v. cbn [fst snd]. unfold clamped in Clo, Cla, Cel. unfold xs, ys in Clo, Cla, Cel. rewrite !linspace_hd, !linspace_last in Clo, Cla, Cel by exact N.
    rewrite <- Clo, <- Cla, <- Cel. reflexivity. }
  intros v VX VY. destruct (part_exists ulx bx n (fst v) AX N VX) as (x0 & x1 & PX). destruct (part_exists uly by_ n (snd v) AY N VY) as (y0 & y1 & PY).
  pose proof PX as [(i & Ii & X0 & X1) BX]. pose proof PY as [(j & Ij & Y0 & Y1) BY].
  assert (X0n : nth_error xs i = Some x0) by (rewrite X0; apply linspace_nth; lia). assert (X1n : nth_error xs (S i) = Some x1) by (rewrite X1; apply linspace_nth; lia).
  assert (Y0n : nth_error ys j = Some y0) by (rewrite Y0; apply linspace_nth; lia). assert (Y1n : nth_error ys (S j) = Some y1) by (rewrite Y1; apply linspace_nth; lia).
  destruct (Node i j x0 y0 X0n Y0n) as (r00 & w00 & R00 & V00 & W00). destruct (Node i (S j) x0 y1 X0n Y1n) as (r01 & w01 & R01 & V01 & W01).
  destruct (Node (S i) j x1 y0 X1n Y0n) as (r10 & w10 & R10 & V10 & W10). destruct (Node (S i) (S j) x1 y1 X1n Y1n) as (r11 & w11 & R11 & V11 & W11).
  exists x0, x1, y0, y1, w00, w01, w10, w11. do 6 (split; [assumption|]). cbv zeta.
  rewrite (Ilo i j x0 x1 y0 y1 (longitude w00) (longitude w01) (longitude w10) (longitude w11)) by (first [assumption | (eapply value_map; [exact R00 | exact V00]) | (eapply value_map; [exact R01 | exact V01]) | (eapply value_map; [exact R10 | exact V10]) | (eapply value_map; [exact R11 | exact V11])]).
  rewrite (Ila i j x0 x1 y0 y1 (latitude w00) (latitude w01) (latitude w10) (latitude w11)) by (first [assumption | (eapply value_map; [exact R00 | exact V00]) | (eapply value_map; [exact R01 | exact V01]) | (eapply value_map; [exact R10 | exact V10]) | (eapply value_map; [exact R11 | exact V11])]).
  rewrite (Iel i j x0 x1 y0 y1 (elevation w00) (elevation w01) (elevation w10) (elevation w11)) by (first [assumption | (eapply value_map; [exact R00 | exact V00]) | (eapply value_map; [exact R01 | exact V01]) | (eapply value_map; [exact R10 | exact V10]) | (eapply value_map; [exact R11 | exact V11])]).
  reflexivity.
Qed.

(** The area has a margin of ten pixels around the extent. *)
Theorem C59_area : forall n fs x0 y0 x1 y1, feature_bounds sh allow None fs = Ok (Some (x0, y0, x1, y1)) ->
  call n fs = match location_grid i2w spline set_elevation (x0 - 10) (y0 - 10) (x1 - x0 + 20) (y1 - y0 + 20) n with
              | Err e => (fs, Err e)
              | Ok grid => locate_features sh allow centroid rnd grid fs
              end.
Proof.
  intros n fs x0 y0 x1 y1 H. unfold geolocate_features. destruct fs as [|f fs]; [discriminate|]. rewrite H. cbv zeta.
  replace (x1 + 10 - (x0 - 10)) with (x1 - x0 + 20) by ring. replace (y1 + 10 - (y0 - 10)) with (y1 - y0 + 20) by ring. reflexivity.
Qed.

(** ** C76: accuracy of interpolated locations *)
(** How far the world location may be from that of [v] when the image location is less than one
    cell away from [v]. *)
Definition varies (v : Vertex) (dx dy : R) (f : Geodetic -> R) (c e : R) : Prop :=
  forall v' w', Rabs (fst v' - fst v) <= dx -> Rabs (snd v' - snd v) <= dy -> i2w v' = Ok w' -> Rabs (f w' - c) <= e.
Theorem C76_error_bound : forall n fs fs' r, call n fs = (fs', r) -> spline_law spline -> set_elevation = None -> (2 <= n)%nat -> fs <> [] ->
  (forall f g, In f fs -> find_image_geometry sh allow (properties f) = Ok (Some g) -> let '(x0, y0, x1, y1) := bounds sh g in x0 <= x1 /\ y0 <= y1) ->
  (exists f g, In f fs /\ find_image_geometry sh allow (properties f) = Ok (Some g)) -> (forall f, In f fs -> is_ok (find_image_geometry sh allow (properties f))) ->
  (forall v, is_ok (i2w v)) ->
  exists grid b, (fs', r) = locate_features sh allow centroid rnd grid fs
  /\ hull_of (fun a => exists f g, In f fs /\ find_image_geometry sh allow (properties f) = Ok (Some g) /\ a = bounds sh g) b
  /\ forall v, in_box v b -> exists w, grid v = Ok w /\
       let '(x0, y0, x1, y1) := b in
       forall f c e, In f [longitude; latitude; elevation] -> varies v ((x1 - x0 + 20) / INR (n - 1)) ((y1 - y0 + 20) / INR (n - 1)) f c e -> Rabs (f w - c) <= e.
Proof.
  intros n fs fs' r H Law SE N NE Ordered (f0 & g0 & I0 & F0) Finds Total.
  assert (FB : exists b, feature_bounds sh allow None fs = Ok (Some b)).
  { assert (X : forall l acc, (forall f, In f l -> is_ok (find_image_geometry sh allow (properties f))) -> exists o, feature_bounds sh allow acc l = Ok o).
    { induction l as [|f l IH]; intros acc K; [exists acc; reflexivity|]. cbn [feature_bounds]. destruct (K f (or_introl eq_refl)) as [og ->]. cbn [bind].
      destruct og; apply IH; intros f' I; apply K; right; exact I. }
    destruct (X fs None Finds) as [[b|] E]; [exists b; exact E|]. destruct (feature_bounds_spec sh allow fs None _ E) as (_ & _ & Q). destruct (Q f0 g0 I0 F0). }
  destruct FB as [[[[x0 y0] x1] y1] FB]. pose proof (C59_extent _ _ FB) as Hull.
  assert (O : x0 <= x1 /\ y0 <= y1).
  { destruct Hull as [Hin _]. specialize (Hin (bounds sh g0) (ex_intro _ f0 (ex_intro _ g0 (conj I0 (conj F0 eq_refl))))). specialize (Ordered f0 g0 I0 F0).
    destruct (bounds sh g0) as [[[a0 a1] a2] a3]. cbn in Hin. lra. }
  rewrite (C59_area _ _ _ _ _ _ FB) in H.
  destruct (C59_cells (x0 - 10) (y0 - 10) (x1 - x0 + 20) (y1 - y0 + 20) n Law N) as (grid & G & _ & Cell); [lra | lra | intros v _ _; apply Total |].
  rewrite G in H. exists grid, (x0, y0, x1, y1). split; [congruence|]. split; [exact Hull|].
  intros v B. unfold in_box in B. destruct (Cell v) as (a0 & a1 & b0 & b1 & w00 & w01 & w10 & w11 & PX & PY & E00 & E01 & E10 & E11 & Gv); [lra | lra |].
  cbv zeta in Gv. rewrite SE in Gv. eexists. split; [exact Gv|]. intros f c e Fin V.
  assert (Dm : forall a b x lo hi, part_of a b n x lo hi -> a < b -> lo < hi /\ lo <= x <= hi /\ Rabs (lo - x) <= (b - a) / INR (n - 1) /\ Rabs (hi - x) <= (b - a) / INR (n - 1)).
  { clear - N. intros a b x lo hi [(i & Ii & L & Hh) X] AB. assert (P : 0 < INR (n - 1)) by (apply lt_0_INR; lia).
    assert (Q : 0 < (b - a) / INR (n - 1)) by (apply Rdiv_lt_0_compat; lra). rewrite S_INR in Hh. set (s := (b - a) / INR (n - 1)) in *.
    assert (hi = lo + s) by lra. split; [lra|]. split; [exact X|]. split; apply Rabs_le; lra. }
  destruct (Dm _ _ _ _ _ PX ltac:(lra)) as (LX & RX & DX0 & DX1). destruct (Dm _ _ _ _ _ PY ltac:(lra)) as (LY & RY & DY0 & DY1).
  replace (x0 - 10 + (x1 - x0 + 20) - (x0 - 10)) with (x1 - x0 + 20) in DX0, DX1 by ring. replace (y0 - 10 + (y1 - y0 + 20) - (y0 - 10)) with (y1 - y0 + 20) in DY0, DY1 by ring.
  assert (K : Rabs (bilinear a0 a1 b0 b1 (f w00) (f w01) (f w10) (f w11) (fst v) (snd v) - c) <= e).
  { apply bilinear_near; try assumption; [apply (V (a0, b0)) | apply (V (a0, b1)) | apply (V (a1, b0)) | apply (V (a1, b1))]; assumption. }
  destruct Fin as [<- | [<- | [<- | []]]]; exact K.
Qed.

(** A sensor model that is affine over the area is reproduced exactly. *)
Theorem C76_affine_exact : forall ulx uly w h n a b c a' b' c' a'' b'' c'', spline_law spline -> set_elevation = None -> (2 <= n)%nat -> 0 < w -> 0 < h ->
  (forall x y, i2w (x, y) = Ok (mkGeo (a + b * x + c * y) (a' + b' * x + c' * y) (a'' + b'' * x + c'' * y))) ->
  exists grid, location_grid i2w spline set_elevation ulx uly w h n = Ok grid
  /\ forall v, ulx <= fst v <= ulx + w -> uly <= snd v <= uly + h -> grid v = i2w v.
Proof using i2w spline set_elevation. clear nan_grid rnd centroid allow sh.
  intros ulx uly w h n a b c a' b' c' a'' b'' c'' Law SE N W Hh Aff.
  destruct (C59_cells ulx uly w h n Law N W Hh) as (grid & G & _ & Cell); [intros [x y] _ _; eexists; apply Aff|].
  exists grid. split; [exact G|]. intros [x y] X Y. destruct (Cell _ X Y) as (x0 & x1 & y0 & y1 & w00 & w01 & w10 & w11 & PX & PY & E00 & E01 & E10 & E11 & Gv).
  cbv zeta in Gv. rewrite SE in Gv. rewrite Aff in E00, E01, E10, E11. injection E00 as <-. injection E01 as <-. injection E10 as <-. injection E11 as <-.
  cbn [longitude latitude elevation fst snd] in Gv.
  assert (Dm : forall p q t lo hi, part_of p q n t lo hi -> p < q -> lo < hi).
  { clear - N. intros p q t lo hi [(i & Ii & L & Hh) X] AB. assert (P : 0 < INR (n - 1)) by (apply lt_0_INR; lia).
    assert (Q : 0 < (q - p) / INR (n - 1)) by (apply Rdiv_lt_0_compat; lra). rewrite S_INR in Hh. set (s := (q - p) / INR (n - 1)) in *. lra. }
  pose proof (Dm _ _ _ _ _ PX ltac:(lra)). pose proof (Dm _ _ _ _ _ PY ltac:(lra)).
  rewrite !bilinear_affine in Gv by assumption. rewrite Gv, Aff. reflexivity.
Qed.
End Call.
End Feature.

(** The law of the interpolator can be met. *)
Example C59_law_non_vacuous : spline_law lin_spline.
Proof. exact lin_spline_law. Qed.

(** *** A toy shapely: a box is a line between its corners *)
Definition toy_bounds (g : Geom) : Box :=
  match g with
  | Point (Some v) => (fst v, snd v, fst v, snd v)
  | LineString (a :: b :: _) => (fst a, snd a, fst b, snd b)
  | _ => (0, 0, 0, 0)
  end.
Definition toy_geom : Shapely Geom := mkShapely Geom
  (fun v => match v with JNum x => Ok (Point (Some (x, x))) | _ => Err ValueError end) (fun _ => Err ValueError)
  (fun b => let '(x0, y0, x1, y1) := b in LineString [(x0, y0); (x1, y1)]) (fun _ => JNull) (fun _ => ""%string) (fun _ => Err KeyError) (fun _ => false) toy_bounds.
Definition plane (v : Vertex) : res Geodetic := Ok (mkGeo (fst v) (snd v) 0).

(** The corners of an "imageBBox" need not be in the grid: with an "imageGeometry" only the extent of
    the latter is used. *)
Theorem C59_bbox_refuted :
  ~ (forall fs f v g x0 y0 x1 y1, feature_bounds toy_geom true None fs = Ok (Some (x0, y0, x1, y1)) -> In f fs ->
       get (properties f) "imageBBox" = Some v -> box_of toy_geom v = Ok g -> within (bounds toy_geom g) (x0 - 10, y0 - 10, x1 + 10, y1 + 10)).
Proof.
  intros H. set (f := mkFeature [] [("imageGeometry"%string, JNum 0); ("imageBBox"%string, JArr [JNum (-100); JNum (-100); JNum 100; JNum 100])]).
  specialize (H [f] f (JArr [JNum (-100); JNum (-100); JNum 100; JNum 100]) (LineString [(-100, -100); (100, 100)]) 0 0 0 0 eq_refl (or_introl eq_refl) eq_refl eq_refl).
  cbn in H. lra.
Qed.
(** What then happens to a corner: for the identity sensor model a corner at (100, 100) is given the
    location of (10, 10). *)
Theorem C59_bbox_clamped : forall spline n, spline_law spline -> (2 <= n)%nat ->
  exists grid, location_grid plane spline None (0 - 10) (0 - 10) 20 20 n = Ok grid /\ grid (100, 100) = Ok (mkGeo 10 10 0).
Proof.
  intros spline n Law N.
  destruct (C59_cells plane spline None (0 - 10) (0 - 10) 20 20 n Law N) as (grid & G & Cl & _); [lra | lra | intros v _ _; eexists; reflexivity |].
  destruct (C76_affine_exact plane spline None (0 - 10) (0 - 10) 20 20 n 0 1 0 0 0 1 0 0 0 Law eq_refl N) as (grid' & G' & Ex); [lra | lra | |].
  { intros x y. unfold plane. cbn [fst snd]. f_equal. f_equal; ring. }
  assert (grid' = grid) by congruence. subst grid'. exists grid. split; [exact G|]. rewrite Cl. cbn [fst snd].
  assert (E : clamp (0 - 10) (0 - 10 + 20) 100 = 10) by (unfold clamp, Rmax, Rmin; destruct (Rle_dec (0 - 10 + 20) 100); destruct (Rle_dec _ _); lra).
  rewrite E. rewrite Ex by (cbn [fst snd]; lra). reflexivity.
Qed.

(** A scene across the antimeridian: longitudes near 180 and -180 degrees are averaged to something
    near 0, half a turn away. *)
Definition turn_apart (a b e : R) : Prop := exists k : Z, Rabs (a - b + 2 * PI * IZR k) <= e.
Definition across (v : Vertex) : res Geodetic := Ok (mkGeo (if Rlt_dec (fst v) 1 then PI - 1 / 10 else - PI + 1 / 10) 0 0).
Theorem C76_antimeridian_refuted :
  ~ (forall i2w ulx uly w h n grid v wv e, (2 <= n)%nat -> 0 < w -> 0 < h ->
       location_grid i2w lin_spline None ulx uly w h n = Ok grid -> ulx <= fst v <= ulx + w -> uly <= snd v <= uly + h -> i2w v = Ok wv ->
       (forall v' w', i2w v' = Ok w' -> turn_apart (longitude w') (longitude wv) e) ->
       exists w', grid v = Ok w' /\ turn_apart (longitude w') (longitude wv) e).
Proof.
  intros H.
  destruct (C59_cells across lin_spline None 0 0 2 2 2 lin_spline_law) as (grid & G & _ & Cell); [lia | lra | lra | intros v _ _; eexists; reflexivity |].
  destruct (H across 0 0 2 2 2%nat grid (1, 0) (mkGeo (- PI + 1 / 10) 0 0) (1 / 5)) as (w' & Gw & [k K]); try assumption; try (cbn [fst snd]; lra); try lia.
  - unfold across. cbn [fst]. destruct (Rlt_dec 1 1); [lra | reflexivity].
  - intros v' w' E. unfold across in E. injection E as <-. cbn [longitude]. destruct (Rlt_dec (fst v') 1).
    + exists (-1)%Z. replace (PI - 1 / 10 - (- PI + 1 / 10) + 2 * PI * -1) with (- (1 / 5)) by (field; lra). rewrite Rabs_Ropp, Rabs_right; lra.
    + exists 0%Z. replace (- PI + 1 / 10 - (- PI + 1 / 10) + 2 * PI * 0) with 0 by ring. rewrite Rabs_R0. lra.
  - destruct (Cell (1, 0)) as (x0 & x1 & y0 & y1 & w00 & w01 & w10 & w11 & PX & PY & E00 & E01 & E10 & E11 & Gv); [cbn; lra | cbn; lra |].
    cbv zeta in Gv. rewrite Gw in Gv. injection Gv as ->. cbn [longitude] in K.
    destruct PX as [(i & Ii & X0 & X1) _]. destruct PY as [(j & Ij & Y0 & Y1) _]. replace i with 0%nat in * by lia. replace j with 0%nat in * by lia. cbn [INR Nat.sub] in X0, X1, Y0, Y1.
    assert (x0 = 0) by lra. assert (x1 = 2) by lra. assert (y0 = 0) by lra. assert (y1 = 2) by lra. clear X0 X1 Y0 Y1. subst x0 x1 y0 y1.
    unfold across in E00, E01, E10, E11. cbn [fst] in E00, E01, E10, E11.
    destruct (Rlt_dec 0 1); [|lra]. destruct (Rlt_dec 2 1); [lra|].
    injection E00 as <-. injection E01 as <-. injection E10 as <-. injection E11 as <-. unfold bilinear in K. cbn [longitude fst snd] in K.
    match type of K with Rabs (?a - ?b + ?c) <= _ => replace (a - b + c) with (PI * IZR (2 * k + 1) - 1 / 10) in K by (rewrite plus_IZR, mult_IZR; field) end.
    pose proof (Rle_abs (PI * IZR (2 * k + 1) - 1 / 10)). pose proof (Rle_abs (- (PI * IZR (2 * k + 1) - 1 / 10))) as K2. rewrite Rabs_Ropp in K2. pose proof PI2_3_2.
    destruct (Z_le_gt_dec 0 k) as [P|P].
    + assert (1 <= IZR (2 * k + 1)) by (apply IZR_le; lia). nra.
    + assert (IZR (2 * k + 1) <= -1) by (apply IZR_le; lia). nra.
Qed.

(** *** Non-vacuity *)
Example C58_non_vacuous : exists j,
  geolocate_image_geometry (fun x => x) plane (GeometryCollection [Point (Some (1, 2)); GeometryCollection [Polygon [(0, 0); (1, 1)] [[(2, 2)]]; MultiPoint [Some (3, 4)]]]) = Ok j
  /\ supported (GeometryCollection [Point (Some (1, 2)); GeometryCollection [Polygon [(0, 0); (1, 1)] [[(2, 2)]]; MultiPoint [Some (3, 4)]]]).
Proof.
  eexists. split; [reflexivity|]. constructor. constructor; [constructor|]. constructor; [|constructor]. constructor. constructor; [constructor|]. constructor; [|constructor].
  constructor. intros [E|[]]. discriminate.
Qed.
Example C58_feature_non_vacuous :
  let f := mkFeature [("id"%string, JNull)] [("imageGeometry"%string, JNum 3); ("imageBBox"%string, JArr [JNum 1; JNum 2; JNum 3; JNum 4]); ("a"%string, JNull)] in
  exists f', locate_feature toy_geom true (fun _ => (1, 1)) (fun x => x) plane f = (f', Ok tt) /\ keys (members f') = ["id"; "bbox"; "geometry"]%string
             /\ keys (properties f') = ["imageGeometry"; "imageBBox"; "a"; "center_longitude"; "center_latitude"]%string.
Proof. eexists. split; [reflexivity | split; reflexivity]. Qed.
Example C59_non_vacuous :
  feature_bounds toy_geom true None [mkFeature [] [("imageGeometry"%string, JNum 3)]; mkFeature [] []; mkFeature [] [("imageBBox"%string, JArr [JNum 1; JNum 2; JNum 5; JNum 6])]]
  = Ok (Some (1, 2, 5, 6)).
Proof. cbn. unfold Rmin, Rmax. repeat (destruct (Rle_dec _ _); try lra). reflexivity. Qed.
Example C76_non_vacuous : forall fs f, fs = [f] -> f = mkFeature [] [("imageGeometry"%string, JNum 3)] ->
  exists grid b, geolocate_features toy_geom true (fun _ => (3, 3)) (fun x => x) plane lin_spline None ValueError 11 fs = locate_features toy_geom true (fun _ => (3, 3)) (fun x => x) grid fs
                 /\ b = (3, 3, 3, 3) /\ grid (3, 3) = Ok (mkGeo 3 3 0).
Proof.
  intros fs f -> ->. 
  destruct (C76_affine_exact plane lin_spline None (3 - 10) (3 - 10) (3 - 3 + 20) (3 - 3 + 20) 11 0 1 0 0 0 1 0 0 0 lin_spline_law eq_refl) as (grid & G & Ex); [lia | lra | lra | |].
  { intros x y. unfold plane. cbn [fst snd]. f_equal. f_equal; ring. }
  exists grid, (3, 3, 3, 3). split; [|split; [reflexivity|]].
  - rewrite (C59_area toy_geom true (fun _ => (3, 3)) (fun x => x) plane lin_spline None ValueError 11 _ 3 3 3 3) by reflexivity. rewrite G. reflexivity.
  - rewrite Ex by (cbn [fst snd]; lra). reflexivity.
Qed.

Print Assumptions C58_structure.
Print Assumptions C58_total.
Print Assumptions C58_errors.
Print Assumptions C58_unusable.
Print Assumptions C58_feature.
Print Assumptions C58_untouched.
Print Assumptions C58_order.
Print Assumptions C58_frame.
Print Assumptions C58_call.
Print Assumptions C59_extent.
Print Assumptions C59_no_geometry.
Print Assumptions C59_small_grid.
Print Assumptions C59_cells.
Print Assumptions C59_area.
Print Assumptions C76_error_bound.
Print Assumptions C76_affine_exact.
Print Assumptions C59_bbox_refuted.
Print Assumptions C59_bbox_clamped.
Print Assumptions C76_antimeridian_refuted.
