(** Properties of the sensor models of SIDD images that are chips and of their tiles: C100. *)
Require Import ZArith Reals String List Lra Lia Bool.
Require Import Verif.Base Verif.Vec Verif.SicdModel Verif.TransformModel Verif.TransformSpec Verif.TransformProofs Verif.TransformProps Verif.SarMetaModel Verif.SarMetaSpec Verif.SarMetaProofs Verif.SarMetaProps.
Import ListNotations.
Local Open Scope R_scope.

(** ** C100: tiles of SIDD images that are chips *)

Definition affine_det (f : AffineMap) : R := fst (per_x f) * snd (per_y f) - snd (per_x f) * fst (per_y f).
(** Another unit of length along the two axes of the chip, and another origin. *)
Definition stretched (f : AffineMap) (sx sy : R) : AffineMap :=
  mkAffineMap (origin f) (sx * fst (per_x f), sx * snd (per_x f)) (sy * fst (per_y f), sy * snd (per_y f)).
Definition moved (f : AffineMap) (p : R * R) : AffineMap := mkAffineMap (apply_affine f p) (per_x f) (per_y f).

Section Estimate.
Definition unmap (f : AffineMap) : Projective :=
  let e := affine_det f in
  mkProjective ((snd (origin f) * fst (per_y f) - fst (origin f) * snd (per_y f)) / e) (snd (per_y f) / e) (- fst (per_y f) / e)
               ((fst (origin f) * snd (per_x f) - snd (origin f) * fst (per_x f)) / e) (- snd (per_x f) / e) (fst (per_x f) / e) 0 0.
Lemma unmap_takes f p : affine_det f <> 0 -> takes (unmap f) (apply_affine f p) p.
Proof.
  destruct f as [[o1 o2] [x1 x2] [y1 y2]], p as [x y]. unfold takes, denominator, unmap, apply_affine, affine_det.
  cbn [origin per_x per_y fst snd a0 a1 a2 b0 b1 b2 c0 c1]. intros N. split; [lra|]. split; field; repeat split; try exact N; lra.
Qed.
Lemma unmap_forward f p : affine_det f <> 0 -> forward1 (unmap f) (apply_affine f p) = p.
Proof. intros N. pose proof (unmap_takes f p N) as T. apply fits_forward; [apply takes_fits, T|apply T]. Qed.
Lemma unmap_inverse f p : affine_det f <> 0 -> inverse1 (unmap f) p = apply_affine f p.
Proof.
  destruct f as [[o1 o2] [x1 x2] [y1 y2]], p as [x y]. unfold inverse1, unmap, apply_affine, affine_det.
  cbn [origin per_x per_y fst snd a0 a1 a2 b0 b1 b2 c0 c1]. intros N.
  f_equal; field; repeat split; try exact N; intros E; apply N; lra.
Qed.
Lemma affine_general f (w h : R) : affine_det f <> 0 -> w <> 0 -> h <> 0 ->
  general_position (apply_affine f (0, 0)) (apply_affine f (w, 0)) (apply_affine f (w, h)) (apply_affine f (0, h)).
Proof.
  destruct f as [[o1 o2] [x1 x2] [y1 y2]]. unfold affine_det. cbn [per_x per_y fst snd]. intros N W H.
  assert (P : w * h * (x1 * y2 - x2 * y1) <> 0) by (repeat apply Rmult_integral_contrapositive_currified; assumption).
  repeat split; unfold collinear, apply_affine; cbn [origin per_x per_y fst snd]; intros E; apply P;
    match type of E with ?l = ?r => assert (E' : l - r = 0) by lra end.
  - rewrite <- E'. ring.
  - rewrite <- E'. ring.
  - rewrite <- E'. ring.
  - rewrite <- E'. ring.
Qed.
Lemma estimate_affine lstsq f (w h : R) t : least_squares lstsq -> affine_det f <> 0 -> w <> 0 -> h <> 0 ->
  estimate lstsq [apply_affine f (0, 0); apply_affine f (w, 0); apply_affine f (w, h); apply_affine f (0, h)] [(0, 0); (w, 0); (w, h); (0, h)] = Ok t -> t = unmap f.
Proof.
  intros LS N W H E.
  assert (T : Forall2 (takes (unmap f)) [apply_affine f (0, 0); apply_affine f (w, 0); apply_affine f (w, h); apply_affine f (0, h)] [(0, 0); (w, 0); (w, h); (0, h)])
    by (repeat constructor; apply unmap_takes, N).
  pose proof (estimate_fits _ _ _ _ _ LS T E) as Fi. cbn [combine] in Fi.
  assert (Ft : forall p, fits (unmap f) (apply_affine f p) p) by (intros p; apply takes_fits, unmap_takes, N).
  pose proof (affine_general f w h N W H) as GP.
  assert (GQ : general_position (0, 0) (w, 0) (w, h) (0, h)) by (apply general_rectangle; auto).
  apply (fits_unique _ _ _ _ _ _ _ _ _ _ GP GQ); (apply Fi || apply Ft); cbn [In]; auto.
Qed.
End Estimate.

Lemma IZR_not z k : (z <> k)%Z -> IZR z <> IZR k.
Proof. intros N E. apply N. apply eq_IZR. exact E. Qed.

(** The model of a chip: the transform of its corners when they are images of the corner pixels under an
    affine map [f], not counting the last pixel. *)
Lemma chip_model lstsq d c f t : least_squares lstsq -> affine_det f <> 0 -> (chip_cols c <> 0)%Z -> (chip_rows c <> 0)%Z ->
  upper_left c = apply_affine f (0, 0) -> upper_right c = apply_affine f (IZR (chip_cols c), 0) ->
  lower_right c = apply_affine f (IZR (chip_cols c), IZR (chip_rows c)) -> lower_left c = apply_affine f (0, IZR (chip_rows c)) ->
  sidd_from_dataclass lstsq (with_chip d c) = Ok t -> exists m, sidd_full_model d = Ok m /\ t = mkSiddModel m (Some (unmap f)).
Proof.
  intros LS N C R A1 A2 A3 A4 E. unfold sidd_from_dataclass in E. change (sidd_full_model (with_chip d c)) with (sidd_full_model d) in E.
  destruct (sidd_full_model d) as [m|]; [|discriminate]. cbn [bind chip with_chip] in E. unfold full_corners, chip_corners in E. rewrite A1, A2, A3, A4 in E.
  destruct (estimate lstsq _ _) as [s|] eqn:Es; [|discriminate]. cbn [bind] in E. injection E as <-.
  apply estimate_affine in Es; [|exact LS|exact N|apply IZR_not, C|apply IZR_not, R]. subst s. exists m. split; reflexivity.
Qed.
Lemma with_own_chip d c : chip d = Some c -> d = with_chip d c.
Proof. destruct d. cbn. intros ->. reflexivity. Qed.

(** An image is a chip: the centres of its corner pixels are, in the full image, where the affine map [f]
    sends them.  Its sensor model is the one of the full image after [f], except that pixel x of w is
    taken to be at x (w - 1) / w, and likewise for rows. *)
Theorem C100_chip_model :
  forall lstsq to_geodetic to_geocentric (d : SiddMeta) (c : GeoChip) (f : AffineMap) (image : SiddModel),
  least_squares lstsq -> chip d = Some c -> chip_is c f -> affine_det f <> 0 -> ~ In (chip_cols c) [0; 1]%Z -> ~ In (chip_rows c) [0; 1]%Z ->
  sidd_from_dataclass lstsq d = Ok image ->
  exists m, sidd_full_model d = Ok m /\
  (forall x y em, sidd_image_to_world to_geodetic to_geocentric image (mkImage x y) em =
     let p := apply_affine f (x * (IZR (chip_cols c) - 1) / IZR (chip_cols c), y * (IZR (chip_rows c) - 1) / IZR (chip_rows c)) in
     sicd_image_to_world to_geodetic to_geocentric m (mkImage (fst p) (snd p)) em) /\
  (forall w i x y, sicd_world_to_image to_geodetic to_geocentric m w = Ok i -> (ix i, iy i) = apply_affine f (x, y) ->
     sidd_world_to_image to_geodetic to_geocentric image w = Ok (mkImage (x * IZR (chip_cols c) / (IZR (chip_cols c) - 1)) (y * IZR (chip_rows c) / (IZR (chip_rows c) - 1)))).
Proof.
  intros lstsq tg tc d c f image LS Ch (A1 & A2 & A3 & A4) N C R E.
  assert (C0 : IZR (chip_cols c) <> 0) by (apply IZR_not; intros Z; apply C; cbn; auto). assert (R0 : IZR (chip_rows c) <> 0) by (apply IZR_not; intros Z; apply R; cbn; auto).
  assert (C1 : IZR (chip_cols c) - 1 <> 0). { assert (IZR (chip_cols c) <> 1) by (apply IZR_not; intros Z; apply C; cbn; auto). lra. }
  assert (R1 : IZR (chip_rows c) - 1 <> 0). { assert (IZR (chip_rows c) <> 1) by (apply IZR_not; intros Z; apply R; cbn; auto). lra. }
  set (sx := (IZR (chip_cols c) - 1) / IZR (chip_cols c)). set (sy := (IZR (chip_rows c) - 1) / IZR (chip_rows c)).
  assert (Sx : sx <> 0) by (apply Rmult_integral_contrapositive_currified; [exact C1|apply Rinv_neq_0_compat, C0]).
  assert (Sy : sy <> 0) by (apply Rmult_integral_contrapositive_currified; [exact R1|apply Rinv_neq_0_compat, R0]).
  assert (St : forall x y, apply_affine (stretched f sx sy) (x, y) = apply_affine f (x * (IZR (chip_cols c) - 1) / IZR (chip_cols c), y * (IZR (chip_rows c) - 1) / IZR (chip_rows c))).
  { intros x y. unfold apply_affine, stretched, sx, sy. cbn [origin per_x per_y fst snd]. f_equal; field; auto. }
  clearbody sx sy. assert (N' : affine_det (stretched f sx sy) <> 0).
  { unfold affine_det, stretched. cbn [per_x per_y fst snd]. fold (affine_det f).
    replace (sx * fst (per_x f) * (sy * snd (per_y f)) - sx * snd (per_x f) * (sy * fst (per_y f))) with (sx * sy * affine_det f) by (unfold affine_det; ring).
    repeat apply Rmult_integral_contrapositive_currified; assumption. }
  rewrite (with_own_chip d c Ch) in E. apply (chip_model lstsq d c (stretched f sx sy)) in E; try assumption.
  - destruct E as (m & Em & ->). exists m. split; [exact Em|]. split.
    + intros x y em. unfold sidd_image_to_world. cbn [chip_transform sidd_full ix iy]. rewrite (unmap_inverse _ _ N'), St. reflexivity.
    + intros w i x y Wi Hi. unfold sidd_world_to_image. cbn [chip_transform sidd_full]. rewrite Wi. cbn [bind]. rewrite Hi.
      replace (apply_affine f (x, y)) with (apply_affine (stretched f sx sy) (x * IZR (chip_cols c) / (IZR (chip_cols c) - 1), y * IZR (chip_rows c) / (IZR (chip_rows c) - 1))).
      * rewrite (unmap_forward _ _ N'). reflexivity.
      * rewrite St. f_equal. f_equal; field; auto.
  - intros Z; apply C; cbn; auto.
  - intros Z; apply R; cbn; auto.
  - rewrite A1, St. f_equal. f_equal; field; auto.
  - rewrite A2, St. f_equal. f_equal; field; auto.
  - rewrite A3, St. f_equal. f_equal; field; auto.
  - rewrite A4, St. f_equal. f_equal; field; auto.
Qed.
Print Assumptions C100_chip_model.

(** A tile of such an image.  Pixel (x, y) of the tile is sent where the image sends
    ((left + x (w - 1) / ow) W / (W - 1), (top + y (h - 1) / oh) H / (H - 1)), where W by H pixels is the
    size of the image, w by h that of the window and ow by oh that of the tile. *)
Theorem C100_tile_of_chip :
  forall lstsq to_geodetic to_geocentric (d : SiddMeta) (c : GeoChip) (f : AffineMap) (b : Bounds) (size : option (Z * Z)) (d' : SiddMeta) (image tile : SiddModel),
  least_squares lstsq -> chip d = Some c -> chip_is c f -> affine_det f <> 0 -> ~ In (chip_cols c) [0; 1]%Z -> ~ In (chip_rows c) [0; 1]%Z ->
  sidd_update d (b, size) = (d', Ok tt) -> sidd_from_dataclass lstsq d = Ok image -> sidd_from_dataclass lstsq d' = Ok tile ->
  let '(ow, oh) := match size with None => (bw b, bh b) | Some s => s end in
  let W := IZR (chip_cols c) in let H := IZR (chip_rows c) in
  (bw b <> 1)%Z -> (bh b <> 1)%Z -> (ow <> 0)%Z -> (oh <> 0)%Z ->
  (forall x y em, sidd_image_to_world to_geodetic to_geocentric tile (mkImage x y) em =
     sidd_image_to_world to_geodetic to_geocentric image
       (mkImage ((IZR (bx b) + x * (IZR (bw b) - 1) / IZR ow) * (W / (W - 1))) ((IZR (by_ b) + y * (IZR (bh b) - 1) / IZR oh) * (H / (H - 1)))) em) /\
  (forall w, sidd_world_to_image to_geodetic to_geocentric tile w =
     bind (sidd_world_to_image to_geodetic to_geocentric image w) (fun i =>
       Ok (mkImage ((ix i * ((W - 1) / W) - IZR (bx b)) * IZR ow / (IZR (bw b) - 1)) ((iy i * ((H - 1) / H) - IZR (by_ b)) * IZR oh / (IZR (bh b) - 1))))).
Proof.
  intros lstsq tg tc d c f b size d' image tile LS Ch Cf N C R U Ei Et.
  destruct (match size with None => (bw b, bh b) | Some s => s end) as [ow oh] eqn:Es. intros W H N1 N2 O1 O2.
  assert (C0 : W <> 0) by (apply IZR_not; intros Z; apply C; cbn; auto). assert (R0 : H <> 0) by (apply IZR_not; intros Z; apply R; cbn; auto).
  assert (C1 : W - 1 <> 0). { assert (W <> 1) by (apply IZR_not; intros Z; apply C; cbn; auto). lra. }
  assert (R1 : H - 1 <> 0). { assert (H <> 1) by (apply IZR_not; intros Z; apply R; cbn; auto). lra. }
  assert (X : IZR (bw b) - 1 <> 0) by (intros F; apply N1; apply eq_IZR; lra). assert (Y : IZR (bh b) - 1 <> 0) by (intros F; apply N2; apply eq_IZR; lra).
  assert (OW : IZR ow <> 0) by (apply IZR_not, O1). assert (OH : IZR oh <> 0) by (apply IZR_not, O2).
  destruct (C100_chip_model lstsq tg tc d c f image LS Ch Cf N C R Ei) as (m & Em & Li & _).
  assert (Wi : forall w i, sicd_world_to_image tg tc m w = Ok i -> exists x y, (ix i, iy i) = apply_affine f (x, y)).
  { intros w i _. exists (fst (forward1 (unmap f) (ix i, iy i))), (snd (forward1 (unmap f) (ix i, iy i))). rewrite <- surjective_pairing.
    destruct f as [[o1 o2] [x1 x2] [y1 y2]]. unfold apply_affine, forward1, unmap, affine_det in *. cbn [origin per_x per_y fst snd a0 a1 a2 b0 b1 b2 c0 c1] in *.
    f_equal; field; repeat split; try exact N; lra. }
  destruct (C100_chip_model lstsq tg tc d c f image LS Ch Cf N C R Ei) as (m' & Em' & _ & Fi). rewrite Em in Em'. injection Em' as <-.
  assert (D : d' = with_chip d (mkGeoChip ow oh (apply_affine f (IZR (bx b), IZR (by_ b))) (apply_affine f (IZR (bx b + bw b - 1), IZR (by_ b)))
                (apply_affine f (IZR (bx b + bw b - 1), IZR (by_ b + bh b - 1))) (apply_affine f (IZR (bx b), IZR (by_ b + bh b - 1))))).
  { rewrite (C42_chip_of_chip d c f b size Ch Cf) in U; [|intros Z; apply C; cbn; auto|intros Z; apply R; cbn; auto]. injection U as <-. rewrite Es. reflexivity. }
  set (g := stretched (moved f (IZR (bx b), IZR (by_ b))) ((IZR (bw b) - 1) / IZR ow) ((IZR (bh b) - 1) / IZR oh)).
  assert (G : forall x y, apply_affine g (x, y) = apply_affine f (IZR (bx b) + x * (IZR (bw b) - 1) / IZR ow, IZR (by_ b) + y * (IZR (bh b) - 1) / IZR oh)).
  { intros x y. unfold g, stretched, moved, apply_affine. cbn [origin per_x per_y fst snd]. f_equal; field; auto. }
  assert (Ng : affine_det g <> 0).
  { unfold g, affine_det, stretched, moved. cbn [per_x per_y fst snd].
    replace (_ - _) with ((IZR (bw b) - 1) * / IZR ow * ((IZR (bh b) - 1) * / IZR oh) * affine_det f) by (unfold affine_det; field; auto).
    repeat apply Rmult_integral_contrapositive_currified; try assumption; apply Rinv_neq_0_compat; assumption. }
  rewrite D in Et. apply (chip_model lstsq d _ g) in Et; try assumption; cbn [chip_cols chip_rows upper_left upper_right lower_right lower_left].
  2-5: rewrite G, ?minus_IZR, ?plus_IZR; f_equal; f_equal; field; auto.
  destruct Et as (m2 & Em2 & ->). rewrite Em in Em2. injection Em2 as <-. split.
  - intros x y em. rewrite Li. unfold sidd_image_to_world. cbn [chip_transform sidd_full ix iy]. rewrite (unmap_inverse _ _ Ng), G. fold W H. cbv zeta.
    replace ((IZR (bx b) + x * (IZR (bw b) - 1) / IZR ow) * (W / (W - 1)) * (W - 1) / W) with (IZR (bx b) + x * (IZR (bw b) - 1) / IZR ow) by (field; auto).
    replace ((IZR (by_ b) + y * (IZR (bh b) - 1) / IZR oh) * (H / (H - 1)) * (H - 1) / H) with (IZR (by_ b) + y * (IZR (bh b) - 1) / IZR oh) by (field; auto). reflexivity.
  - intros w. unfold sidd_world_to_image at 1. cbn [chip_transform sidd_full]. destruct (sicd_world_to_image tg tc m w) as [i|e] eqn:Ew.
    + destruct (Wi w i Ew) as (x & y & Hi). rewrite (Fi w i x y Ew Hi). cbn [bind ix iy]. fold W H. rewrite Hi.
      replace (apply_affine f (x, y)) with (apply_affine g ((x - IZR (bx b)) * IZR ow / (IZR (bw b) - 1), (y - IZR (by_ b)) * IZR oh / (IZR (bh b) - 1)))
        by (rewrite G; f_equal; f_equal; field; auto).
      rewrite (unmap_forward _ _ Ng). cbn [fst snd]. f_equal. f_equal; field; auto.
    + cbn [bind]. replace (sidd_world_to_image tg tc image w) with (@Err Image e); [reflexivity|].
      clear - Ei Ch Ew Em. unfold sidd_from_dataclass in Ei. rewrite Em, Ch in Ei. cbn [bind] in Ei. destruct (estimate _ _ _) as [t|]; [|discriminate]. cbn [bind] in Ei. injection Ei as <-.
      unfold sidd_world_to_image. cbn [chip_transform sidd_full]. rewrite Ew. reflexivity.
Qed.
Print Assumptions C100_tile_of_chip.

(** So the upper left pixel of a tile is not located where the image locates it: it is off by
    left / (W - 1) columns, up to almost a whole pixel at the right edge. *)
Theorem C100_first_pixel_refuted :
  forall (W left : Z), (W <> 1)%Z -> IZR left * (IZR W / (IZR W - 1)) - IZR left = IZR left / (IZR W - 1) /\
  (left <> 0%Z -> IZR left * (IZR W / (IZR W - 1)) <> IZR left).
Proof.
  intros W left N. assert (X : IZR W - 1 <> 0) by (intros F; apply N; apply eq_IZR; lra).
  assert (E : IZR left * (IZR W / (IZR W - 1)) - IZR left = IZR left / (IZR W - 1)) by (field; exact X). split; [exact E|].
  intros L F. rewrite F in E. assert (IZR left = 0); [|apply L, eq_IZR; assumption].
  replace (IZR left) with (IZR left / (IZR W - 1) * (IZR W - 1)) by (field; exact X). rewrite <- E. ring.
Qed.
Print Assumptions C100_first_pixel_refuted.

(** A solver that tries some transforms. *)
Fixpoint trying (ts : list Projective) : list (list R) -> list R -> res (list R) :=
  match ts with
  | [] => fun _ _ => Err LinAlgError
  | t :: r => fun a b => match knowing t a b with Ok m => Ok m | Err _ => trying r a b end
  end.
Lemma trying_least_squares ts : least_squares (trying ts).
Proof.
  induction ts as [|t r IH]; intros a b m E; cbn [trying] in E; [discriminate|]. destruct (knowing t a b) as [m'|] eqn:K; [injection E as <-; apply (knowing_least_squares t a b m' K)|apply (IH a b m E)].
Qed.
Lemma trying_estimate ts t src dst : In t ts -> src <> [] -> Forall2 (takes t) src dst -> exists t', estimate (trying ts) src dst = Ok t'.
Proof.
  intros I N F. pose proof (knowing_estimate t src dst N F) as E.
  assert (S : forall a b m, knowing t a b = Ok m -> exists m', trying ts a b = Ok m' /\ List.length m' = 8%nat).
  { clear - I. intros a b m K. induction ts as [|t0 r IH]; [destruct I|]. cbn [trying]. destruct (knowing t0 a b) as [m0|] eqn:K0.
    - exists m0. split; [reflexivity|]. apply (knowing_least_squares t0 a b m0 K0).
    - destruct I as [->|I]; [congruence|]. apply IH, I. }
  unfold estimate in *. destruct src as [|s0 r]; [contradiction|]. destruct (broadcast _ _) as [ds|]; [|discriminate]. cbn [bind] in *.
  match type of E with bind (knowing t ?a ?b) _ = _ => destruct (knowing t a b) as [m|] eqn:K; [|discriminate]; destruct (S a b m K) as (m' & -> & L) end. cbn [bind].
  do 9 (destruct m' as [|? m']; cbn in L; try discriminate). eexists; reflexivity.
Qed.
(** An image of 5 by 9 pixels that is the window at (10, 20) of another, and its tile (1, 2, 3, 4). *)
Example C100_non_vacuous :
  exists lstsq image tile d',
  let c := mkGeoChip 5 9 (10, 20) (14, 20) (14, 28) (10, 28) in let f := mkAffineMap (10, 20) (1, 0) (0, 1) in
  let d := mkSiddMeta (mkVec 0 4 0) 0 0 (mkVec 1 0 0) (mkVec 0 1 0) 1 1 (mkPoly2 [mkCoef2 0 0 0] 0 0) (mkXyzPoly demo_poly demo_poly demo_poly) (Some c) in
  least_squares lstsq /\ chip_is c f /\ affine_det f <> 0 /\ sidd_update d (mkBounds 1 2 3 4, None) = (d', Ok tt) /\
  sidd_from_dataclass lstsq d = Ok image /\ sidd_from_dataclass lstsq d' = Ok tile.
Proof.
  set (c := mkGeoChip 5 9 (10, 20) (14, 20) (14, 28) (10, 28)). set (f := mkAffineMap (10, 20) (1, 0) (0, 1)). set (d := mkSiddMeta (mkVec 0 4 0) 0 0 (mkVec 1 0 0) (mkVec 0 1 0) 1 1 (mkPoly2 [mkCoef2 0 0 0] 0 0) (mkXyzPoly demo_poly demo_poly demo_poly) (Some c)).
  assert (H : exists m, sidd_full_model d = Ok m) by (eexists; reflexivity). destruct H as (m & H).
  assert (Cf : chip_is c f) by (unfold chip_is, apply_affine; cbn [c f fst snd origin per_x per_y chip_cols chip_rows upper_left upper_right lower_right lower_left]; repeat split; f_equal; lra).
  assert (N : affine_det f <> 0) by (unfold affine_det; cbn; lra).
  set (g1 := stretched f (4 / 5) (8 / 9)). set (g2 := stretched (moved f (1, 2)) (2 / 3) (3 / 4)).
  assert (N1 : affine_det g1 <> 0) by (unfold affine_det; cbn; lra). assert (N2 : affine_det g2 <> 0) by (unfold affine_det; cbn; lra).
  set (lstsq := trying [unmap g1; unmap g2]).
  pose proof (C42_chip_of_chip d c f (mkBounds 1 2 3 4) None eq_refl Cf ltac:(discriminate) ltac:(discriminate)) as U. cbn [bx by_ bw bh fst snd] in U.
  assert (Q : forall g (w h : R) src, affine_det g <> 0 -> In g [g1; g2] -> src = [apply_affine g (0, 0); apply_affine g (w, 0); apply_affine g (w, h); apply_affine g (0, h)] ->
    exists t, estimate lstsq src [(0, 0); (w, 0); (w, h); (0, h)] = Ok t).
  { intros g w h src Ng Ig ->. apply (trying_estimate _ (unmap g)); [cbn in Ig |- *; destruct Ig as [<-|[<-|[]]]; auto|discriminate|]. repeat constructor; apply unmap_takes, Ng. }
  destruct (Q g1 5 9 (full_corners c) N1 ltac:(cbn; auto)) as [t1 E1].
  { unfold full_corners, c, apply_affine, g1, stretched, f. cbn [fst snd origin per_x per_y upper_left upper_right lower_right lower_left].
    rewrite ?minus_IZR, ?plus_IZR. repeat match goal with |- _ :: _ = _ :: _ => f_equal | |- (_, _) = (_, _) => f_equal end; lra. }
  match type of U with _ = (with_chip _ ?c', _) => set (c2 := c') in * end.
  destruct (Q g2 3 4 (full_corners c2) N2 ltac:(cbn; auto)) as [t2 E2].
  { unfold full_corners, c2, apply_affine, g2, stretched, moved, apply_affine, f. cbn [fst snd origin per_x per_y upper_left upper_right lower_right lower_left].
    rewrite ?minus_IZR, ?plus_IZR. repeat match goal with |- _ :: _ = _ :: _ => f_equal | |- (_, _) = (_, _) => f_equal end; lra. }
  exists lstsq, (mkSiddModel m (Some t1)), (mkSiddModel m (Some t2)), (with_chip d c2). cbv zeta. fold c f. fold d.
  split; [apply trying_least_squares|]. split; [exact Cf|]. split; [exact N|]. split; [exact U|]. split.
  - unfold sidd_from_dataclass. rewrite H. cbn [bind]. change (chip d) with (Some c). cbv iota. change (chip_corners c) with [(0, 0); (5, 0); (5, 9); (0, 9)]. rewrite E1. reflexivity.
  - unfold sidd_from_dataclass. change (sidd_full_model (with_chip d c2)) with (sidd_full_model d). rewrite H. cbn [bind chip with_chip].
    change (chip_corners c2) with [(0, 0); (3, 0); (3, 4); (0, 4)]. rewrite E2. reflexivity.
Qed.
