(** Property theorems for the pixels that SAR sensor models find for ground points: C91. *)
Require Import ZArith Reals String List Lra Lia Bool.
Require Import Verif.Base Verif.BaseFacts Verif.Vec Verif.VecFacts Verif.SensorBase Verif.PolySpec Verif.SicdModel Verif.SicdSpec Verif.SicdProofs
  Verif.SicdGroundProofs Verif.SicdProps Verif.SicdSurfaceProps Verif.TransformModel Verif.TransformSpec Verif.SarMetaModel Verif.SarMetaSpec Verif.SarMetaProofs Verif.SarMetaProps
  Verif.SicdMetaSpec Verif.SicdMetaProps Verif.SicdFindSpec.
Import ListNotations.
Local Open Scope R_scope.

(** *** Points straight above a point of the image plane *)

(** If going along the slant plane normal from the points above [p] leads to the grid location [xy],
    whose ground point is [p], the iteration ends there whatever the height. *)
Lemma found_above tg m (scene p dir : Vec) xy : ground_of tg m xy = Ok (Some p) ->
  (forall c, project_to_grid m (raised p dir c) = xy) -> forall h, scene = raised p dir h ->
  forall more it c, exists k, scene_to_grid tg m scene (raised p dir c) more it = Ok (xy, k).
Proof.
  intros G P h E more. induction more as [|more IH]; intros it c; cbn [scene_to_grid]; rewrite P;
    change (ground_intersection _ _ _ _ _) with (ground_of tg m xy); rewrite G; destruct (Rlt_dec _ _); eauto.
  replace (vadd (raised p dir c) (vsub scene p)) with (raised p dir (c + h)); [apply IH|].
  rewrite E. apply vec_eq; cbn; ring.
Qed.

Lemma raised_zero p n : raised p n 0 = p.
Proof. apply vec_eq; cbn; ring. Qed.

(** The model of a SIDD document: the slant plane normal is that of the image plane, and every grid
    location is found from any height above its place. *)
Lemma sidd_projects lstsq d m v i c : usable_sidd d v -> sidd_from_dataclass lstsq d = Ok m ->
  project_to_grid (sidd_full m) (raised (sidd_place d i) (sidd_normal d) c) = sidd_metres d (ix i) (iy i).
Proof.
  intros (P2 & Px & Ch & Ur & Uc & Np & Sr & Sc & Hv) B. unfold sidd_from_dataclass, sidd_full_model in B.
  destruct (native2 _ P2) as (coa & Ec & _). destruct (native_xyz _ Px) as (ap & Ea & _). rewrite Ec, Ea, Ch in B. cbn [bind] in B. injection B as <-.
  cbn [sidd_full]. set (gpn := compute_u_gpn _ _ _). set (sm := mkSicd _ _ gpn "L" _). set (xy := sidd_metres d (ix i) (iy i)).
  assert (Nc : vcross (plane_urow d) (plane_ucol d) <> vzero) by (now apply not_parallel_cross).
  pose proof (vnorm_pos_iff _ Nc) as Vp. set (cr := vcross (plane_urow d) (plane_ucol d)) in *.
  assert (Un : uvect_ipn (converter sm) = normalised cr) by reflexivity.
  assert (Gn : exists s, s * s = 1 /\ gpn = vscale s (normalised cr)).
  { unfold gpn, compute_u_gpn. fold cr. destruct (Rlt_dec _ 0); [exists (-1)|exists 1]; (split; [ring|]); [reflexivity|apply vec_eq; cbn; ring]. }
  destruct Gn as (s & Ss & Gn).
  assert (Nn : exists k, sidd_normal d = vscale k (normalised cr)).
  { unfold sidd_normal, outward. fold cr. destruct (Rlt_dec _ 0); [exists (- vnorm cr)|exists (vnorm cr)]; unfold normalised; apply vec_eq; cbn; field; lra. }
  destruct Nn as (k & Nn).
  assert (D1 : vdot (u_spn sm) (uvect_ipn (converter sm)) = s).
  { change (u_spn sm) with gpn. rewrite Un, Gn, vdot_scale_l, (normalised_unit _ Nc). ring. }
  destruct (C37_projects_along_normal sm (raised (sidd_place d i) (sidd_normal d) c)) as (t & X & Y); cbn [converter sm]; try assumption.
  { change (vdot (u_spn sm) (uvect_ipn (converter sm)) <> 0). rewrite D1. intros ->. lra. }
  change (mkConverter _ _ _ _ _ _ _) with (converter sm) in X, Y. cbn [converter sm] in X. change (mkConverter _ _ _ _ _ _ _) with (converter sm) in X.
  set (pt := raised (sidd_place d i) (sidd_normal d) c) in *.
  assert (I : sidd_place d i = xrowycol_to_ipp (converter sm) xy).
  { unfold sidd_place, plane_point, xrowycol_to_ipp. fold xy. cbn [converter sm scp_ecf u_row u_col]. apply vec_eq; cbn; ring. }
  assert (Z : vadd pt (vscale (- s * k * c) (u_spn sm)) = sidd_place d i).
  { change (u_spn sm) with gpn. unfold pt, raised. rewrite Nn, Gn.
    assert (T : forall a u, a + c * (k * u) + - s * k * c * (s * u) = a) by (intros; replace (a + c * (k * u) + - s * k * c * (s * u)) with (a + c * k * u * (1 - s * s)) by ring; rewrite Ss; ring).
    apply vec_eq; cbn; apply T. }
  assert (t = - s * k * c) as ->.
  { symmetry. apply Y. rewrite Z, I. apply C32_on_image_plane. exact Np. }
  rewrite Z in X. rewrite I in X.
  rewrite <- (C32_grid_of_plane_point (converter sm) (project_to_grid sm pt)), X by assumption. now apply C32_grid_of_plane_point.
Qed.

(** Its ground point is the place of the pixel. *)
Lemma sidd_grounds lstsq tg d m v i : usable_sidd d v -> sidd_from_dataclass lstsq d = Ok m -> in_view d v i ->
  ground_of tg (sidd_full m) (sidd_metres d (ix i) (iy i)) = Ok (Some (sidd_place d i)).
Proof.
  intros (P2 & Px & Ch & Ur & Uc & Np & Sr & Sc & Hv) B (S & H).
  destruct (C84_ground lstsq demo_geodetic (fun _ => vzero) d m i v P2 Px Ch Np B Hv S) as (_ & G). specialize (G H).
  unfold sidd_from_dataclass, sidd_full_model in B.
  destruct (native2 _ P2) as (coa & Ec & _). destruct (native_xyz _ Px) as (ap & Ea & _). rewrite Ec, Ea, Ch in B. cbn [bind] in B. injection B as <-.
  unfold sidd_image_to_world, sicd_image_to_world in G. cbn [chip_transform sidd_full] in G |- *. set (sm := mkSicd _ _ _ "L" _) in *.
  assert (L : grid_location sm i = sidd_metres d (ix i) (iy i)).
  { unfold grid_location, rowcol_to_xrowycol, sidd_metres. cbn. f_equal; ring. }
  rewrite L in G. unfold ground_of. change (default_surface tg sm) with (default_surface demo_geodetic sm).
  destruct (ground_intersection _ _ _ _ _) as [[p|]|]; try discriminate. cbn [bind] in G. injection G as Gx Gy Gz.
  do 2 f_equal. unfold sidd_place. apply vec_eq; assumption.
Qed.

Lemma sidd_pixel lstsq d m v i : usable_sidd d v -> sidd_from_dataclass lstsq d = Ok m -> to_pixel (sidd_full m) (sidd_metres d (ix i) (iy i)) = i.
Proof.
  intros (P2 & Px & Ch & Ur & Uc & Np & Sr & Sc & Hv) B. unfold sidd_from_dataclass, sidd_full_model in B.
  destruct (native2 _ P2) as (coa & Ec & _). destruct (native_xyz _ Px) as (ap & Ea & _). rewrite Ec, Ea, Ch in B. cbn [bind] in B. injection B as <-.
  unfold to_pixel, xrowycol_to_rowcol, sidd_metres. destruct i as [x y]. cbn. f_equal; field; assumption.
Qed.

Lemma sidd_unchipped lstsq d m : chip d = None -> sidd_from_dataclass lstsq d = Ok m -> chip_transform m = None.
Proof. intros Ch B. unfold sidd_from_dataclass in B. rewrite Ch in B. destruct (sidd_full_model d); [|discriminate]. now injection B as <-. Qed.

(** Every ground point is found at the pixel of the foot of the perpendicular onto the image plane,
    whatever its height, if the antenna has that pixel in view. *)
Theorem C91_sidd :
  forall lstsq to_geodetic to_geocentric (d : SiddMeta) (m : SiddModel) (v : R -> Vec) (i : Image) (w : Geodetic) (h : R),
  usable_sidd d v -> sidd_from_dataclass lstsq d = Ok m -> in_view d v i ->
  to_geocentric w = raised (sidd_place d i) (sidd_normal d) h ->
  sidd_world_to_image to_geodetic to_geocentric m w = Ok i.
Proof.
  intros lstsq tg tc d m v i w h U B V W. pose proof U as (_ & _ & Ch & _). unfold sidd_world_to_image. rewrite (sidd_unchipped _ _ _ Ch B).
  unfold sicd_world_to_image.
  destruct (found_above tg (sidd_full m) (tc w) (sidd_place d i) (sidd_normal d) (sidd_metres d (ix i) (iy i)) (sidd_grounds lstsq tg d m v i U B V)
    (fun c => sidd_projects lstsq d m v i c U B) h W 9%nat 1%nat h) as (k & E). rewrite <- W in E. rewrite E. cbn [bind fst].
  now rewrite (sidd_pixel lstsq d m v i U B).
Qed.
Print Assumptions C91_sidd.

(** Locating a pixel in the image plane and finding the result gives the pixel back. *)
Theorem C91_sidd_round_trip :
  forall lstsq to_geodetic to_geocentric (d : SiddMeta) (m : SiddModel) (v : R -> Vec) (i : Image),
  usable_sidd d v -> sidd_from_dataclass lstsq d = Ok m -> in_view d v i ->
  to_geocentric (to_geodetic (sidd_place d i)) = sidd_place d i ->
  exists g, sidd_image_to_world to_geodetic to_geocentric m i None = Ok (Some g) /\ sidd_world_to_image to_geodetic to_geocentric m g = Ok i.
Proof.
  intros lstsq tg tc d m v i U B V C. exists (tg (sidd_place d i)). split.
  - destruct U as (P2 & Px & Ch & Ur & Uc & Np & Sr & Sc & Hv). destruct V as (S & H).
    now apply (C84_ground lstsq tg tc d m i v P2 Px Ch Np B Hv S).
  - apply (C91_sidd lstsq tg tc d m v i _ 0 U B V). now rewrite raised_zero.
Qed.
Print Assumptions C91_sidd_round_trip.

(** For a window of the image the pixel found is that of the full image, shifted and stretched by
    w/(w-1) and h/(h-1) (see C43). *)
Theorem C91_sidd_window :
  forall lstsq to_geodetic to_geocentric (d : SiddMeta) (b : Bounds) (d' : SiddMeta) (m part : SiddModel) (v : R -> Vec) (i : Image) (w : Geodetic) (h : R),
  least_squares lstsq -> usable_sidd d v -> sidd_from_dataclass lstsq d = Ok m ->
  sidd_update d (b, None) = (d', Ok tt) -> sidd_from_dataclass lstsq d' = Ok part -> (1 < bw b)%Z -> (1 < bh b)%Z ->
  in_view d v i -> to_geocentric w = raised (sidd_place d i) (sidd_normal d) h ->
  sidd_world_to_image to_geodetic to_geocentric part w =
    Ok (mkImage ((ix i - IZR (bx b)) * IZR (bw b) / (IZR (bw b) - 1)) ((iy i - IZR (by_ b)) * IZR (bh b) / (IZR (bh b) - 1))).
Proof.
  intros lstsq tg tc d b d' m part v i w h LS U B Up B' W H V E. pose proof U as (_ & _ & Ch & _).
  destruct (C43_exact lstsq tg tc d b None d' m part LS Ch Up B B') as (_ & F); try lia.
  now rewrite F, (C91_sidd lstsq tg tc d m v i w h U B V E).
Qed.
Print Assumptions C91_sidd_window.

(** A pixel located with an elevation model is found somewhere else: at the pixel of the foot, which
    is another one unless the height over the image plane is zero or twice that of the antenna. *)
Theorem C91_sidd_terrain_refuted :
  forall lstsq to_geodetic to_geocentric (d : SiddMeta) (m : SiddModel) (v : R -> Vec) (i j : Image) (em : Terrain) (g : Geodetic) (h : R),
  usable_sidd d v -> sidd_from_dataclass lstsq d = Ok m -> (forall q, to_geocentric (to_geodetic q) = q) ->
  sidd_image_to_world to_geodetic to_geocentric m i (Some em) = Ok (Some g) ->
  to_geocentric g = raised (sidd_place d j) (sidd_normal d) h -> in_view d v j ->
  let arp := along (sidd_arppoly d) (declared2 (sidd_time_coa d) (fst (sidd_metres d (ix i) (iy i))) (snd (sidd_metres d (ix i) (iy i)))) in
  arp <> sidd_place d i -> h <> 0 -> h * vnorm (sidd_normal d) <> 2 * height_over (ref_position d) (sidd_normal d) arp ->
  sidd_world_to_image to_geodetic to_geocentric m g = Ok j /\ j <> i.
Proof.
  intros lstsq tg tc d m v i j em g h U B RT L E V arp Na Nh N2.
  split; [now apply (C91_sidd lstsq tg tc d m v j g h U B V)|]. intros ->.
  destruct U as (P2 & Px & Ch & Ur & Uc & Np & Sr & Sc & Hv).
  destruct (C84_terrain_left lstsq tg tc d m i em g v P2 Px Ch B Hv L Na) as (q & -> & D & _). fold arp in D. fold (sidd_place d i) in D.
  rewrite RT in E. subst q. set (p := sidd_place d i) in *. set (n := sidd_normal d) in *.
  assert (Nn : n <> vzero).
  { unfold n, sidd_normal. apply not_parallel_cross in Np. set (c := vcross _ _) in *. intros F. apply Np. unfold outward in F.
    destruct (Rlt_dec _ 0); [|exact F]. apply vec_eq; [apply (f_equal vx) in F|apply (f_equal vy) in F|apply (f_equal vz) in F]; cbn in F; cbn; lra. }
  pose proof (vnorm_pos_iff _ Nn) as Pn. pose proof (vnorm_sqr n) as Q.
  assert (O : vdot n (vsub p (ref_position d)) = 0).
  { unfold n, sidd_normal, outward, p, sidd_place, plane_point. destruct (Rlt_dec _ 0); unfold vdot; cbn; ring. }
  assert (HO : height_over (ref_position d) n arp * vnorm n = vdot n (vsub arp p)).
  { rewrite height_over_eq. unfold normalised. rewrite vdot_scale_r. replace (/ vnorm n * vdot (vsub arp (ref_position d)) n * vnorm n) with (vdot (vsub arp (ref_position d)) n) by (field; lra).
    unfold vdot, vsub in *. cbn in *. lra. }
  rewrite !distance_eq in D.
  assert (D2 : vdot (vsub arp (raised p n h)) (vsub arp (raised p n h)) = vdot (vsub arp p) (vsub arp p)) by (rewrite <- !vnorm_sqr, D; reflexivity).
  assert (K : h * (h * (vnorm n * vnorm n) - 2 * (height_over (ref_position d) n arp * vnorm n)) = 0).
  { rewrite Q, HO. unfold raised, vdot, vsub in *. cbn in *. nra. }
  apply Rmult_integral in K. destruct K as [K|K]; [contradiction|]. apply N2.
  apply (Rmult_eq_reg_r (vnorm n)); lra.
Qed.
Print Assumptions C91_sidd_terrain_refuted.

(** *** SICD: convergence of the search *)

Lemma cauchy_schwarz a b : vdot a b <= vnorm a * vnorm b.
Proof.
  pose proof (vnorm_pos a). pose proof (vnorm_pos b). pose proof (vnorm_sqr a) as A. pose proof (vnorm_sqr b) as B.
  pose proof (lagrange a b) as Q. pose proof (vdot_pos (vcross a b)) as P. rewrite Q, <- A, <- B in P.
  destruct (Rle_dec (vdot a b) 0); [nra|]. apply Rsqr_incr_0_var; [unfold Rsqr; nra|nra].
Qed.
Lemma vnorm_triangle a b : vnorm (vadd a b) <= vnorm a + vnorm b.
Proof.
  pose proof (vnorm_pos a). pose proof (vnorm_pos b). pose proof (cauchy_schwarz a b) as C. pose proof (vnorm_sqr a) as A. pose proof (vnorm_sqr b) as B.
  pose proof (vnorm_sqr (vadd a b)) as S. apply Rsqr_incr_0_var; [|lra]. unfold Rsqr. rewrite S, vdot_add_l, !vdot_add_r, (vdot_comm b a). nra.
Qed.
Lemma distance_triangle a b c : distance a c <= distance a b + distance b c.
Proof. rewrite !distance_eq. replace (vsub a c) with (vadd (vsub a b) (vsub b c)) by (apply vec_eq; cbn; ring). apply vnorm_triangle. Qed.
Lemma distance_sym a b : distance a b = distance b a.
Proof. unfold distance. f_equal. ring. Qed.

Section Search.
Context (tg : Vec -> Geodetic) (m : Sicd) (scene : Vec) (D : Vec -> Prop) (F : Vec -> Vec) (L : R).
Hypothesis L0 : 0 <= L < 1.
Hypothesis FD : forall g, D g -> ground_of tg m (project_to_grid m g) = Ok (Some (F g)).
Hypothesis SD : forall g, D g -> D (vadd g (vsub scene (F g))).
Hypothesis NT : nearly_translates D F L.

Lemma step_shrinks g : D g -> distance scene (F (vadd g (vsub scene (F g)))) <= L * distance scene (F g).
Proof.
  intros H. pose proof (NT _ _ (SD g H) H) as N. set (g' := vadd g (vsub scene (F g))) in *.
  replace (distance scene (F g')) with (distance (vsub g' (F g')) (vsub g (F g))); [replace (distance scene (F g)) with (distance g' g); [exact N|]|];
    rewrite !distance_eq; f_equal; unfold g'; apply vec_eq; cbn; ring.
Qed.

Lemma search_converges more : forall it g, D g -> exists k g', scene_to_grid tg m scene g more it = Ok (project_to_grid m g', k) /\ D g' /\
  (it <= k <= it + more)%nat /\ distance scene (F g') <= L ^ (k - it) * distance scene (F g) /\
  ((k < it + more)%nat -> distance scene (F g') <= 0.01) /\
  ((it < k)%nat -> 0.01 < L ^ (k - it - 1) * distance scene (F g)).
Proof.
  induction more as [|more IH]; intros it g H; cbn [scene_to_grid];
    change (ground_intersection _ _ _ _ _) with (ground_of tg m (project_to_grid m g)); rewrite (FD g H), <- distance_eq;
    (destruct (Rlt_dec 0.01 (distance scene (F g))) as [G|G]).
  1,2: exists it, g; split; [reflexivity|]; split; [exact H|]; split; [lia|]; rewrite Nat.sub_diag; cbn [pow]; split; [lra|]; split; [lra || lia|lia].
  - destruct (IH (S it) _ (SD g H)) as (k & g' & E & H' & K & B & T & O). exists k, g'. split; [exact E|]. split; [exact H'|]. split; [lia|].
    pose proof (step_shrinks g H) as Sh. assert (P : forall n, 0 <= L ^ n) by (intros; apply pow_le; lra).
    split; [|split; [intros; apply T; lia|]].
    + replace (k - it)%nat with (S (k - S it)) by lia. cbn [pow]. specialize (P (k - S it)%nat).
      eapply Rle_trans; [exact B|]. replace (L * L ^ (k - S it) * distance scene (F g)) with (L ^ (k - S it) * (L * distance scene (F g))) by ring. now apply Rmult_le_compat_l.
    + intros Hk. destruct (Nat.eq_dec k (S it)) as [->|Nk]; [replace (S it - it - 1)%nat with 0%nat by lia; cbn [pow]; lra|].
      specialize (O ltac:(lia)). replace (k - it - 1)%nat with (S (k - S it - 1)) by lia. cbn [pow]. specialize (P (k - S it - 1)%nat).
      eapply Rlt_le_trans; [exact O|]. replace (L * L ^ (k - S it - 1) * distance scene (F g)) with (L ^ (k - S it - 1) * (L * distance scene (F g))) by ring. now apply Rmult_le_compat_l.
  - exists it, g. split; [reflexivity|]. split; [exact H|]. split; [lia|]. rewrite Nat.sub_diag. cbn [pow]. split; [lra|]. split; [lra|lia].
Qed.

Lemma near_exact g x : D g -> D x -> F x = scene -> (1 - L) * distance g x <= distance scene (F g).
Proof.
  intros H X E. pose proof (NT g x H X) as N.
  assert (T : distance g x <= distance (vsub g (F g)) (vsub x (F x)) + distance scene (F g)); [|lra].
  rewrite E, (distance_sym scene). rewrite !distance_eq.
  replace (vsub g x) with (vadd (vsub (vsub g (F g)) (vsub x scene)) (vsub (F g) scene)) by (apply vec_eq; cbn; ring). apply vnorm_triangle.
Qed.
End Search.

(** A scene point on the ground plane is found if, around it, locating the pixels under ground points
    moves the points nearly alike: the returned pixel is located within a centimetre of the scene
    point or, if the limit of ten is reached, within L^9 times the error at the start; the error
    shrinks by [L] with each iteration and no iteration is wasted. *)
Theorem C91_converges :
  forall to_geodetic to_geocentric (m : Sicd) (w : Geodetic) (D : Vec -> Prop) (F : Vec -> Vec) (L : R),
  let scene := to_geocentric w in
  row_ss (converter m) <> 0 -> col_ss (converter m) <> 0 -> 0 <= L < 1 -> D scene ->
  (forall g, D g -> ground_of to_geodetic m (project_to_grid m g) = Ok (Some (F g))) ->
  (forall g, D g -> D (vadd g (vsub scene (F g)))) -> nearly_translates D F L ->
  exists i k g, sicd_world_to_image to_geodetic to_geocentric m w = Ok i /\ (1 <= k <= 10)%nat /\ D g /\
  grid_location m i = project_to_grid m g /\
  sicd_image_to_world to_geodetic to_geocentric m i None = Ok (Some (to_geodetic (F g))) /\
  distance scene (F g) <= L ^ (k - 1) * distance scene (F scene) /\
  ((k < 10)%nat -> distance scene (F g) <= 0.01) /\
  ((1 < k)%nat -> 0.01 < L ^ (k - 2) * distance scene (F scene)) /\
  (forall x, D x -> F x = scene -> distance g x <= distance scene (F g) / (1 - L)).
Proof.
  intros tg tc m w D F L scene Rs Cs L0 Ds FD SD NT.
  destruct (search_converges tg m scene D F L L0 FD SD NT 9%nat 1%nat scene Ds) as (k & g & E & Dg & K & B & T & O).
  exists (to_pixel m (project_to_grid m g)), k, g. split; [unfold sicd_world_to_image; fold scene; rewrite E; reflexivity|].
  split; [lia|]. split; [exact Dg|]. split; [now apply grid_of_pixel|].
  split; [|split; [exact B|split; [intros; apply T; lia|split]]].
  - unfold sicd_image_to_world. rewrite grid_of_pixel by assumption. pose proof (FD g Dg) as G. unfold ground_of in G. now rewrite G.
  - intros Hk. replace (k - 2)%nat with (k - 1 - 1)%nat by lia. apply O. lia.
  - intros x Dx Fx. pose proof (near_exact scene D F L NT g x Dg Dx Fx) as Q. apply (Rmult_le_reg_l (1 - L)); [lra|].
    replace ((1 - L) * (distance scene (F g) / (1 - L))) with (distance scene (F g)) by (field; lra). exact Q.
Qed.
Print Assumptions C91_converges.

(** The points within [r] of the scene point on the ground plane will do, if the error at the start
    is at most (1 - L) r. *)
Theorem C91_converges_near :
  forall to_geodetic to_geocentric (m : Sicd) (w : Geodetic) (F : Vec -> Vec) (L r : R),
  let scene := to_geocentric w in let plane := default_surface to_geodetic m in
  let near := fun g => distance g scene <= r /\ on_plane (ref_ecf plane) (u_gpn plane) g in
  row_ss (converter m) <> 0 -> col_ss (converter m) <> 0 -> 0 <= L < 1 -> u_gpn plane <> vzero ->
  on_plane (ref_ecf plane) (u_gpn plane) scene -> 
  (forall g, near g -> ground_of to_geodetic m (project_to_grid m g) = Ok (Some (F g))) ->
  nearly_translates near F L -> distance scene (F scene) <= (1 - L) * r -> L ^ 9 * distance scene (F scene) <= 0.01 ->
  exists i p, sicd_world_to_image to_geodetic to_geocentric m w = Ok i /\
  sicd_image_to_world to_geodetic to_geocentric m i None = Ok (Some (to_geodetic p)) /\ distance scene p <= 0.01.
Proof.
  intros tg tc m w F L r scene plane near Rs Cs L0 N Os FD NT E0 E9.
  pose proof (distance_pos scene (F scene)) as P0. assert (R0 : 0 <= r) by (apply (Rmult_le_reg_l (1 - L)); lra).
  assert (Z : distance scene scene = 0) by (rewrite distance_eq; apply vnorm_zero_iff; apply vec_eq; cbn; ring).
  assert (Ns : near scene) by (split; [lra|exact Os]).
  assert (SD : forall g, near g -> near (vadd g (vsub scene (F g)))).
  { intros g H. pose proof (FD g H) as G. unfold ground_of in G. apply ground_on_plane in G; [|exact N]. destruct H as [Hr Ho]. split.
    - pose proof (NT g scene (conj Hr Ho) Ns) as Q.
      assert (T : distance (vadd g (vsub scene (F g))) scene <= distance (vsub g (F g)) (vsub scene (F scene)) + distance scene (F scene)).
      { rewrite !distance_eq. replace (vsub (vadd g (vsub scene (F g))) scene) with (vadd (vsub (vsub g (F g)) (vsub scene (F scene))) (vsub scene (F scene))) by (apply vec_eq; cbn; ring). apply vnorm_triangle. }
      assert (L * distance g scene <= L * r) by (apply Rmult_le_compat_l; lra). lra.
    - unfold on_plane in *. cbn [vadd vsub vx vy vz]. fold plane in G. nra. }
  destruct (C91_converges tg tc m w near F L Rs Cs L0 Ns FD SD NT) as (i & k & g & A & K & Dg & _ & B & C & T & _).
  exists i, (F g). split; [exact A|]. split; [exact B|]. destruct (Nat.eq_dec k 10) as [->|Nk]; [|apply T; lia].
  eapply Rle_trans; [exact C|exact E9].
Qed.
Print Assumptions C91_converges_near.

(** *** SICD documents *)

(** What the model built from a usable document makes of ground points. *)
Lemma sicd_projects d m : usable_sicd d -> sicd_build d = Some (Complete m) ->
  row_ss (converter m) <> 0 /\ col_ss (converter m) <> 0 /\ (forall i, grid_location m i = grid_metres d (ix i) (iy i)) /\
  forall g i, projects_to d g i <-> project_to_grid m g = grid_metres d (ix i) (iy i).
Proof.
  intros (Pm & Ur & Uc & Np & Sr & Sc & Nd) B.
  destruct (built d _ Pm B) as [(c & F & _)|(m' & F & _ & _ & _ & L & _)]; [discriminate|]. injection F as <-.
  assert (C : converter m = sicd_converter d /\ u_spn m = compute_u_spn (scp_position d) (arppos d) (arpvel d) (side d)).
  { unfold sicd_build, sicd_from_dataclass in B. destruct (poly2d_to_native _); [|discriminate]. cbn [bind] in B.
    destruct (xyzpoly_to_native _); [|discriminate]. cbn [bind] in B. destruct (projection_set _ _ _) as [[[q|] n]|]; cbn in B; [|discriminate|discriminate].
    injection B as <-. split; reflexivity. }
  destruct C as (C & S). rewrite C. split; [exact Sr|]. split; [exact Sc|]. split; [exact L|].
  assert (Nc : vcross (row_uvect d) (col_uvect d) <> vzero) by (now apply not_parallel_cross).
  pose proof (vnorm_pos_iff _ Nc) as Vp.
  assert (Nn : slant_normal d <> vzero) by (intros E; apply Nd; rewrite E; unfold vdot, vzero; cbn; ring).
  pose proof (vnorm_pos_iff _ Nn) as Vn.
  assert (Sn : exists s, s <> 0 /\ u_spn m = vscale s (slant_normal d)).
  { rewrite S. unfold compute_u_spn, normalised. fold (slant_normal d). set (n := slant_normal d) in *. destruct (String.eqb _ _).
    - assert (Nm : vnorm (vscale (-1) n) <> 0) by (apply Rgt_not_eq, vnorm_pos_iff; intros E; apply Nn; apply vec_eq;
        [apply (f_equal vx) in E|apply (f_equal vy) in E|apply (f_equal vz) in E]; cbn in E; cbn; lra).
      exists (- / vnorm (vscale (-1) n)). split; [|apply vec_eq; cbn; ring]. pose proof (Rinv_neq_0_compat _ Nm). lra.
    - exists (/ vnorm n). split; [apply Rinv_neq_0_compat; lra|reflexivity]. }
  destruct Sn as (s & Zs & Sn). 
  assert (Un : uvect_ipn (converter m) = vscale (/ vnorm (vcross (row_uvect d) (col_uvect d))) (vcross (row_uvect d) (col_uvect d))) by (rewrite C; reflexivity).
  assert (D : vdot (u_spn m) (uvect_ipn (converter m)) <> 0).
  { rewrite Sn, Un, vdot_scale_l, vdot_scale_r. repeat apply Rmult_integral_contrapositive_currified; auto. apply Rinv_neq_0_compat. lra. }
  intros g i. destruct (C37_projects_along_normal m g) as (t & X & Y); try assumption; try (rewrite C; assumption).
  assert (I : sicd_place d i = xrowycol_to_ipp (converter m) (grid_metres d (ix i) (iy i))).
  { unfold sicd_place, plane_point, xrowycol_to_ipp. rewrite C. cbn [sicd_converter scp_ecf u_row u_col]. apply vec_eq; cbn; ring. }
  assert (R : forall k, raised g (slant_normal d) k = vadd g (vscale (k / s) (u_spn m))).
  { intros k. rewrite Sn. unfold raised. apply vec_eq; cbn; field; exact Zs. }
  split.
  - intros (k & E). rewrite R in E. assert (k / s = t) as Ht.
    { apply Y. rewrite <- E, I. apply C32_on_image_plane. now rewrite C. }
    rewrite Ht, <- X in E. rewrite I in E. apply (f_equal (ipp_to_xrowycol (converter m))) in E.
    rewrite !C32_grid_of_plane_point in E by (rewrite C; assumption). now symmetry.
  - intros E. exists (t * s). rewrite R, I, <- E, X. replace (t * s / s) with t by (field; exact Zs). reflexivity.
Qed.

(** World to image of a SICD document is the search that the document describes: the pixels tried are
    those whose places in the image plane lie along the slant plane's normal from the ground points,
    and they are compared by where the model locates them without an elevation model. *)
Theorem C91_sicd :
  forall to_geodetic to_geocentric (d : SicdMeta) (m : Sicd) (w : Geodetic) (j : Image),
  usable_sicd d -> sicd_build d = Some (Complete m) -> (forall q, to_geocentric (to_geodetic q) = q) ->
  let located i p := sicd_image_to_world to_geodetic to_geocentric m i None = Ok (option_map to_geodetic p) in
  sicd_world_to_image to_geodetic to_geocentric m w = Ok j <->
  search (projects_to d) located (to_geocentric w) 10 (to_geocentric w) j.
Proof.
  intros tg tc d m w j U B RT located. destruct (sicd_projects d m U B) as (Rs & Cs & L & P).
  assert (Q : forall g, projects_to d g (to_pixel m (project_to_grid m g))) by (intros g; apply P; rewrite <- L; symmetry; now apply grid_of_pixel).
  assert (Pu : forall g i, projects_to d g i -> i = to_pixel m (project_to_grid m g)).
  { intros g i H. apply P in H. rewrite H, <- L. clear -Rs Cs. unfold to_pixel, grid_location, xrowycol_to_rowcol, rowcol_to_xrowycol. destruct i. cbn. f_equal; field; assumption. }
  assert (G : forall g p, located (to_pixel m (project_to_grid m g)) p <-> ground_of tg m (project_to_grid m g) = Ok p).
  { intros g p. unfold located, sicd_image_to_world. rewrite grid_of_pixel by assumption. unfold ground_of.
    destruct (ground_intersection _ _ _ _ _) as [[q|]|e]; cbn [bind]; destruct p as [p|]; cbn [option_map]; split; intros E; congruence. }
  unfold sicd_world_to_image. set (scene := tc w).
  assert (T : forall more g it, bind (scene_to_grid tg m scene g more it) (fun x => Ok (to_pixel m (fst x))) = Ok j <-> search (projects_to d) located scene (S more) g j);
    [|exact (T 9%nat scene 1%nat)].
  induction more as [|more IH]; intros g it; cbn [scene_to_grid];
    change (ground_intersection _ _ _ _ _) with (ground_of tg m (project_to_grid m g)); split.
  - destruct (ground_of tg m (project_to_grid m g)) as [[p|]|e] eqn:E; [| |discriminate]; cbn [bind]; intros H.
    + assert (j = to_pixel m (project_to_grid m g)) as -> by (destruct (Rlt_dec _ _); injection H; auto).
      apply Last with p; [apply Q|now apply G].
    + injection H as <-. apply Nowhere; [apply Q|now apply G].
  - intros H. inversion H as [? ? ? p K1 K2 K3|? ? ? K1 K2|? ? p K1 K2|? ? i p ? K1 K2 K3 K4]; subst.
    + apply Pu in K1. subst j. apply G in K2. rewrite K2. destruct (Rlt_dec _ _); reflexivity.
    + apply Pu in K1. subst j. apply G in K2. rewrite K2. reflexivity.
    + apply Pu in K1. subst j. apply G in K2. rewrite K2. destruct (Rlt_dec _ _); reflexivity.
    + inversion K4.
  - destruct (ground_of tg m (project_to_grid m g)) as [[p|]|e] eqn:E; [| |discriminate]; cbn [bind].
    + rewrite <- distance_eq. destruct (Rlt_dec _ _) as [F|F]; intros H.
      * apply Further with (to_pixel m (project_to_grid m g)) p; [apply Q|now apply G|exact F|]. apply IH in H. exact H.
      * injection H as <-. apply Close with p; [apply Q|now apply G|lra].
    + intros H. injection H as <-. apply Nowhere; [apply Q|now apply G].
  - intros H. inversion H as [? ? ? p K1 K2 K3|? ? ? K1 K2|? ? p K1 K2|? ? i p ? K1 K2 K3 K4]; subst.
    + apply Pu in K1. subst j. apply G in K2. rewrite K2, <- distance_eq. destruct (Rlt_dec _ _); [lra|reflexivity].
    + apply Pu in K1. subst j. apply G in K2. rewrite K2. reflexivity.
    + apply Pu in K1. subst i. apply G in K2. rewrite K2, <- distance_eq. destruct (Rlt_dec _ _); [|lra]. now apply IH.
Qed.
Print Assumptions C91_sicd.

(** *** Examples *)

(** An image plane on the ground: the pixel below a point 7 metres up is found, and located there. *)
Example C91_non_vacuous :
  let d := mkSiddMeta (mkVec 0 4 0) 20 10 (mkVec 1 0 0) (mkVec 0 1 0) 2 (1/2) (mkPoly2 [mkCoef2 0 0 0] 0 0)
             (mkXyzPoly (mkPoly1 [mkCoef1 2 1] 1) (mkPoly1 [] 0) (mkPoly1 [mkCoef1 3 0] 0)) None in
  usable_sidd d (fun _ => mkVec 2 0 0) /\ in_view d (fun _ => mkVec 2 0 0) (mkImage 12 21) /\
  sidd_place d (mkImage 12 21) = mkVec 2 5 0 /\
  exists m, sidd_from_dataclass (fun _ _ => Err LinAlgError) d = Ok m /\
  sidd_world_to_image demo_geodetic demo_geocentric m (mkGeo 2 5 7) = Ok (mkImage 12 21).
Proof.
  cbv zeta. set (d := mkSiddMeta _ _ _ _ _ _ _ _ _ _).
  assert (Q : forall e k, (0 <= k)%Z -> proper1 (mkPoly1 [mkCoef1 e k] k)).
  { intros e k K. split; [exact K|]. split; [intros c [<-|[]]; cbn; lia|]. repeat constructor. intros []. }
  assert (Tr : forall t, along (sidd_arppoly d) t = mkVec (2 * t) 0 3).
  { intros t. unfold along, declared1, total. cbn. change (Pos.to_nat 1) with 1%nat. cbn. f_equal; ring. }
  assert (M : sidd_metres d (ix (mkImage 12 21)) (iy (mkImage 12 21)) = (2, 1)) by (unfold sidd_metres; cbn; f_equal; field).
  assert (O : sidd_normal d = mkVec 0 0 1).
  { unfold sidd_normal, outward. destruct (Rlt_dec _ 0) as [L|L]; [exfalso; unfold vdot in L; cbn in L; lra|]. cbn. unfold vcross. cbn. f_equal; ring. }
  assert (I : sidd_place d (mkImage 12 21) = mkVec 2 5 0) by (unfold sidd_place; rewrite M; unfold plane_point; cbn; f_equal; ring).
  assert (U : usable_sidd d (fun _ => mkVec 2 0 0)).
  { split; [split; [cbn; lia|]; split; [cbn; lia|]; split; [intros c [<-|[]]; cbn; lia|]; repeat constructor; intros []|].
    split; [split; [apply Q; lia|]; split; [|apply Q; lia]; split; [cbn; lia|]; split; [intros c []|]; constructor|].
    split; [reflexivity|]. split; [unfold unit; cbn; ring|]. split; [unfold unit; cbn; ring|]. split; [right; right; cbn; lra|].
    split; [cbn; lra|]. split; [cbn; lra|].
    intros t. eapply velocity_ext with (f := fun s => mkVec (2 * s) 0 3); [intros s; symmetry; apply Tr|]. split; [|split]; cbn.
    + pose proof (derivable_pt_lim_scal id 2 t 1 (derivable_pt_lim_id t)) as D. rewrite Rmult_1_r in D. exact D.
    + apply derivable_pt_lim_const.
    + apply derivable_pt_lim_const. }
  assert (V : in_view d (fun _ => mkVec 2 0 0) (mkImage 12 21)).
  { unfold in_view. rewrite M, O, I, Tr. cbn [fst snd]. split; [unfold side_of; cbn; lra|].
    unfold height_over. cbn. replace (0 * (0 * 1) + 0 * (0 * 1) + 1 * (1 * 1)) with 1 by ring. rewrite sqrt_1. lra. }
  split; [exact U|]. split; [exact V|]. split; [exact I|].
  destruct (sidd_from_dataclass (fun _ _ => Err LinAlgError) d) as [m|] eqn:E; [|discriminate]. exists m. split; [reflexivity|].
  eapply (C91_sidd _ _ _ d m _ _ _ 7 U E V). rewrite I, O. unfold raised, demo_geocentric. cbn. f_equal; ring.
Qed.

(** An image in the slant plane of a flat earth: along the line below the radar beam the search does
    not end at once, and converges. *)
Definition slant_sicd : Sicd :=
  let scp := mkVec 0 4 0 in
  mkSicd (mkConverter (mkImage 10 20) scp (mkVec 0 (4/5) (-3/5)) (mkVec 1 0 0) 2 (1/2) (mkImage 3 4))
         (mkProjectionSet (PLANE scp (mkVec 0 (4/5) (-3/5)) (mkVec 1 0 0)) [[0]] (mkPolyXYZ [0; 2] [0] [3]) vzero vzero 0)
         (mkVec 0 (3/5) (4/5)) "L" (Some (mkVec 0 0 1)).
Definition slant_line (g : Vec) : Prop := vx g = 0 /\ vz g = 0 /\ 4 <= vy g <= 5.
Definition slant_back (g : Vec) : Vec := mkVec 0 (sqrt ((9 + 4 * vy g) ^ 2 / 25 - 9)) 0.

Lemma slant_grid g : slant_line g -> project_to_grid slant_sicd g = ((vy g - 4) * (4 / 5), 0).
Proof.
  intros (X & Z & Y). destruct g as [x y z]. cbn [vx vy vz] in *. subst x z.
  assert (U : uvect_ipn (converter slant_sicd) = mkVec 0 (-3/5) (-4/5)).
  { unfold uvect_ipn. cbn [slant_sicd converter u_row u_col]. replace (vcross _ _) with (mkVec 0 (-3/5) (-4/5)) by (apply vec_eq; cbn; field).
    apply normalised_of_unit. unfold vdot. cbn. field. }
  unfold project_to_grid. rewrite U. cbn [slant_sicd converter u_spn scp_ecf].
  replace (vdot (mkVec 0 (3/5) (4/5)) (mkVec 0 (-3/5) (-4/5))) with (-1) by (unfold vdot; cbn; field).
  replace (vadd _ _) with (xrowycol_to_ipp (converter slant_sicd) ((y - 4) * (4 / 5), 0)).
  - apply C32_grid_of_plane_point; cbn [slant_sicd converter u_row u_col]; [unfold unit; cbn; field|unfold unit; cbn; field|].
    right. left. cbn. lra.
  - unfold xrowycol_to_ipp. cbn [slant_sicd converter scp_ecf u_row u_col]. unfold vdot. apply vec_eq; cbn; field.
Qed.

Lemma slant_bounds y : 4 <= y <= 5 -> let f := sqrt ((9 + 4 * y) ^ 2 / 25 - 9) in y - 0.04 <= f <= y /\ f * f = (9 + 4 * y) ^ 2 / 25 - 9.
Proof.
  intros Y f. assert (P : 0 <= (9 + 4 * y) ^ 2 / 25 - 9) by nra. assert (Q : f * f = (9 + 4 * y) ^ 2 / 25 - 9) by (apply sqrt_sqrt, P).
  assert (0 <= f) by apply sqrt_pos. split; [|exact Q]. split; apply Rsqr_incr_0_var; unfold Rsqr; nra.
Qed.

Lemma slant_ground g : slant_line g -> ground_of demo_geodetic slant_sicd (project_to_grid slant_sicd g) = Ok (Some (slant_back g)).
Proof.
  intros H. rewrite slant_grid by exact H. destruct H as (X & Zz & Y). set (y := vy g) in *.
  destruct (slant_bounds y Y) as (Bf & Qf). unfold slant_back. fold y. set (f := sqrt _) in *.
  assert (Z : normalised (mkVec 0 0 1) = mkVec 0 0 1) by (apply normalised_of_unit; unfold vdot; cbn; ring).
  unfold ground_of, default_surface, make_plane. cbn [slant_sicd uvect_gpn scp_ecf converter projection]. rewrite Z.
  set (ps := mkProjectionSet _ _ _ _ _ _). set (xy := ((y - 4) * (4 / 5), 0)).
  assert (A : arp_coa (precise_rrdot ps xy) = mkVec 0 0 3) by (unfold ps, xy, precise_rrdot, poly2d, polyxyz; cbn; apply vec_eq; cbn; ring).
  assert (V : varp_coa (precise_rrdot ps xy) = mkVec 2 0 0) by (unfold ps, xy, precise_rrdot, poly2d, polyxyz, varp_poly; cbn; apply vec_eq; cbn; ring).
  destruct (C34_planar ps xy _ _ _ eq_refl) as (Rr & Rd). cbv zeta in Rr, Rd. rewrite A, V.
  change (range_bias ps) with 0 in Rr. rewrite Rplus_0_r in Rr.
  set (t := t_coa (precise_rrdot ps xy)) in *.
  assert (T0 : t = 0) by (unfold t, ps, xy, precise_rrdot, poly2d; cbn; ring). rewrite T0 in *.
  assert (A0 : polyxyz (arp_poly ps) 0 = mkVec 0 0 3) by (unfold ps, polyxyz; cbn; apply vec_eq; cbn; ring).
  assert (V0 : polyxyz (varp_poly ps) 0 = mkVec 2 0 0) by (unfold ps, polyxyz, varp_poly; cbn; apply vec_eq; cbn; ring).
  rewrite A0 in Rr, Rd. rewrite V0 in Rd. 
  match type of Rr with _ = distance _ ?q => set (pp := q) in * end.
  assert (Pp : pp = mkVec 0 (4 + (y - 4) * (16 / 25)) (- (y - 4) * (12 / 25))) by (unfold pp, xy; apply vec_eq; cbn; field). rewrite Pp in *.
  assert (D : distance (mkVec 0 0 3) (mkVec 0 (4 + (y - 4) * (16 / 25)) (- (y - 4) * (12 / 25))) = (9 + 4 * y) / 5).
  { unfold distance. cbn [vx vy vz]. replace (_ + _ + _) with ((9 + 4 * y) / 5 * ((9 + 4 * y) / 5)) by field. apply sqrt_square. lra. }
  assert (D' : distance (mkVec 0 0 3) (mkVec 0 f 0) = (9 + 4 * y) / 5).
  { unfold distance. cbn [vx vy vz]. replace (_ + _ + _) with ((9 + 4 * y) / 5 * ((9 + 4 * y) / 5)); [apply sqrt_square; lra|].
    replace ((0 - 0) ^ 2 + (0 - f) ^ 2 + (3 - 0) ^ 2) with (f * f + 9) by ring. rewrite Qf. field. }
  rewrite D in Rr. assert (Rd0 : rdot_coa (precise_rrdot ps xy) = 0) by (rewrite Rd; unfold range_rate; cbn; field; rewrite D; lra).
  rewrite Rr, Rd0.
  apply C33_finds_every_solution; cbn [u_gpn ref_ecf].
  - intros F. injection F. lra.
  - intros k F. cbn in F. injection F. lra.
  - unfold side_of. cbn. lra.
  - rewrite height_over_eq, Z. unfold vdot. cbn. lra.
  - unfold on_plane. cbn. lra.
  - exact D'.
  - unfold range_rate. cbn. field. rewrite D'. lra.
  - unfold side_of. cbn. nra.
Qed.

Example C91_converges_non_vacuous :
  let scene := mkVec 0 4.8 0 in
  slant_line scene /\ (forall g, slant_line g -> slant_line (vadd g (vsub scene (slant_back g)))) /\ nearly_translates slant_line slant_back 0.1 /\
  0.01 < distance scene (slant_back scene) /\
  exists i p, sicd_world_to_image demo_geodetic demo_geocentric slant_sicd (mkGeo 0 4.8 0) = Ok i /\
  sicd_image_to_world demo_geodetic demo_geocentric slant_sicd i None = Ok (Some (demo_geodetic p)) /\ distance scene p <= 0.01.
Proof.
  intros scene. assert (S : slant_line scene) by (unfold slant_line, scene; cbn; lra).
  assert (C : forall g, slant_line g -> slant_line (vadd g (vsub scene (slant_back g)))).
  { intros g (X & Z & Y). unfold slant_line, scene, slant_back. cbn [vadd vsub vx vy vz]. destruct (slant_bounds _ Y) as (B & _). lra. }
  assert (D1 : forall a b, distance (mkVec 0 a 0) (mkVec 0 b 0) = Rabs (a - b)).
  { intros a b. unfold distance. cbn [vx vy vz]. replace (_ + _ + _) with (Rsqr (a - b)) by (unfold Rsqr; ring). apply sqrt_Rsqr_abs. }
  assert (N : nearly_translates slant_line slant_back 0.1).
  { intros [x y z] [x' y' z'] (X & Z & Y) (X' & Z' & Y'). cbn [vx vy vz] in *. subst x z x' z'. unfold slant_back. cbn [vy].
    destruct (slant_bounds _ Y) as (B & Q). destruct (slant_bounds _ Y') as (B' & Q'). set (f := sqrt _) in *. set (f' := sqrt ((9 + 4 * y') ^ 2 / 25 - 9)) in *.
    replace (vsub (mkVec 0 y 0) (mkVec 0 f 0)) with (mkVec 0 (y - f) 0) by (apply vec_eq; cbn; ring).
    replace (vsub (mkVec 0 y' 0) (mkVec 0 f' 0)) with (mkVec 0 (y' - f') 0) by (apply vec_eq; cbn; ring). rewrite !D1.
    assert (E : (f - f') * (f + f') = (y - y') * ((4 / 25) * (18 + 4 * (y + y')))) by (replace ((f - f') * (f + f')) with (f * f - f' * f') by ring; rewrite Q, Q'; field).
    set (q := ((4 / 25) * (18 + 4 * (y + y'))) / (f + f')).
    assert (F : f - f' = (y - y') * q) by (unfold q; apply (Rmult_eq_reg_r (f + f')); [rewrite E; field; lra|lra]).
    assert (L : 0.9 <= q <= 1.1).
    { unfold q. split; apply (Rmult_le_reg_r (f + f')); try lra; unfold Rdiv at 2; rewrite ?Rmult_assoc, ?Rinv_l, ?Rmult_1_r by lra; try lra.
      all: unfold Rdiv; rewrite ?Rmult_assoc, ?Rinv_l, ?Rmult_1_r by lra; lra. }
    replace (y - f - (y' - f')) with ((y - y') * (1 - q)) by lra. rewrite Rabs_mult, Rmult_comm. apply Rmult_le_compat_r; [apply Rabs_pos|].
    apply Rabs_le. lra. }
  split; [exact S|]. split; [exact C|]. split; [exact N|]. split.
  - unfold scene, slant_back. cbn [vy]. rewrite D1. destruct (slant_bounds 4.8 ltac:(lra)) as (B & Q). set (f := sqrt _) in *.
    apply Rlt_le_trans with (4.8 - f); [|apply Rle_abs]. nra.
  - destruct (C91_converges demo_geodetic demo_geocentric slant_sicd (mkGeo 0 4.8 0) slant_line slant_back 0.1) as (i & k & g & A & K & Dg & _ & B & E & T & _); cbn [slant_sicd converter row_ss col_ss]; try lra; auto.
    + apply slant_ground.
    + exists i, (slant_back g). split; [exact A|]. split; [exact B|]. destruct (Nat.eq_dec k 10) as [->|Nk]; [|apply T; lia].
      eapply Rle_trans; [exact E|]. change (demo_geocentric _) with scene. unfold scene at 1. unfold slant_back. cbn [vy]. rewrite D1.
      destruct (slant_bounds 4.8 ltac:(lra)) as (Bf & _). set (f := sqrt _) in *. rewrite Rabs_pos_eq by lra. cbn. lra.
Qed.

(** A horizontal image plane below a slanting line of sight: a point half a centimetre up the slant
    plane's normal from the scene centre is found at the scene centre's pixel. *)
Definition north_geodetic (p : Vec) : Geodetic := mkGeo (vy p) (PI / 2 + vx p) (vz p).
Definition north_geocentric (g : Geodetic) : Vec := mkVec (latitude g - PI / 2) (longitude g) (elevation g).
Example C91_sicd_non_vacuous :
  usable_sicd demo_meta /\ slant_normal demo_meta = mkVec 0 6 8 /\ (forall q, north_geocentric (north_geodetic q) = q) /\
  exists m, sicd_build demo_meta = Some (Complete m) /\
  sicd_world_to_image north_geodetic north_geocentric m (north_geodetic (mkVec 0 4.003 0.004)) = Ok (mkImage (-30) (-10)).
Proof.
  destruct C83_non_vacuous as (W & (b & B & _) & Hm).
  assert (S : slant_normal demo_meta = mkVec 0 6 8) by (unfold slant_normal; apply vec_eq; cbn; ring).
  assert (RT : forall q, north_geocentric (north_geodetic q) = q) by (intros q; apply vec_eq; cbn; ring).
  assert (U : usable_sicd demo_meta).
  { split; [exact W|]. split; [unfold unit; cbn; ring|]. split; [unfold unit; cbn; ring|]. split; [right; right; cbn; lra|].
    split; [cbn; lra|]. split; [cbn; lra|]. rewrite S. unfold vdot. cbn. lra. }
  split; [exact U|]. split; [exact S|]. split; [exact RT|].
  destruct b as [m|c]; [|discriminate]. exists m. split; [exact B|]. apply (C91_sicd _ _ demo_meta m _ _ U B RT). rewrite RT.
  assert (G0 : grid_metres demo_meta (ix (mkImage (-30) (-10))) (iy (mkImage (-30) (-10))) = (0, 0)) by (unfold grid_metres; cbn; f_equal; field).
  apply Close with (mkVec 0 4 0).
  - exists (-0.0005). unfold sicd_place. rewrite G0, S. unfold plane_point, raised. apply vec_eq; cbn; lra.
  - assert (Tr : forall t, trajectory demo_meta t = mkVec (2 * t) 0 3).
    { intros t. unfold trajectory, along, declared1, total. cbn. change (Pos.to_nat 1) with 1%nat. cbn. f_equal; ring. }
    assert (T0 : trajectory demo_meta 0 = mkVec 0 0 3) by (rewrite Tr; f_equal; ring).
    assert (C0 : coa_instant demo_meta (0, 0) = 0) by (unfold coa_instant, declared2, total; cbn; ring).
    assert (Z : distance (mkVec 0 0 3) (mkVec 0 4 0) = 5) by (apply demo_distance; cbn; lra).
    assert (Sn : surface_normal north_geodetic demo_meta = mkVec 0 0 1).
    { unfold surface_normal, local_up, north_geodetic. cbn. rewrite Rplus_0_r, cos_PI2, sin_PI2. f_equal; ring. }
    apply (C83_ground_found north_geodetic north_geocentric demo_meta _ (mkImage (-30) (-10)) (mkVec 0 4 0) 5 0 (fun _ => mkVec 2 0 0) W B);
      rewrite ?G0, ?C0, ?T0, ?Sn; auto.
    + intros t. eapply velocity_ext with (f := fun s => mkVec (2 * s) 0 3); [intros s; symmetry; apply Tr|]. split; [|split]; cbn.
      * pose proof (derivable_pt_lim_scal id 2 t 1 (derivable_pt_lim_id t)) as D. rewrite Rmult_1_r in D. exact D.
      * apply derivable_pt_lim_const.
      * apply derivable_pt_lim_const.
    + unfold side_of. cbn. lra.
    + unfold height_over. cbn. replace (0 * (0 * 1) + 0 * (0 * 1) + 1 * (1 * 1)) with 1 by ring. rewrite sqrt_1. lra.
    + unfold on_plane. cbn. lra.
    + unfold range_rate. rewrite Z. cbn. field.
    + unfold side_of. cbn. lra.
  - unfold distance. cbn [vx vy vz]. replace ((0 - 0) ^ 2 + (4.003 - 4) ^ 2 + (0.004 - 0) ^ 2) with (0.005 * 0.005) by lra. rewrite sqrt_square; lra.
Qed.

(** Terrain below the image plane: the pixel of the reference point is located on it, and found again
    at another pixel. *)
Example C91_terrain_non_vacuous :
  let d := mkSiddMeta (mkVec 0 4 0) 20 10 (mkVec 1 0 0) (mkVec 0 1 0) 2 (1/2) (mkPoly2 [mkCoef2 0 0 0] 0 0)
             (mkXyzPoly (mkPoly1 [mkCoef1 2 1] 1) (mkPoly1 [] 0) (mkPoly1 [mkCoef1 3 0] 0)) None in
  exists m g j, sidd_from_dataclass (fun _ _ => Err LinAlgError) d = Ok m /\
  sidd_image_to_world north_geodetic north_geocentric m (mkImage 10 20) (Some (hill 3)) = Ok (Some g) /\
  sidd_world_to_image north_geodetic north_geocentric m g = Ok j /\ j <> mkImage 10 20.
Proof.
  cbv zeta. set (d := mkSiddMeta _ _ _ _ _ _ _ _ _ _). destruct C91_non_vacuous as (U & _ & _ & m & E & _). fold d in U, E.
  assert (Tr : forall t, along (sidd_arppoly d) t = mkVec (2 * t) 0 3).
  { intros t. unfold along, declared1, total. cbn. change (Pos.to_nat 1) with 1%nat. cbn. f_equal; ring. }
  assert (O : sidd_normal d = mkVec 0 0 1).
  { unfold sidd_normal, outward. destruct (Rlt_dec _ 0) as [L|L]; [exfalso; unfold vdot in L; cbn in L; lra|]. cbn. unfold vcross. cbn. f_equal; ring. }
  assert (M : sidd_metres d (ix (mkImage 10 20)) (iy (mkImage 10 20)) = (0, 0)) by (unfold sidd_metres; cbn; f_equal; field).
  assert (T : forall x y, declared2 (sidd_time_coa d) x y = 0) by (intros; unfold declared2, total; cbn; ring).
  assert (I : plane_point (ref_position d) (plane_urow d) (plane_ucol d) (0, 0) = mkVec 0 4 0) by (unfold plane_point; cbn; f_equal; ring).
  assert (Z : distance (mkVec 0 0 3) (mkVec 0 4 0) = 5) by (apply demo_distance; cbn; lra).
  assert (Y : range_rate (mkVec 0 0 3) (mkVec 2 0 0) (mkVec 0 4 0) = 0) by (unfold range_rate; rewrite Z; cbn; field).
  assert (Z3 : mkVec (2 * 0) 0 3 = mkVec 0 0 3) by (f_equal; ring).
  assert (B : forall q, north_geocentric (north_geodetic q) = q) by (intros []; unfold north_geocentric, north_geodetic; cbn; f_equal; ring).
  assert (R51 : 0 < sqrt (51/100)) by (apply sqrt_lt_R0; lra).
  set (q := mkVec 0 (5 * sqrt (51/100)) (3 - 7/2)).
  assert (H : sidd_image_to_world north_geodetic north_geocentric m (mkImage 10 20) (Some (hill 3)) = Ok (Some (north_geodetic q))).
  { pose proof U as (P2 & Px & Ch & _ & _ & _ & _ & _ & Hv).
    rewrite (sidd_terrain _ _ _ d m _ (hill 3) _ P2 Px Ch E Hv). cbv zeta.
    rewrite M. cbn [fst snd]. rewrite T, I, Tr, Z3, Z, Y.
    destruct (make_dem north_geodetic (ref_position d) "L" (hill 3)) as [dm|] eqn:Dm; [|discriminate]. cbn [bind].
    rewrite (hill_found _ _ 3 2 (ref_position d) dm); [reflexivity | | | lra | lra | reflexivity | cbn; lra | exact Dm].
    - intros p X. unfold north_geodetic, flat_geodetic. rewrite X. f_equal. ring.
    - intros y h. unfold north_geocentric. cbn. f_equal. ring. }
  set (j := mkImage (2 * (5 * sqrt (51/100) - 4) + 10) 20).
  assert (Mj : sidd_metres d (ix j) (iy j) = (0, 5 * sqrt (51/100) - 4)) by (unfold sidd_metres; cbn; f_equal; field).
  assert (Ij : sidd_place d j = mkVec 0 (5 * sqrt (51/100)) 0) by (unfold sidd_place; rewrite Mj; unfold plane_point; cbn; f_equal; ring).
  assert (Ht : height_over (ref_position d) (mkVec 0 0 1) (mkVec 0 0 3) = 3).
  { unfold height_over. cbn. replace (0 * (0 * 1) + 0 * (0 * 1) + 1 * (1 * 1)) with 1 by ring. rewrite sqrt_1. lra. }
  assert (N1 : vnorm (mkVec 0 0 1) = 1) by (apply vnorm_of_sqr; [lra | unfold vdot; cbn; ring]).
  exists m, (north_geodetic q), j. split; [exact E|]. split; [exact H|].
  apply (C91_sidd_terrain_refuted (fun _ _ => Err LinAlgError) north_geodetic north_geocentric d m (fun _ => mkVec 2 0 0) (mkImage 10 20) j (hill 3) _ (-1/2) U E B H).
  - rewrite B, Ij, O. unfold q, raised. cbn. f_equal; field.
  - unfold in_view. rewrite Mj, Ij, O, Tr. cbn [fst snd]. rewrite T, Z3, Ht. split; [|lra]. unfold side_of. cbn. nra.
  - rewrite M. cbn [fst snd]. rewrite T, Tr, Z3. unfold sidd_place. rewrite M, I. intros F. injection F. lra.
  - lra.
  - rewrite M, O. cbn [fst snd]. rewrite T, Tr, Z3, Ht, N1. lra.
Qed.

(** A point half a metre up the slant plane's normal: all ten iterations run, without moving. *)
Lemma low_ground : ground_of demo_geodetic demo_sicd (0, - (7/4)) = Ok (Some (mkVec 0 (9/4) 0)).
Proof.
  assert (Z : normalised (mkVec 0 0 1) = mkVec 0 0 1) by (apply normalised_of_unit; unfold vdot; cbn; ring).
  assert (D : distance (mkVec 0 0 3) (mkVec 0 (9/4) 0) = 15/4) by (apply demo_distance; cbn; lra).
  unfold ground_of, default_surface, make_plane. cbn [demo_sicd uvect_gpn scp_ecf converter]. rewrite Z.
  set (ps := projection demo_sicd). destruct (C34_planar ps (0, - (7/4)) _ _ _ eq_refl) as [X Y]. cbv zeta in X, Y.
  assert (Et : t_coa (precise_rrdot ps (0, - (7/4))) = 0) by (unfold precise_rrdot; cbn; lra).
  rewrite Et in X, Y.
  assert (Ea : polyxyz (arp_poly ps) 0 = mkVec 0 0 3) by (unfold polyxyz; cbn; f_equal; lra).
  assert (Ev : polyxyz (varp_poly ps) 0 = mkVec 2 0 0) by (unfold polyxyz; cbn; f_equal; lra).
  rewrite Ea in X, Y. rewrite Ev in Y. change (range_bias ps) with 0 in X.
  match type of X with _ = distance _ ?p + _ => assert (Ep : p = mkVec 0 (9/4) 0) by (cbn; f_equal; lra) end.
  rewrite Ep in X, Y. rewrite D in X.
  change (projection (mkSicd (mkConverter (mkImage 10 20) (mkVec 0 4 0) (mkVec 1 0 0) (mkVec 0 1 0) 2 (1/2) (mkImage 3 4)) ps (mkVec 0 (3/5) (4/5)) "L" (Some (mkVec 0 0 1)))) with ps.
  rewrite X, Y.
  change (arp_coa (precise_rrdot ps (0, - (7/4)))) with (vadd (polyxyz (arp_poly ps) (t_coa (precise_rrdot ps (0, - (7/4))))) vzero).
  change (varp_coa (precise_rrdot ps (0, - (7/4)))) with (vadd (polyxyz (varp_poly ps) (t_coa (precise_rrdot ps (0, - (7/4))))) vzero).
  rewrite Et, Ea, Ev. replace (vadd (mkVec 0 0 3) vzero) with (mkVec 0 0 3) by (apply vec_eq; cbn; ring). replace (vadd (mkVec 2 0 0) vzero) with (mkVec 2 0 0) by (apply vec_eq; cbn; ring).
  replace (15/4 + 0) with (15/4) by ring.
  apply C33_finds_every_solution; cbn [u_gpn ref_ecf].
  - intros F. injection F. lra.
  - intros k F. cbn in F. injection F. lra.
  - unfold side_of. cbn. lra.
  - rewrite height_over_eq, Z. unfold vdot. cbn. lra.
  - unfold on_plane. cbn. lra.
  - exact D.
  - reflexivity.
  - unfold side_of. cbn. lra.
Qed.

Example C37_off_plane_non_vacuous :
  scene_to_grid demo_geodetic demo_sicd (mkVec 0 (51/20) (2/5)) (mkVec 0 (51/20) (2/5)) 9 1 = Ok ((0, - (7/4)), 10%nat) /\
  exists g, (0, - (7/4)) = project_to_grid demo_sicd g /\
  height_over (mkVec 0 4 0) (mkVec 0 0 1) g = INR 10 * height_over (mkVec 0 4 0) (mkVec 0 0 1) (mkVec 0 (51/20) (2/5)).
Proof.
  assert (Z : normalised (mkVec 0 0 1) = mkVec 0 0 1) by (apply normalised_of_unit; unfold vdot; cbn; ring).
  assert (S : default_surface demo_geodetic demo_sicd = mkPlane (mkVec 0 4 0) (mkVec 0 0 1)) by (unfold default_surface, make_plane; cbn [demo_sicd uvect_gpn scp_ecf converter]; rewrite Z; reflexivity).
  assert (N : uvect_ipn (converter demo_sicd) = mkVec 0 0 1).
  { unfold uvect_ipn. cbn [converter demo_sicd u_row u_col]. replace (vcross (mkVec 1 0 0) (mkVec 0 1 0)) with (mkVec 0 0 1) by (apply vec_eq; cbn; ring). exact Z. }
  assert (P : forall c, project_to_grid demo_sicd (raised (mkVec 0 (9/4) 0) (mkVec 0 (3/5) (4/5)) c) = (0, - (7/4))).
  { intros c. assert (Un : unit (mkVec 1 0 0)) by (unfold unit; cbn; ring). assert (Uc : unit (mkVec 0 1 0)) by (unfold unit; cbn; ring).
    assert (Np : not_parallel (mkVec 1 0 0) (mkVec 0 1 0)) by apply C68_non_vacuous.
    rewrite <- (C32_grid_of_plane_point (converter demo_sicd) (0, - (7/4)) Un Uc Np).
    unfold project_to_grid. rewrite N. f_equal.
    unfold raised, xrowycol_to_ipp. cbn. unfold vdot. cbn. apply vec_eq; cbn; field. }
  assert (R : mkVec 0 (51/20) (2/5) = raised (mkVec 0 (9/4) 0) (mkVec 0 (3/5) (4/5)) (1/2)) by (unfold raised; cbn; f_equal; lra).
  assert (H : scene_to_grid demo_geodetic demo_sicd (mkVec 0 (51/20) (2/5)) (mkVec 0 (51/20) (2/5)) 9 1 = Ok ((0, - (7/4)), 10%nat)).
  { destruct (found_above demo_geodetic demo_sicd (mkVec 0 (51/20) (2/5)) (mkVec 0 (9/4) 0) (mkVec 0 (3/5) (4/5)) (0, - (7/4)) low_ground P (1/2) R 9 1 (1/2)) as [k K].
    rewrite <- R in K. rewrite K. do 2 f_equal.
    destruct (C37_off_plane_never_converges demo_geodetic demo_sicd (mkVec 0 (51/20) (2/5)) (0, - (7/4)) k ltac:(rewrite S; cbn; intros F; injection F; lra)
      ltac:(rewrite S; cbn [ref_ecf u_gpn]; rewrite height_over_eq, Z; unfold vdot; cbn; unfold Rabs; destruct (Rcase_abs _); lra) K) as [E|E]; [exact E|].
    rewrite low_ground in E. discriminate. }
  split; [exact H|].
  destruct (C37_height_is_multiplied demo_geodetic demo_sicd _ _ _ ltac:(rewrite S; cbn; intros F; injection F; lra) H) as (g & G1 & G2).
  rewrite S in G2. exists g. split; [exact G1 | exact G2].
Qed.
