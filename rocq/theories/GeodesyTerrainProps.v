(** Property theorems for SICD pixels located on terrain over the WGS 84 ellipsoid (C105). *)
Require Import ZArith Reals String List Lra Lia.
Require Import Verif.Base Verif.BaseFacts Verif.Vec Verif.VecFacts Verif.SicdModel Verif.PolySpec Verif.SicdSpec Verif.SicdProofs Verif.SicdGroundProofs Verif.SicdProps
  Verif.SicdSurfaceProps Verif.SicdFindProps Verif.GeodesyModel Verif.GeodesyProofs Verif.GeodesyHeightProofs Verif.GeodesyProps
  Verif.GeodesyUseProps Verif.GeodesyLevelProps.
Import ListNotations.
Local Open Scope R_scope.

(** The height over the ellipsoid is a convex function: along a straight line it is nowhere above the
    straight interpolation between the heights of two points. *)
Lemma height_above_tangent p q : -6335439 < elevation (wgs84_geodetic q) -> 
  -6335439 < elevation (wgs84_geodetic q) + vdot (local_up (wgs84_geodetic q)) (vsub p q) ->
  elevation (wgs84_geodetic q) + vdot (local_up (wgs84_geodetic q)) (vsub p q) <= elevation (wgs84_geodetic p).
Proof.
  intros H L. pose proof (no_higher p (wgs84_geodetic q)) as N. pose proof (height_along (wgs84_geodetic q)) as A. rewrite geocentric_geodetic in A.
  set (u := local_up (wgs84_geodetic q)) in *. assert (E : vdot u (vsub p q) = vdot p u - vdot q u) by (unfold vdot, vsub; cbn; ring). rewrite E in *.
  assert (Dd : 6335439 <= deepest) by (unfold deepest, semi_major, eccentricity2, flattening; lra).
  unfold Rmax in N. destruct (Rle_dec _ _); lra.
Qed.
Theorem C101_convex :
  forall (p q : Vec) (t : R), -6335439 < elevation (wgs84_geodetic p) -> -6335439 < elevation (wgs84_geodetic q) -> 0 <= t <= 1 ->
  elevation (wgs84_geodetic (mkVec (vx p + t * (vx q - vx p)) (vy p + t * (vy q - vy p)) (vz p + t * (vz q - vz p))))
  <= elevation (wgs84_geodetic p) + t * (elevation (wgs84_geodetic q) - elevation (wgs84_geodetic p)).
Proof.
  intros p q t Hp Hq T. set (m := mkVec _ _ _). pose proof (no_higher p (wgs84_geodetic m)) as P. pose proof (no_higher q (wgs84_geodetic m)) as Q.
  pose proof (height_along (wgs84_geodetic m)) as A. rewrite geocentric_geodetic in A. set (u := local_up (wgs84_geodetic m)) in *.
  assert (Dd : 6335439 <= deepest) by (unfold deepest, semi_major, eccentricity2, flattening; lra).
  rewrite Rmax_left in P, Q by lra. assert (E : vdot m u = vdot p u + t * (vdot q u - vdot p u)) by (unfold m, vdot; cbn; ring). nra.
Qed.
Print Assumptions C101_convex.

(** ** C105: terrain *)

(** How far a point is below the antenna, at right angles to its velocity. *)
Definition below (arp v q : Vec) : R := vdot (vsub q arp) (vcross (vcross arp v) v) / (vnorm (vcross arp v) * vnorm v).

Lemma contour_below r rdot arp v c q : make_contour r rdot arp v = Some c -> vdot (vsub q (ctr c)) (u_rrx c) = below arp v q.
Proof.
  intros C. pose proof (contour_frame _ _ _ _ _ C) as F. cbv zeta in F. destruct F as (Pv & Uu & Xx & Yy & Xy & Xu & Yu & K0 & Ec & Er).
  set (n := r * (-1 * rdot / vnorm v)) in *. assert (W : vdot (vsub q (ctr c)) (u_rrx c) = vdot (vsub q arp) (u_rrx c)).
  { rewrite Ec, !vdot_sub_l, vdot_add_l, vdot_scale_l, (vdot_comm (normalised v)), Xu. ring. }
  rewrite W. clear W n Ec Er Uu Xx Yy Xy Xu Yu K0.
  unfold make_contour in C. destruct (Req_EM_T (vnorm v) 0); [discriminate|]. destruct (Rlt_dec _ 0); [discriminate|]. destruct (Req_EM_T (vnorm (vcross _ _)) 0) as [|N]; [discriminate|].
  injection C as <-. cbn [u_rrx].
  assert (Pa : vnorm arp <> 0).
  { intros Z. apply N. apply vnorm_zero_iff in Z. subst arp. apply vnorm_zero_iff. unfold vcross, normalised, vscale, vzero. cbn. f_equal; ring. }
  pose proof (vnorm_pos arp) as Ap. assert (I1 : 0 < / vnorm arp) by (apply Rinv_0_lt_compat; lra). assert (I2 : 0 < / vnorm v) by (apply Rinv_0_lt_compat; lra).
  assert (I : 0 < / vnorm arp * / vnorm v) by (apply Rmult_lt_0_compat; assumption).
  rewrite (cross_normalised arp v) in *. rewrite vnorm_scale in N by lra. set (m := / vnorm arp * / vnorm v) in *.
  unfold below. set (k := vnorm (vcross arp v)) in *. assert (K : k <> 0) by (intros Z; apply N; rewrite Z; ring).
  assert (E : vcross (normalised (vscale m (vcross arp v))) (normalised v) = vscale (/ k * / vnorm v) (vcross (vcross arp v) v)).
  { unfold normalised. rewrite vnorm_scale by lra. fold k. unfold vcross, vscale. cbn. f_equal; field; repeat split; lra. }
  rewrite E, vdot_scale_r. field. split; lra.
Qed.

(** Samples next to each other. *)
Lemma chord r rdot arp v c look c1 c2 cs p q : make_contour r rdot arp v = Some c -> look * look = 1 -> 0 < rrrc c -> 0 <= cs < 1 ->
  0 <= c1 <= cs -> 0 <= c2 <= cs -> contour_point c look c1 = Some p -> contour_point c look c2 = Some q ->
  distance p q * sqrt (1 - cs * cs) <= rrrc c * Rabs (c1 - c2).
Proof.
  intros C L R0 Cs C1 C2 P Q. apply contour_frame in C. cbv zeta in C. destruct C as (Pv & Uu & Xx & Yy & Xy & Xu & Yu & K0 & Ec & Er).
  unfold contour_point in P, Q. destruct (Rlt_dec (1 - c1 * c1) 0) as [|S1]; [discriminate|]. destruct (Rlt_dec (1 - c2 * c2) 0) as [|S2]; [discriminate|].
  injection P as <-. injection Q as <-. set (x := u_rrx c) in *. set (y := u_rry c) in *.
  assert (Q1 : sqrt (1 - c1 * c1) * sqrt (1 - c1 * c1) = 1 - c1 * c1) by (apply sqrt_sqrt; lra).
  assert (Q2 : sqrt (1 - c2 * c2) * sqrt (1 - c2 * c2) = 1 - c2 * c2) by (apply sqrt_sqrt; lra).
  assert (Q3 : sqrt (1 - cs * cs) * sqrt (1 - cs * cs) = 1 - cs * cs) by (apply sqrt_sqrt; nra).
  assert (G1 : sqrt (1 - cs * cs) <= sqrt (1 - c1 * c1)) by (apply sqrt_le_1_alt; nra).
  assert (G2 : sqrt (1 - cs * cs) <= sqrt (1 - c2 * c2)) by (apply sqrt_le_1_alt; nra).
  assert (G3 : 0 < sqrt (1 - cs * cs)) by (apply sqrt_lt_R0; nra).
  set (s1 := sqrt (1 - c1 * c1)) in *. set (s2 := sqrt (1 - c2 * c2)) in *. set (ss := sqrt (1 - cs * cs)) in *.
  set (p := vadd _ _). set (q := vadd _ _).
  assert (D : distance p q ^ 2 = rrrc c ^ 2 * ((c1 - c2) ^ 2 + (s1 - s2) ^ 2)).
  { rewrite distance_sq. transitivity (rrrc c ^ 2 * ((c1 - c2) ^ 2 * vdot x x + (look * look) * (s1 - s2) ^ 2 * vdot y y + 2 * (c1 - c2) * (look * (s1 - s2)) * vdot x y)).
    - unfold p, q, vdot, vadd, vscale. cbn. ring.
    - rewrite Xx, Yy, Xy, L. ring. }
  assert (E : (s1 - s2) * (s1 + s2) = (c2 - c1) * (c2 + c1)) by nra.
  assert (F : ((s1 - s2) * ss) ^ 2 <= ((c1 - c2) * cs) ^ 2).
  { rewrite <- !Rsqr_pow2. apply Rsqr_le_abs_1. rewrite !Rabs_mult, (Rabs_pos_eq ss), (Rabs_pos_eq cs) by lra.
    assert (E' : Rabs (s1 - s2) * (s1 + s2) = Rabs (c1 - c2) * (c2 + c1)).
    { apply (f_equal Rabs) in E. rewrite !Rabs_mult, (Rabs_pos_eq (s1 + s2)), (Rabs_pos_eq (c2 + c1)), (Rabs_minus_sym c2) in E by lra. exact E. }
    pose proof (Rabs_pos (s1 - s2)). pose proof (Rabs_pos (c1 - c2)).
    assert (Rabs (s1 - s2) * (2 * ss) <= Rabs (s1 - s2) * (s1 + s2)) by (apply Rmult_le_compat_l; lra).
    assert (Rabs (c1 - c2) * (c2 + c1) <= Rabs (c1 - c2) * (2 * cs)) by (apply Rmult_le_compat_l; lra). lra. }
  apply sq_le; [apply Rmult_le_pos; [lra|apply Rabs_pos]|].
  rewrite !Rpow_mult_distr, D, pow2_abs.
  replace (rrrc c ^ 2 * ((c1 - c2) ^ 2 + (s1 - s2) ^ 2) * ss ^ 2) with (rrrc c ^ 2 * ((c1 - c2) ^ 2 * (ss * ss) + ((s1 - s2) * ss) ^ 2)) by ring. rewrite Q3.
  apply Rmult_le_compat_l; [apply pow2_ge_0|]. replace (((c1 - c2) * cs) ^ 2) with ((c1 - c2) ^ 2 * (cs * cs)) in F by ring. lra.
Qed.

(** The samples: on the front of the contour, no lower than the point at the smallest height. *)
Lemma samples_front tg tc (d : Dem) r rdot arp v s a b :
  dem_sampling tg tc d r rdot arp v = Ok s ->
  hae_intersection tg tc (default_hae (d_scp d) (d_side d) (hae_max d)) r rdot arp v = Ok (Some a) ->
  hae_intersection tg tc (default_hae (d_scp d) (d_side d) (hae_min d)) r rdot arp v = Ok (Some b) ->
  0 < r -> 0 < delta_dist_dem d -> 0 < delta_dist_rrc d -> delta_dist_rrc d <= below arp v a <= below arp v b ->
  make_contour r rdot arp v = Some (contour s) /\ look_side s = look_of (d_side d) /\ 0 < rrrc (contour s) <= r /\
  rrrc (contour s) * top s = below arp v a /\ rrrc (contour s) * start s = below arp v b /\
  0 < top s <= start s /\ start s < 1 /\ step s < 0 /\
  - step s * rrrc (contour s) <= delta_dist_rrc d * sqrt (1 - start s * start s) /\
  - step s * rrrc (contour s) * start s <= delta_dist_dem d * sqrt (1 - start s * start s) /\
  0 <= start s + IZR (points s - 1) * step s < top s /\ (2 <= points s)%Z.
Proof.
  intros Hs A B R0 Dd Dr (Ba & Bb). pose proof (dem_sampling_inv tg tc d r rdot arp v s Hs) as (C & Lk & St & Rc & S1 & P & _ & a' & b' & A' & B' & Ta & Sb).
  rewrite A in A'. injection A' as <-. rewrite B in B'. injection B' as <-. split; [exact C|]. split; [exact Lk|].
  pose proof (contour_frame _ _ _ _ _ C) as F. cbv zeta in F. destruct F as (Pv & _ & _ & _ & _ & _ & _ & K0 & _ & Er).
  set (c := contour s) in *. set (n := -1 * rdot / vnorm v) in *.
  assert (Sq : 0 <= sqrt (1 - n * n) <= 1). { split; [apply sqrt_pos|]. rewrite <- sqrt_1 at 2. apply sqrt_le_1_alt. nra. }
  assert (Rp : 0 < rrrc c) by (assert (0 <= rrrc c) by (rewrite Er; apply Rmult_le_pos; lra); lra).
  assert (Rr : rrrc c <= r) by (rewrite Er; nra). split; [split; assumption|].
  assert (Et : rrrc c * top s = below arp v a) by (rewrite Ta, (contour_below r rdot arp v c a C); field; lra).
  assert (Es : rrrc c * start s = below arp v b) by (rewrite Sb, (contour_below r rdot arp v c b C); field; lra).
  split; [exact Et|]. split; [exact Es|].
  assert (T0 : 0 < top s) by nra. assert (Ts : top s <= start s) by nra. split; [split; assumption|].
  destruct (C36_step tg tc d r rdot arp v s Hs Rp) as (Sn & Al & Ac & _); try lra. fold c in Al, Ac. cbv zeta in Al, Ac. set (w := sqrt (1 - start s * start s)) in *.
  assert (W0 : 0 <= w) by apply sqrt_pos.
  assert (Wq : w * w = 1 - start s * start s) by (unfold w; apply sqrt_sqrt, S1). assert (W1 : w <= 1) by nra.
  assert (Ww : 0 < w). { assert (0 < - step s * rrrc c) by nra. destruct W0 as [W0|W0]; [exact W0|]. rewrite <- W0 in Al. lra. }
  split; [nra|]. split; [exact Sn|]. split; [exact Al|]. split; [exact Ac|].
  destruct (sampling_covers s Sn Ts P) as (P2 & L1 & L2). split; [|exact P2]. split; [|exact L2].
  apply Rle_trans with (top s + step s); [|exact L1]. assert (- step s * rrrc c <= rrrc c * top s) by nra. nra.
Qed.

(** Where contour points are far below the antenna, consecutive samples are at most ten metres apart,
    horizontally at most half the post spacing; likewise any two points of the contour between them. *)
Theorem C105_spacing :
  forall to_geodetic to_geocentric (d : Dem) (r rdot : R) (arp v : Vec) (s : Sampling) (a b : Vec) (n : nat) (x y : R),
  dem_sampling to_geodetic to_geocentric d r rdot arp v = Ok s ->
  hae_intersection to_geodetic to_geocentric (default_hae (d_scp d) (d_side d) (hae_max d)) r rdot arp v = Ok (Some a) ->
  hae_intersection to_geodetic to_geocentric (default_hae (d_scp d) (d_side d) (hae_min d)) r rdot arp v = Ok (Some b) ->
  0 < r -> 0 < delta_dist_dem d -> 0 < delta_dist_rrc d -> delta_dist_rrc d <= below arp v a <= below arp v b ->
  (S n < Z.to_nat (points s))%nat -> INR n <= x <= INR (S n) -> INR n <= y <= INR (S n) ->
  exists p q, sample_at s x = Some p /\ sample_at s y = Some q /\
    distance p q <= delta_dist_rrc d /\ distance p q * below arp v b <= delta_dist_dem d * r.
Proof.
  intros tg tc d r rdot arp v s a b n x y Hs A B R0 Dd Dr Bl Hn Hx Hy.
  destruct (samples_front tg tc d r rdot arp v s a b Hs A B R0 Dd Dr Bl) as (C & Lk & (Rp & Rr) & Et & Es & (T0 & Ts) & S1 & Sn & Al & Ac & (L0 & _) & P2).
  set (c := contour s) in *. set (w := sqrt (1 - start s * start s)) in *.
  assert (Ww : 0 < w) by (apply sqrt_lt_R0; nra).
  assert (Nn : INR (S n) <= IZR (points s - 1)) by (rewrite INR_IZR_INZ; apply IZR_le; lia).
  assert (N0 : 0 <= INR n) by apply pos_INR.
  assert (Cx : forall k, INR n <= k <= INR (S n) -> 0 <= start s + k * step s <= start s) by (intros k Hk; split; nra).
  assert (Pt : forall k, INR n <= k <= INR (S n) -> exists p, sample_at s k = Some p).
  { intros k Hk. unfold sample_at, contour_point. destruct (Rlt_dec _ 0) as [F|_]; [|eauto]. pose proof (Cx k Hk). nra. }
  destruct (Pt x Hx) as (p & Hp). destruct (Pt y Hy) as (q & Hq). exists p, q. split; [exact Hp|]. split; [exact Hq|].
  assert (Ch : distance p q * w <= rrrc c * (- step s)).
  { eapply Rle_trans; [apply (chord r rdot arp v c (look_side s) (start s + x * step s) (start s + y * step s) (start s)); auto|].
    - rewrite Lk. apply look_of_sqr.
    - lra.
    - apply Rmult_le_compat_l; [lra|]. replace (start s + x * step s - (start s + y * step s)) with ((y - x) * (- step s)) by ring.
      rewrite Rabs_mult, (Rabs_pos_eq (- step s)) by lra. rewrite S_INR in *. assert (Rabs (y - x) <= 1) by (apply Rabs_le; lra). nra. }
  assert (D0 : 0 <= distance p q) by apply sqrt_pos.
  split.
  - apply Rmult_le_reg_r with w; lra.
  - apply Rmult_le_reg_r with w; [exact Ww|]. rewrite <- Es.
    apply Rle_trans with (rrrc c * (rrrc c * - step s * start s)); [|assert (rrrc c * (- step s * rrrc c * start s) <= rrrc c * (delta_dist_dem d * w)) by (apply Rmult_le_compat_l; lra); assert (delta_dist_dem d * w * rrrc c <= delta_dist_dem d * w * r) by (apply Rmult_le_compat_l; [apply Rmult_le_pos; lra|lra]); lra].
    assert (distance p q * w * (rrrc c * start s) <= rrrc c * - step s * (rrrc c * start s)) by (apply Rmult_le_compat_r; [nra|lra]). lra.
Qed.
Print Assumptions C105_spacing.

(** Terrain whose elevation changes by at most [slope] metres a metre along the contour: every point
    returned is on the contour and no further above or below the terrain than the greater of a millimetre
    and one and a slope times the distance between samples. *)
Theorem C105_near :
  forall (d : Dem) (r rdot : R) (arp v : Vec) (s : Sampling) (ps : list (option Vec)) (a b : Vec) (slope : R),
  dem_sampling wgs84_geodetic wgs84_geocentric d r rdot arp v = Ok s -> dem_intersection wgs84_geodetic wgs84_geocentric d r rdot arp v = Ok ps ->
  hae_intersection wgs84_geodetic wgs84_geocentric (default_hae (d_scp d) (d_side d) (hae_max d)) r rdot arp v = Ok (Some a) ->
  hae_intersection wgs84_geodetic wgs84_geocentric (default_hae (d_scp d) (d_side d) (hae_min d)) r rdot arp v = Ok (Some b) ->
  0 < r -> 0 < delta_dist_dem d -> 0 < delta_dist_rrc d -> 0 < delta_hd_lim d -> delta_dist_rrc d <= below arp v a <= below arp v b -> 0 <= slope ->
  let ground p := elevation (set_elevation (d_terrain d) (wgs84_geodetic p)) in
  let on p := distance arp p = r /\ range_rate arp v p = rdot in
  (forall p q, on p -> on q -> Rabs (ground p - ground q) <= slope * distance p q) ->
  (forall p, on p -> -6335439 < elevation (wgs84_geodetic p)) ->
  (forall n p, (n < Z.to_nat (points s))%nat -> sample_at s (INR n) = Some p -> elevation (wgs84_geodetic p) - ground p <> delta_hd_lim d) ->
  forall x, In x ps -> exists p, x = Some p /\ on p /\
    Rabs (elevation (wgs84_geodetic p) - ground p) <= Rmax (delta_hd_lim d) ((1 + slope) * Rmin (delta_dist_rrc d) (delta_dist_dem d * r / below arp v b)).
Proof.
  intros d r rdot arp v s ps a b slope Hs Hi A B R0 Dd Dr Lim Bl Sl ground on Slope Deep Num x Hx.
  assert (Sp := C105_spacing wgs84_geodetic wgs84_geocentric d r rdot arp v s a b).
  destruct (samples_front wgs84_geodetic wgs84_geocentric d r rdot arp v s a b Hs A B R0 Dd Dr Bl) as (C & Lk & _ & _ & _ & _ & _ & _ & _ & _ & _ & P2).
  set (D := Rmin (delta_dist_rrc d) (delta_dist_dem d * r / below arp v b)).
  assert (Sm : forall n, (n < Z.to_nat (points s))%nat -> exists p, sample_at s (INR n) = Some p).
  { intros n Hn. destruct (Nat.eq_dec (S n) (Z.to_nat (points s))) as [E|E].
    - destruct n as [|n]; [lia|]. destruct (Sp n (INR (S n)) (INR (S n)) Hs A B R0 Dd Dr Bl) as (p & q & X & _); [lia|rewrite S_INR; lra|rewrite S_INR; lra|eauto].
    - destruct (Sp n (INR n) (INR n) Hs A B R0 Dd Dr Bl) as (p & q & X & _); [lia|rewrite S_INR; lra|rewrite S_INR; lra|eauto]. }
  destruct (C36_returned wgs84_geodetic wgs84_geocentric d r rdot arp v s Hs Lim) as (ks & E & _ & M).
  { intros n Hn. destruct (Sm n Hn) as (p & Hp). exists p. split; [exact Hp|]. exact (Num n p Hn Hp). }
  rewrite Hi in E. injection E as ->. apply in_map_iff in Hx. destruct Hx as (k & <- & Hk). destruct (M k Hk) as ((p & Hp) & Cs). exists p. split; [exact Hp|].
  assert (On : forall k p, sample_at s k = Some p -> on p).
  { intros k0 p0 H0. unfold sample_at in H0. eapply contour_point_on; eauto. rewrite Lk. apply look_of_sqr. }
  split; [exact (On k p Hp)|].
  assert (Dist : forall n y z p q, (S n < Z.to_nat (points s))%nat -> INR n <= y <= INR (S n) -> INR n <= z <= INR (S n) -> sample_at s y = Some p -> sample_at s z = Some q -> distance p q <= D).
  { intros n y z p0 q0 Hn Hy Hz P0 Q0. destruct (Sp n y z Hs A B R0 Dd Dr Bl Hn Hy Hz) as (p' & q' & P' & Q' & D1 & D2).
    rewrite P0 in P'. injection P' as <-. rewrite Q0 in Q'. injection Q' as <-. apply Rmin_glb; [exact D1|].
    assert (0 < below arp v b) by lra. apply Rmult_le_reg_r with (below arp v b); [assumption|]. unfold Rdiv. rewrite (Rmult_assoc (delta_dist_dem d * r)), Rinv_l by lra. lra. }
  assert (Lip : forall p q, on p -> on q -> Rabs ((elevation (wgs84_geodetic p) - ground p) - (elevation (wgs84_geodetic q) - ground q)) <= (1 + slope) * distance p q).
  { intros p0 q0 H1 H2. pose proof (Slope p0 q0 H1 H2) as S3. pose proof (C101_heights p0 q0 (Deep p0 H1) (Deep q0 H2)) as S4.
    replace (elevation (wgs84_geodetic p0) - ground p0 - (elevation (wgs84_geodetic q0) - ground q0)) with ((elevation (wgs84_geodetic p0) - elevation (wgs84_geodetic q0)) - (ground p0 - ground q0)) by ring.
    eapply Rle_trans; [apply Rabs_triang|]. rewrite Rabs_Ropp. lra. }
  destruct Cs as [(n & p' & Hn & -> & P' & L)|(n & p1 & q1 & Hn & Kn & P1 & Q1 & Op)].
  - rewrite Hp in P'. injection P' as <-. eapply Rle_trans; [apply Rlt_le, L|apply Rmax_l].
  - eapply Rle_trans; [|apply Rmax_r]. cbv zeta in Op. destruct Op as (Op & _). unfold height_above in Op.
    fold (ground p1) in Op. fold (ground q1) in Op.
    pose proof (Lip p p1 (On _ _ Hp) (On _ _ P1)) as L1. pose proof (Lip p q1 (On _ _ Hp) (On _ _ Q1)) as L2.
    assert (D1 : distance p p1 <= D) by (apply (Dist n k (INR n)); auto; try rewrite S_INR in *; lra).
    assert (D2 : distance p q1 <= D) by (apply (Dist n k (INR (S n))); auto; try rewrite S_INR in *; lra).
    assert (M1 : (1 + slope) * distance p p1 <= (1 + slope) * D) by (apply Rmult_le_compat_l; lra).
    assert (M2 : (1 + slope) * distance p q1 <= (1 + slope) * D) by (apply Rmult_le_compat_l; lra).
    set (fp := elevation (wgs84_geodetic p) - ground p) in *. set (f1 := elevation (wgs84_geodetic p1) - ground p1) in *. set (f2 := elevation (wgs84_geodetic q1) - ground q1) in *.
    set (K := (1 + slope) * D) in *. clearbody fp f1 f2 K. unfold Rabs in *. destruct (Rcase_abs (fp - f1)), (Rcase_abs (fp - f2)), (Rcase_abs fp); destruct (Rle_or_lt 0 f1), (Rle_or_lt 0 f2); try lra; exfalso; nra.
Qed.
Print Assumptions C105_near.

(** A sample at or below the terrain and one at or above it are enough for an intersection. *)
Lemma ends_found tg tc d r rdot arp v s i j p q :
  dem_sampling tg tc d r rdot arp v = Ok s -> (Z.of_nat i < points s)%Z -> (Z.of_nat j < points s)%Z ->
  sample_at s (INR i) = Some p -> sample_at s (INR j) = Some q -> 0 < delta_hd_lim d ->
  height_above tg (d_terrain d) p < delta_hd_lim d -> - delta_hd_lim d < height_above tg (d_terrain d) q -> height_above tg (d_terrain d) q <> delta_hd_lim d ->
  exists x xs, dem_intersection tg tc d r rdot arp v = Ok (x :: xs).
Proof.
  intros H Hi Hj Pi Pj L0 Below Above Ne. unfold dem_intersection. rewrite H. cbn [bind].
  set (pts := sample_heights tg (d_terrain d) s). set (lim := delta_hd_lim d) in *.
  assert (Nth : forall n w, (Z.of_nat n < points s)%Z -> sample_at s (INR n) = Some w -> nth_error pts n = Some (Some w, Some (height_above tg (d_terrain d) w))).
  { intros n w Hn Hw. unfold pts, sample_heights. rewrite nth_error_map.
    assert (E : nth_error (seq 0 (Z.to_nat (points s))) n = Some n).
    { rewrite nth_error_nth' with (d := 0%nat) by (rewrite seq_length; lia). rewrite seq_nth by lia. reflexivity. }
    rewrite E. cbn. now rewrite Hw. }
  pose proof (Nth i p Hi Pi) as Ni. pose proof (Nth j q Hj Pj) as Nj. clearbody pts. clear Nth Pi Pj Hi Hj H.
  set (a := height_above tg (d_terrain d) p) in *. set (b := height_above tg (d_terrain d) q) in *.
  assert (D : dem_scan lim (sample_at s) 0 None pts <> []).
  { assert (Zero : forall pts n m prev x h, nth_error pts n = Some (x, h) -> indicator lim h = 0%Z -> dem_scan lim (sample_at s) m prev pts <> []).
    { clear. induction pts as [|(y, h0) pts IH]; intros n m prev x h E I F; [destruct n; discriminate|]. cbn [dem_scan] in F.
      apply app_eq_nil in F. destruct F as (F1 & F). apply app_eq_nil in F. destruct F as (_ & F). destruct n as [|n].
      - cbn in E. injection E as <- <-. rewrite I in F1. discriminate.
      - exact (IH n _ _ x h E I F). }
    destruct (Z.eq_dec (indicator lim (Some a)) 0) as [Za|Za]; [exact (Zero _ _ _ _ _ _ Ni Za)|].
    destruct (Z.eq_dec (indicator lim (Some b)) 0) as [Zb|Zb]; [exact (Zero _ _ _ _ _ _ Nj Zb)|].
    assert (Ia : indicator lim (Some a) = (-1)%Z).
    { unfold indicator in *. destruct (Rlt_dec (Rabs a) lim); [congruence|]. destruct (Rlt_dec lim a); [lra|reflexivity]. }
    assert (Ib : indicator lim (Some b) = 1%Z).
    { unfold indicator in *. destruct (Rlt_dec (Rabs b) lim) as [F|F]; [congruence|]. destruct (Rlt_dec lim b); [reflexivity|]. exfalso. apply F. apply Rabs_def1; lra. }
    apply scan_nonempty. destruct (Nat.lt_trichotomy i j) as [O|[O|O]].
    - exists (S i), (Some a), (S j), (Some b). split; [lia|]. rewrite Ni. split; [reflexivity|]. cbn [Nat.pred]. rewrite nth_error_map, Nj.
      split; [reflexivity|]. rewrite Ia, Ib. reflexivity.
    - exfalso. rewrite O, Nj in Ni. injection Ni as _ Eb. rewrite Eb, Ia in Ib. discriminate.
    - exists (S j), (Some b), (S i), (Some a). split; [lia|]. rewrite Nj. split; [reflexivity|]. cbn [Nat.pred]. rewrite nth_error_map, Ni.
      split; [reflexivity|]. rewrite Ia, Ib. reflexivity. }
  destruct (dem_scan lim (sample_at s) 0 None pts) as [|x xs]; [contradiction|eauto].
Qed.

(** A point beside the track whose misses in range and range rate amount to less than a millimetre. *)
Definition nearly_on (side : string) (arp v : Vec) (r rdot : R) (q : Vec) : Prop :=
  exists w, 0 < w /\ w <= (if String.eqb side "R" then - beside arp v q else beside arp v q) /\
  let e1 := range_miss arp r q in let e2 := rate_miss arp v r rdot q in
  let off := (2 * r * (e1 + e2) + e1 ^ 2 + e2 ^ 2) / w in off < w /\ e2 + off < 0.001.

(** The intersections with the smallest and the greatest height of the terrain are nearly on the
    contour and ten metres or more below the antenna, and the vertical at the upper one leans away
    from the track and not downwards: then the contour is sampled from below the terrain to above it,
    and an intersection is found. *)
Theorem C105_found :
  forall (t : Terrain) (scp : Vec) (side : string) (d : Dem) (r rdot : R) (arp v a b : Vec) (lo hi spacing : R),
  describe_region t (wgs84_geodetic scp) = Some (lo, hi, spacing) -> 0 < spacing -> -6335438 < lo <= hi ->
  make_dem wgs84_geodetic scp side t = Ok d ->
  0 < r -> vcross arp v <> vzero -> rdot ^ 2 <= vdot v v ->
  hae_intersection wgs84_geodetic wgs84_geocentric (default_hae scp side hi) r rdot arp v = Ok (Some a) ->
  hae_intersection wgs84_geodetic wgs84_geocentric (default_hae scp side lo) r rdot arp v = Ok (Some b) ->
  10 <= below arp v a <= below arp v b -> nearly_on side arp v r rdot a -> nearly_on side arp v r rdot b ->
  let up := local_up (wgs84_geodetic a) in
  vdot up (vcross (vcross arp v) v) <= 0 -> 0 <= (if String.eqb side "R" then - vdot up (vcross arp v) else vdot up (vcross arp v)) ->
  (forall p, distance arp p = r -> range_rate arp v p = rdot -> lo <= elevation (set_elevation t (wgs84_geodetic p)) <= hi) ->
  exists s p q, dem_sampling wgs84_geodetic wgs84_geocentric d r rdot arp v = Ok s /\
    sample_at s 0 = Some p /\ elevation (wgs84_geodetic p) < lo + 0.001 /\
    sample_at s (IZR (points s - 1)) = Some q /\ hi - 0.001 < elevation (wgs84_geodetic q) /\
    (elevation (wgs84_geodetic q) - elevation (set_elevation t (wgs84_geodetic q)) <> 0.001 ->
     exists x xs, dem_intersection wgs84_geodetic wgs84_geocentric d r rdot arp v = Ok (x :: xs)).
Proof.
  intros t scp side d r rdot arp v a b lo hi spacing S Sp (Hlo & Hhi) M R0 X K Ha Hb Bl (wa & Wa0 & Wa & Oa & Ma) (wb & Wb0 & Wb & Ob & Mb) up Up1 Up2 Tr.
  unfold make_dem in M. rewrite S in M. injection M as <-. set (d := mkDem _ _ _ _ _ _ _ _).
  destruct (make_contour_some r rdot arp v X K) as (c & C & By).
  pose proof (look_of_sqr side) as L2.
  assert (Bla : wa <= look_of side * vdot (vsub a arp) (u_rry c)) by (rewrite By; unfold look_of; destruct (String.eqb side "R"); lra).
  assert (Blb : wb <= look_of side * vdot (vsub b arp) (u_rry c)) by (rewrite By; unfold look_of; destruct (String.eqb side "R"); lra).
  destruct (contour_near r rdot arp v c (look_of side) a wa C R0 L2 Wa0 Bla Oa) as (Rp & Ka & pa & Pa & Da).
  destruct (contour_near r rdot arp v c (look_of side) b wb C R0 L2 Wb0 Blb Ob) as (_ & Kb & pb & Pb & Db).
  assert (Ea : elevation (wgs84_geodetic a) = hi) by (apply (C102_height (default_hae scp side hi) r rdot arp v a); [cbn [hae default_hae]; lra|exact Ha]).
  assert (Eb : elevation (wgs84_geodetic b) = lo) by (apply (C102_height (default_hae scp side lo) r rdot arp v b); [cbn [hae default_hae]; lra|exact Hb]).
  set (ka := vdot (vsub a (ctr c)) (u_rrx c) / rrrc c) in *. set (kb := vdot (vsub b (ctr c)) (u_rrx c) / rrrc c) in *.
  assert (Tka : rrrc c * ka = below arp v a) by (rewrite <- (contour_below r rdot arp v c a C); unfold ka; field; lra).
  assert (Tkb : rrrc c * kb = below arp v b) by (rewrite <- (contour_below r rdot arp v c b C); unfold kb; field; lra).
  assert (Kp : 0 < kb) by nra.
  assert (Sm : exists s, dem_sampling wgs84_geodetic wgs84_geocentric d r rdot arp v = Ok s /\ contour s = c /\ start s = kb /\ top s = ka).
  { unfold dem_sampling, d. cbn [hae_max hae_min d_scp d_side]. rewrite Ha, Hb. cbn [bind]. rewrite C.
    destruct (Req_EM_T (rrrc c) 0) as [F|_]; [lra|]. fold ka kb. destruct (Rlt_dec (1 - kb * kb) 0) as [F|_]; [lra|].
    set (st := cosine_step _ _ _ _). assert (St : st <> 0).
    { unfold st, cosine_step. cbn [delta_dist_rrc delta_dist_dem]. assert (Sq : 0 < sqrt (1 - kb * kb)) by (apply sqrt_lt_R0, Kb).
      assert (A : 0 < Rabs (look_of side * sqrt (1 - kb * kb))) by (apply Rabs_pos_lt, Rmult_integral_contrapositive; split; [intros F; rewrite F in L2; lra|lra]).
      set (w := Rabs (look_of side * sqrt (1 - kb * kb))) in *. assert (Ir : 0 < / rrrc c) by (apply Rinv_0_lt_compat, Rp). assert (A1 : 0 < 10 * w / rrrc c) by (apply Rmult_lt_0_compat; lra).
      destruct (Req_EM_T kb 0) as [Z|Z]; [lra|]. assert (A2 : 0 < 0.5 * spacing * (w / kb) / rrrc c).
      { apply Rmult_lt_0_compat; [|exact Ir]. apply Rmult_lt_0_compat; [lra|]. apply Rdiv_lt_0_compat; lra. }
      intros F. assert (0 < Rmin (10 * w / rrrc c) (0.5 * spacing * (w / kb) / rrrc c)) by (apply Rmin_glb_lt; assumption). lra. }
    destruct (Req_EM_T st 0) as [F|_]; [contradiction|]. eexists. split; [reflexivity|]. cbn. auto. }
  destruct Sm as (s & Hs & Cs & Ss & Ts). 
  destruct (samples_front wgs84_geodetic wgs84_geocentric d r rdot arp v s a b Hs Ha Hb R0) as (_ & Lk & _ & _ & _ & (T0 & T1) & S1 & Sn & _ & _ & (La & Lb) & P2); [cbn; lra|cbn; lra|cbn; lra|].
  change (d_side d) with side in Lk. rewrite Ss in *. rewrite Ts in *.
  assert (On : forall k p, sample_at s k = Some p -> distance arp p = r /\ range_rate arp v p = rdot).
  { intros k p Hp. unfold sample_at in Hp. rewrite Cs, Lk in Hp. exact (contour_point_on r rdot arp v c (look_of side) _ p C R0 L2 Hp). }
  (* the first sample *)
  assert (F0 : sample_at s (INR 0) = Some pb) by (unfold sample_at; rewrite Cs, Lk, Ss; cbn [INR]; replace (kb + 0 * step s) with kb by ring; exact Pb).
  (* the last sample *)
  set (j := Z.to_nat (points s - 1)). assert (Ej : INR j = IZR (points s - 1)) by (unfold j; rewrite INR_IZR_INZ, Z2Nat.id by lia; reflexivity).
  set (kl := kb + IZR (points s - 1) * step s) in *.
  assert (Fl : exists pl, sample_at s (INR j) = Some pl).
  { unfold sample_at, contour_point. rewrite Ss, Ej. fold kl. destruct (Rlt_dec _ 0) as [F|_]; [|eauto]. exfalso. nra. }
  destruct Fl as (pl & Fl).
  assert (Rise : 0 <= vdot up (vsub pl pa)).
  { pose proof Fl as Fq. unfold sample_at in Fq. rewrite Cs, Lk, Ss, Ej in Fq. fold kl in Fq. unfold contour_point in Pa, Fq.
    destruct (Rlt_dec (1 - ka * ka) 0) as [F|_]; [lra|]. destruct (Rlt_dec (1 - kl * kl) 0) as [F|_]; [nra|]. injection Pa as <-. injection Fq as <-.
    assert (Sq : sqrt (1 - ka * ka) <= sqrt (1 - kl * kl)) by (apply sqrt_le_1_alt; nra).
    set (sa := sqrt (1 - ka * ka)) in *. set (sl := sqrt (1 - kl * kl)) in *.
    assert (Vx : vdot up (u_rrx c) <= 0).
    { pose proof (contour_below r rdot arp v c (vadd (ctr c) up) C) as E1. pose proof (contour_below r rdot arp v c (ctr c) C) as E2.
      replace (vdot (vsub (vadd (ctr c) up) (ctr c)) (u_rrx c)) with (vdot up (u_rrx c)) in E1 by (unfold vdot, vsub, vadd; cbn; ring).
      replace (vdot (vsub (ctr c) (ctr c)) (u_rrx c)) with 0 in E2 by (unfold vdot, vsub; cbn; ring).
      rewrite E1. replace (below arp v (vadd (ctr c) up)) with (below arp v (ctr c) + vdot up (vcross (vcross arp v) v) / (vnorm (vcross arp v) * vnorm v)).
      2:{ unfold below. unfold Rdiv. rewrite <- Rmult_plus_distr_r. f_equal. unfold vdot, vsub, vadd. cbn. ring. }
      rewrite <- E2, Rplus_0_l.
      assert (0 < vnorm (vcross arp v)). { pose proof (vnorm_pos (vcross arp v)). assert (vnorm (vcross arp v) <> 0) by (intros F; apply X, vnorm_zero_iff, F). lra. }
      assert (0 < vnorm v). { pose proof (vnorm_pos v). assert (vnorm v <> 0) by (intros F; apply vnorm_zero_iff in F; apply X; rewrite F; unfold vcross, vzero; cbn; f_equal; ring). lra. }
      assert (I : 0 < / (vnorm (vcross arp v) * vnorm v)) by (apply Rinv_0_lt_compat, Rmult_lt_0_compat; assumption).
      unfold Rdiv. nra. }
    assert (Vy : 0 <= look_of side * vdot up (u_rry c)).
    { pose proof (By (vadd arp up)) as E1. replace (vdot (vsub (vadd arp up) arp) (u_rry c)) with (vdot up (u_rry c)) in E1 by (unfold vdot, vsub, vadd; cbn; ring).
      rewrite E1. unfold beside. replace (vdot (vsub (vadd arp up) arp) (vcross arp v)) with (vdot up (vcross arp v)) by (unfold vdot, vsub, vadd; cbn; ring).
      assert (0 < vnorm (vcross arp v)). { pose proof (vnorm_pos (vcross arp v)). assert (vnorm (vcross arp v) <> 0) by (intros F; apply X, vnorm_zero_iff, F). lra. }
      assert (I : 0 < / vnorm (vcross arp v)) by (apply Rinv_0_lt_compat; assumption). unfold Rdiv, look_of. destruct (String.eqb side "R"); nra. }
    set (pl := vadd _ _). set (pa := vadd _ _).
    replace (vdot up (vsub pl pa)) with (rrrc c * ((kl - ka) * vdot up (u_rrx c) + (sl - sa) * (look_of side * vdot up (u_rry c)))) by (unfold pl, pa, vdot, vsub, vadd, vscale; cbn; ring).
    apply Rmult_le_pos; [lra|]. assert (0 <= (sl - sa) * (look_of side * vdot up (u_rry c))) by (apply Rmult_le_pos; lra). nra. }
  set (ea := rate_miss arp v r rdot a + _) in Da. assert (Ea1 : ea < 0.001) by exact Ma. set (eb := rate_miss arp v r rdot b + _) in Db. assert (Eb1 : eb < 0.001) by exact Mb. clearbody ea eb. clear Ma Mb.
  assert (Hl : hi - 0.001 < elevation (wgs84_geodetic pl)).
  { pose proof (dot_le_distance a pa up (up_is_unit _)) as Dl. replace (distance a pa) with (distance pa a) in Dl by (unfold distance; f_equal; ring).
    assert (Vl : - 0.001 < vdot up (vsub pl a)).
    { replace (vdot up (vsub pl a)) with (vdot up (vsub pl pa) - (vdot a up - vdot pa up)) by (unfold vdot, vsub; cbn; ring). lra. }
    pose proof (height_above_tangent pl a) as Ht. rewrite Ea in Ht. fold up in Ht. assert (H1 : -6335439 < hi) by lra. assert (H2 : -6335439 < hi + vdot up (vsub pl a)) by lra. specialize (Ht H1 H2). lra. }
  assert (Hf : elevation (wgs84_geodetic pb) < lo + 0.001).
  { pose proof (height_near pb b eb) as Hn. rewrite Eb in Hn. assert (H1 : -6335438 < lo) by lra. specialize (Hn H1 Db). assert (H2 : eb <= 1) by lra. specialize (Hn H2).
    pose proof (Rle_abs (elevation (wgs84_geodetic pb) - lo)). lra. }
  exists s, pb, pl. split; [exact Hs|]. split; [exact F0|]. split; [exact Hf|]. split; [rewrite <- Ej; exact Fl|]. split; [exact Hl|]. intros Num.
  destruct (On _ _ F0) as (O1 & O2). pose proof (Tr pb O1 O2) as T3. destruct (On _ _ Fl) as (O3 & O4). pose proof (Tr pl O3 O4) as T4.
  apply (ends_found wgs84_geodetic wgs84_geocentric d r rdot arp v s 0 j pb pl Hs); auto.
  - lia.
  - unfold j. lia.
  - cbn. lra.
  - unfold height_above, d. cbn [d_terrain delta_hd_lim]. lra.
  - unfold height_above, d. cbn [d_terrain delta_hd_lim]. lra.
Qed.
Print Assumptions C105_found.

(** So the sensor model answers with a point of the contour that is near the terrain. *)
Theorem C105_sicd :
  forall (m : Sicd) (i : Image) (t : Terrain) (a b : Vec) (lo hi spacing slope : R),
  let scp := scp_ecf (converter m) in let side := side_of_track m in
  describe_region t (wgs84_geodetic scp) = Some (lo, hi, spacing) -> 0 < spacing -> -6335438 < lo <= hi -> 0 <= slope ->
  let c := precise_rrdot (projection m) (grid_location m i) in
  let r := r_coa c in let rdot := rdot_coa c in let arp := arp_coa c in let v := varp_coa c in
  0 < r -> vcross arp v <> vzero -> rdot ^ 2 <= vdot v v ->
  hae_intersection wgs84_geodetic wgs84_geocentric (default_hae scp side hi) r rdot arp v = Ok (Some a) ->
  hae_intersection wgs84_geodetic wgs84_geocentric (default_hae scp side lo) r rdot arp v = Ok (Some b) ->
  10 <= below arp v a <= below arp v b -> nearly_on side arp v r rdot a -> nearly_on side arp v r rdot b ->
  let up := local_up (wgs84_geodetic a) in
  vdot up (vcross (vcross arp v) v) <= 0 -> 0 <= (if String.eqb side "R" then - vdot up (vcross arp v) else vdot up (vcross arp v)) ->
  let ground p := elevation (set_elevation t (wgs84_geodetic p)) in
  let on p := distance arp p = r /\ range_rate arp v p = rdot in
  (forall p, on p -> lo <= ground p <= hi) -> (forall p, on p -> -6335439 < elevation (wgs84_geodetic p)) ->
  (forall p q, on p -> on q -> Rabs (ground p - ground q) <= slope * distance p q) ->
  exists d s, make_dem wgs84_geodetic scp side t = Ok d /\ dem_sampling wgs84_geodetic wgs84_geocentric d r rdot arp v = Ok s /\
    ((forall n p, (n < Z.to_nat (points s))%nat -> sample_at s (INR n) = Some p -> elevation (wgs84_geodetic p) - ground p <> 0.001) ->
     exists g, sicd_image_to_world wgs84_geodetic wgs84_geocentric m i (Some t) = Ok (Some g) /\
       distance arp (wgs84_geocentric g) = r /\ range_rate arp v (wgs84_geocentric g) = rdot /\
       Rabs (elevation g - elevation (set_elevation t g)) <= Rmax 0.001 ((1 + slope) * Rmin 10 (spacing / 2 * r / below arp v b))).
Proof.
  intros m i t a b lo hi spacing slope scp side S Sp Hh Sl c r rdot arp v R0 X K Ha Hb Bl Na Nb up U1 U2 ground on Tr Deep Slope.
  destruct (make_dem wgs84_geodetic scp side t) as [d|e] eqn:M; [|unfold make_dem in M; rewrite S in M; discriminate].
  assert (Tr' : forall p, distance arp p = r -> range_rate arp v p = rdot -> lo <= elevation (set_elevation t (wgs84_geodetic p)) <= hi) by (intros p O1 O2; apply Tr; split; assumption).
  destruct (C105_found t scp side d r rdot arp v a b lo hi spacing S Sp Hh M R0 X K Ha Hb Bl Na Nb U1 U2 Tr') as (s & p0 & q0 & Hs & _ & _ & Q0 & _ & Fd).
  exists d, s. split; [reflexivity|]. split; [exact Hs|]. intros Num.
  pose proof M as M'. unfold make_dem in M'. rewrite S in M'. injection M' as Ed.
  assert (Dd : 0 < delta_dist_dem d) by (rewrite <- Ed; cbn; lra). assert (Dr : 0 < delta_dist_rrc d) by (rewrite <- Ed; cbn; lra). assert (Dl : 0 < delta_hd_lim d) by (rewrite <- Ed; cbn; lra).
  rewrite <- Ed in Dd, Dr, Dl, Hs.
  destruct (samples_front _ _ _ r rdot arp v s a b Hs Ha Hb R0 Dd Dr Bl) as (_ & _ & _ & _ & _ & _ & _ & _ & _ & _ & _ & P2).
  assert (Nq : elevation (wgs84_geodetic q0) - elevation (set_elevation t (wgs84_geodetic q0)) <> 0.001).
  { apply (Num (Z.to_nat (points s - 1))); [lia|]. rewrite INR_IZR_INZ, Z2Nat.id by lia. exact Q0. }
  destruct (Fd Nq) as (x & xs & Hi).
  rewrite <- Ed in Hi.
  destruct (C105_near _ r rdot arp v s (x :: xs) a b slope Hs Hi Ha Hb R0 Dd Dr Dl Bl Sl Slope Deep Num x (or_introl eq_refl)) as (p & -> & (O1 & O2) & N).
  rewrite Ed in Hi. exists (wgs84_geodetic p). unfold sicd_image_to_world. fold c scp side. rewrite M. cbn [bind]. fold r rdot arp v. rewrite Hi. cbn [bind]. split; [reflexivity|].
  rewrite geocentric_geodetic. split; [exact O1|]. split; [exact O2|]. cbn [delta_hd_lim d_terrain delta_dist_rrc delta_dist_dem] in N.
  replace (0.5 * spacing) with (spacing / 2) in N by lra. exact N.
Qed.
Print Assumptions C105_sicd.

(** *** A ramp at the North Pole *)
Section Ramp.
Let pole := mkVec 0 0 polar_radius.
Let arp := mkVec (-52) 0 (polar_radius + 39).
Let v := mkVec 0 (-1) 0.

Lemma up_of p : -10 < elevation (wgs84_geodetic p) -> let u := local_up (wgs84_geodetic p) in
  exists n k, 6000000 < n /\ 6000000 < k /\ vx p = n * vx u /\ vy p = n * vy u /\ vz p = k * vz u.
Proof.
  intros H u. set (g := wgs84_geodetic p) in *. pose proof (prime_vertical_bounds (latitude g)) as B.
  exists (prime_vertical (latitude g) + elevation g), (prime_vertical (latitude g) * (1 - eccentricity2) + elevation g).
  assert (M : semi_major = 6378137) by reflexivity. assert (E : 0 < eccentricity2 < 0.01) by (unfold eccentricity2, flattening; lra).
  split; [lra|]. split; [nra|].
  pose proof (geocentric_geodetic p) as G. fold g in G. rewrite <- G. unfold wgs84_geocentric, u, local_up. cbn [vx vy vz]. repeat split; ring.
Qed.

Lemma ramp_plane h x : 0 <= x -> 0 <= h < 39 -> (52 + x) ^ 2 + (39 - h) ^ 2 = 65 ^ 2 ->
  ground_intersection (mkPlane (mkVec 0 0 (polar_radius + h)) (mkVec 0 0 1)) 65 0 arp v = Ok (Some (mkVec x 0 (polar_radius + h))) /\
  distance arp (mkVec x 0 (polar_radius + h)) = 65.
Proof.
  intros X H E. assert (D : distance arp (mkVec x 0 (polar_radius + h)) = 65).
  { unfold distance, arp. cbn [vx vy vz]. replace ((-52 - x) ^ 2 + (0 - 0) ^ 2 + (polar_radius + 39 - (polar_radius + h)) ^ 2) with (65 * 65) by lra. apply sqrt_square. lra. }
  split; [|exact D]. apply C33_finds_every_solution; cbn [ref_ecf u_gpn].
  - intros F. apply (f_equal vz) in F. cbn in F. lra.
  - intros k F. apply (f_equal vy) in F. unfold v in F. cbn in F. lra.
  - unfold side_of, arp, v. cbn [vx vy vz]. lra.
  - unfold height_over, arp. cbn [vx vy vz]. replace (0 ^ 2 + 0 ^ 2 + 1 ^ 2) with 1 by ring. rewrite sqrt_1. lra.
  - unfold on_plane. cbn [vx vy vz]. ring.
  - exact D.
  - unfold range_rate. rewrite D. unfold v, arp. cbn [vx vy vz]. field.
  - unfold side_of, arp, v. cbn [vx vy vz]. nra.
Qed.

Lemma axis h : 0 <= h -> elevation (wgs84_geodetic (mkVec 0 0 (polar_radius + h))) = h /\ local_up (wgs84_geodetic (mkVec 0 0 (polar_radius + h))) = mkVec 0 0 1.
Proof.
  intros H. destruct north_pole as (Ng & Nc & Nu).
  assert (E : wgs84_geocentric (mkGeo 0 (PI / 2) h) = mkVec 0 0 (polar_radius + h)).
  { rewrite at_height. unfold on_ellipsoid. cbn [longitude latitude elevation]. rewrite Nc. unfold local_up. cbn [longitude latitude]. rewrite cos_PI2, sin_PI2. apply vec_ext; cbn; ring. }
  rewrite <- E. assert (F : wgs84_geodetic (wgs84_geocentric (mkGeo 0 (PI / 2) h)) = mkGeo 0 (PI / 2) h).
  { apply C101_forth; [|cbn; lra]. pose proof PI_RGT_0. unfold canonical. cbn [longitude latitude]. split; [lra|]. right. split; [now left|reflexivity]. }
  rewrite F. split; [reflexivity|]. unfold local_up. cbn [longitude latitude]. rewrite cos_PI2, sin_PI2. apply vec_ext; cbn; ring.
Qed.

(** The intersection with the height [h], within a fiftieth of a millimetre. *)
Lemma ramp_seen h x : 0 <= x <= 4 -> 0 <= h < 30 -> (52 + x) ^ 2 + (39 - h) ^ 2 = 65 ^ 2 ->
  exists q, hae_intersection wgs84_geodetic wgs84_geocentric (default_hae pole "L" h) 65 0 arp v = Ok (Some q) /\
    distance (mkVec x 0 (polar_radius + h)) q <= 0.00002.
Proof.
  intros X H E. assert (H39 : 0 <= h < 39) by lra. destruct (ramp_plane h x (proj1 X) H39 E) as (G & D). set (p := mkVec x 0 (polar_radius + h)) in *.
  assert (Pv : 6000000 < polar_radius) by (unfold polar_radius; lra).
  destruct north_pole as (Ng & Nc & Nu). fold pole in Ng.
  assert (Ax : elevation (wgs84_geodetic (mkVec 0 0 (polar_radius + h))) = h /\ local_up (wgs84_geodetic (mkVec 0 0 (polar_radius + h))) = mkVec 0 0 1) by (apply axis; lra).
  destruct Ax as (A1 & A2). set (c0 := mkVec 0 0 (polar_radius + h)) in *.
  assert (Lo : h <= elevation (wgs84_geodetic p)).
  { pose proof (height_above_tangent p c0) as T. rewrite A1, A2 in T. replace (vdot (mkVec 0 0 1) (vsub p c0)) with 0 in T by (unfold vdot, p, c0; cbn; ring). assert (-6335439 < h) by lra. lra. }
  set (u := local_up (wgs84_geodetic p)).
  destruct (up_of p) as (n & k & N0 & K0 & Ux & Uy & Uz); [lra|]. fold u in Ux, Uy, Uz. unfold p in Ux, Uy, Uz. cbn [vx vy vz] in Ux, Uy, Uz.
  assert (Unit : vx u ^ 2 + vy u ^ 2 + vz u ^ 2 = 1) by apply up_is_unit.
  assert (X0 : 0 <= vx u <= 0.0000007) by (split; nra). assert (Y0 : vy u = 0) by nra. assert (Z0 : 0 < vz u) by nra. assert (Z1 : 0.99 < vz u) by (rewrite Y0 in Unit; nra).
  set (d1 := elevation (wgs84_geodetic p) - h). assert (D1 : 0 <= d1 <= 0.000003).
  { split; [unfold d1; lra|]. pose proof (no_higher c0 (wgs84_geodetic p)) as T. pose proof (height_along (wgs84_geodetic p)) as T2. rewrite geocentric_geodetic in T2. fold u in T, T2.
    rewrite A1 in T. assert (Dd : 6335439 <= deepest) by (unfold deepest, semi_major, eccentricity2, flattening; lra). rewrite Rmax_left in T by lra.
    assert (Pd : vdot p u - vdot c0 u = x * vx u) by (unfold p, c0, vdot; cbn; ring). unfold d1. nra. }
  unfold hae_intersection, hae_first_plane. cbn [h_scp default_hae hae nlim]. rewrite Ng. cbn [elevation].
  change (up_vector (mkGeo 0 (PI / 2) 0)) with (local_up (mkGeo 0 (PI / 2) 0)). rewrite Nu.
  replace (vadd pole (vscale (h - 0) (mkVec 0 0 1))) with c0 by (apply vec_ext; cbn; ring).
  cbn [hae_loop Nat.sub]. unfold make_plane. rewrite (normalised_of_unit (mkVec 0 0 1)) by (unfold vdot; cbn; ring). rewrite G.
  change (up_vector (wgs84_geodetic p)) with u. cbn [hae delta_hae_max default_hae]. fold d1. destruct (Rle_dec d1 1) as [_|F]; [|lra]. cbn [bind].
  unfold hae_finish. cbn [gpp u_up delta_hae h_side default_hae hae].
  set (spn := vcross _ _). assert (Sp : spn = mkVec (39 - h) 0 (52 + x)).
  { unfold spn, v, p, arp, look_of. cbn [String.eqb Ascii.eqb Bool.eqb]. apply vec_ext; cbn; ring. }
  assert (Sn : vnorm spn = 65) by (rewrite Sp; unfold vnorm, vdot; cbn [vx vy vz]; replace ((39 - h) * (39 - h) + 0 * 0 + (52 + x) * (52 + x)) with (65 * 65) by lra; apply sqrt_square; lra).
  destruct (Req_EM_T (vnorm spn) 0) as [F|_]; [lra|].
  set (us := normalised spn). assert (Us : us = mkVec ((39 - h) / 65) 0 ((52 + x) / 65)) by (unfold us, normalised; rewrite Sn, Sp; apply vec_ext; cbn; field).
  set (sf := vdot u us). assert (Sf : 0.79 < sf).
  { unfold sf. rewrite Us. unfold vdot. cbn [vx vy vz]. assert (0 <= vx u * ((39 - h) / 65)) by (apply Rmult_le_pos; lra). assert (0.99 * (52 / 65) <= vz u * ((52 + x) / 65)) by (apply Rmult_le_compat; lra). lra. }
  destruct (Req_EM_T sf 0) as [F|_]; [lra|].
  set (slp := vsub p _). eexists. split; [reflexivity|]. set (q := wgs84_geocentric _).
  assert (Ed : 0 <= d1 / sf <= 0.000004).
  { split; [apply Rmult_le_pos; [lra|apply Rlt_le, Rinv_0_lt_compat; lra]|]. apply Rmult_le_reg_r with sf; [lra|]. unfold Rdiv. rewrite Rmult_assoc, Rinv_l by lra. nra. }
  assert (Q1 : distance slp p <= 0.000004).
  { apply sq_le; [lra|]. rewrite distance_sq. unfold slp. set (e := d1 / sf) in *. clearbody e. rewrite Us. unfold vsub, vscale. cbn [vx vy vz].
    replace (_ + _ + _) with (e ^ 2 * (((52 + x) ^ 2 + (39 - h) ^ 2) / 65 ^ 2)) by field. rewrite E. nra. }
  assert (Hs : Rabs (elevation (wgs84_geodetic slp) - elevation (wgs84_geodetic p)) <= 0.000004) by (apply height_near; unfold d1 in D1; lra).
  assert (Q2 : distance slp q <= 0.000007).
  { set (g := wgs84_geodetic slp) in *. set (o := on_ellipsoid g). set (w := local_up g).
    assert (S1 : slp = vadd o (vscale (elevation g) w)) by (unfold g, o, w; rewrite <- at_height; symmetry; apply geocentric_geodetic).
    assert (S2 : q = vadd o (vscale h w)) by (unfold q; rewrite at_height; reflexivity).
    assert (Ug : vx w ^ 2 + vy w ^ 2 + vz w ^ 2 = 1) by apply up_is_unit. set (eg := elevation g) in *. clearbody eg w o. 
    apply sq_le; [lra|]. rewrite distance_sq, S1, S2. unfold vadd, vscale. cbn [vx vy vz].
    apply Rle_trans with ((eg - h) ^ 2 * (vx w ^ 2 + vy w ^ 2 + vz w ^ 2)); [right; ring|]. rewrite Ug, Rmult_1_r.
    apply pow_maj_Rabs. unfold d1 in D1. apply Rabs_le. unfold Rabs in Hs. destruct (Rcase_abs _) in Hs; lra. }
  pose proof (distance_triangle p slp q) as Tr. replace (distance p slp) with (distance slp p) in Tr by (unfold distance; f_equal; ring). lra.
Qed.

(** What is near the contour, and where it is. *)
Lemma ramp_cross : vcross arp v = mkVec (polar_radius + 39) 0 52 /\ vcross (vcross arp v) v = mkVec 52 0 (- (polar_radius + 39)) /\ vnorm v = 1 /\
  polar_radius + 39 <= vnorm (vcross arp v) <= polar_radius + 39 + 0.001.
Proof.
  assert (E : vcross arp v = mkVec (polar_radius + 39) 0 52) by (unfold arp, v; apply vec_ext; cbn; ring).
  split; [exact E|]. split; [rewrite E; unfold v; apply vec_ext; cbn; ring|].
  split; [unfold vnorm, v, vdot; cbn [vx vy vz]; replace (0 * 0 + -1 * -1 + 0 * 0) with 1 by ring; apply sqrt_1|].
  pose proof (vnorm_pos (vcross arp v)) as P0. assert (P : vnorm (vcross arp v) * vnorm (vcross arp v) = (polar_radius + 39) * (polar_radius + 39) + 52 * 52) by (rewrite vnorm_sqr, E; unfold vdot; cbn; ring).
  set (n := vnorm (vcross arp v)) in *. assert (Pv : 6000000 < polar_radius) by (unfold polar_radius; lra). set (Z := polar_radius + 39) in *. assert (Zl : 6000000 < Z) by (unfold Z; lra). clearbody Z n.
  split; apply sq_le; lra.
Qed.
Lemma ramp_near h x q : 0 <= x <= 4 -> 0 <= h <= 6 -> distance arp (mkVec x 0 (polar_radius + h)) = 65 -> distance (mkVec x 0 (polar_radius + h)) q <= 0.00002 ->
  nearly_on "L" arp v 65 0 q /\ 38.99 - h <= below arp v q <= 39.1 - h.
Proof.
  intros X H D Q. destruct ramp_cross as (Cy & Cx & Vn & N). set (n := vnorm (vcross arp v)) in *. assert (Pv : 6000000 < polar_radius < 7000000) by (unfold polar_radius; lra).
  set (p := mkVec x 0 (polar_radius + h)) in *. pose proof (distance_sq p q) as Dq. assert (D0 : 0 <= distance p q) by apply sqrt_pos.
  assert (D2 : distance p q ^ 2 <= 0.00002 ^ 2) by (apply pow_incr; lra). rewrite Dq in D2. unfold p in D2. cbn [vx vy vz] in D2.
  assert (Qx : Rabs (x - vx q) <= 0.00002) by (apply sq_le; [lra|]; rewrite pow2_abs; pose proof (pow2_ge_0 (0 - vy q)); pose proof (pow2_ge_0 (polar_radius + h - vz q)); lra).
  assert (Qy : Rabs (vy q) <= 0.00002) by (apply sq_le; [lra|]; rewrite pow2_abs; pose proof (pow2_ge_0 (x - vx q)); pose proof (pow2_ge_0 (polar_radius + h - vz q)); replace ((0 - vy q) ^ 2) with (vy q ^ 2) in D2 by ring; lra).
  assert (Qz : Rabs (polar_radius + h - vz q) <= 0.00002) by (apply sq_le; [lra|]; rewrite pow2_abs; pose proof (pow2_ge_0 (x - vx q)); pose proof (pow2_ge_0 (0 - vy q)); lra).
  assert (Qx' : x - 0.00002 <= vx q <= x + 0.00002) by (unfold Rabs in Qx; destruct (Rcase_abs _); lra).
  assert (Qz' : polar_radius + h - 0.00002 <= vz q <= polar_radius + h + 0.00002) by (unfold Rabs in Qz; destruct (Rcase_abs _); lra).
  assert (Bs : 40 <= beside arp v q).
  { unfold beside. fold n. apply Rmult_le_reg_r with n; [lra|]. unfold Rdiv. rewrite Rmult_assoc, Rinv_l, Rmult_1_r by lra. rewrite Cy. unfold vdot, vsub, arp. cbn [vx vy vz]. nra. }
  assert (Bw : below arp v q * n = 52 * (vx q + 52) + (polar_radius + 39 - vz q) * (polar_radius + 39)).
  { unfold below. rewrite Vn, Rmult_1_r. fold n. unfold Rdiv. rewrite Rmult_assoc, Rinv_l, Rmult_1_r by lra. rewrite Cx. unfold vdot, vsub, arp. cbn [vx vy vz]. ring. }
  split; [|split; apply Rmult_le_reg_r with n; nra].
  assert (E1 : 0 <= range_miss arp 65 q <= 0.00002).
  { unfold range_miss. split; [apply Rabs_pos|]. pose proof (distance_triangle arp p q) as T1. pose proof (distance_triangle arp q p) as T2. replace (distance q p) with (distance p q) in T2 by (unfold distance; f_equal; ring). apply Rabs_le. lra. }
  assert (E2 : 0 <= rate_miss arp v 65 0 q <= 0.00002).
  { unfold rate_miss. rewrite rate_times_distance, Vn. replace (vdot v (vsub arp q) - 0 * 65) with (vy q) by (unfold vdot, v, vsub, arp; cbn; ring).
    split; [apply Rmult_le_pos; [apply Rabs_pos|lra]|lra]. }
  exists 40. split; [lra|]. split; [cbn [String.eqb Ascii.eqb Bool.eqb]; exact Bs|]. cbv zeta. set (e1 := range_miss arp 65 q) in *. set (e2 := rate_miss arp v 65 0 q) in *.
  assert (e1 ^ 2 <= 0.00002 ^ 2) by (apply pow_incr; lra). assert (e2 ^ 2 <= 0.00002 ^ 2) by (apply pow_incr; lra). lra.
Qed.
Lemma ramp_deep p : distance arp p = 65 -> -26 <= elevation (wgs84_geodetic p).
Proof.
  intros D. destruct (axis 39) as (A1 & A2); [lra|]. pose proof (height_above_tangent arp (mkVec 0 0 (polar_radius + 39))) as T. rewrite A1, A2 in T.
  replace (vdot (mkVec 0 0 1) (vsub arp (mkVec 0 0 (polar_radius + 39)))) with 0 in T by (unfold vdot, arp; cbn; ring).
  assert (E : 39 <= elevation (wgs84_geodetic arp)) by lra. pose proof (height_lipschitz arp p) as L.
  assert (Dd : 6335439 <= deepest) by (unfold deepest, semi_major, eccentricity2, flattening; lra).
  unfold Rmax in L. destruct (Rle_dec _ _) in L; lra.
Qed.
Lemma near_parts p q e : 0 <= e -> distance p q <= e -> (- e <= vx p - vx q <= e) /\ (- e <= vy p - vy q <= e) /\ (- e <= vz p - vz q <= e).
Proof.
  intros E D. assert (D0 : 0 <= distance p q) by apply sqrt_pos. assert (D2 : distance p q ^ 2 <= e ^ 2) by (apply pow_incr; lra). rewrite distance_sq in D2.
  pose proof (pow2_ge_0 (vx p - vx q)). pose proof (pow2_ge_0 (vy p - vy q)). pose proof (pow2_ge_0 (vz p - vz q)).
  assert (S : forall a, a ^ 2 <= e ^ 2 -> - e <= a <= e) by (intros a A; split; [|apply sq_le; assumption]; assert (- a <= e) by (apply sq_le; [exact E|lra]); lra).
  repeat split; apply S; lra.
Qed.
Lemma clamp_slope a b : Rabs (Rmax 1 (Rmin 5 (1 + a / 2)) - Rmax 1 (Rmin 5 (1 + b / 2))) <= 1 / 2 * Rabs (a - b).
Proof. unfold Rmax, Rmin, Rabs. repeat destruct (Rle_dec _ _); repeat destruct (Rcase_abs _); lra. Qed.
Lemma clamp_range a : 1 <= Rmax 1 (Rmin 5 (1 + a / 2)) <= 5.
Proof. unfold Rmax, Rmin. repeat destruct (Rle_dec _ _); lra. Qed.

(** The elevation of the terrain is one metre up to the pole, five from eight metres beyond it, and
    rises evenly between; seen from 39 metres above the pole and 52 metres beside it.  The contour is
    below the terrain at the first sample and above it at the second and last one. *)
Example C105_non_vacuous :
  let ramp := mkTerrain (fun g => mkGeo (longitude g) (latitude g) (Rmax 1 (Rmin 5 (1 + vx (wgs84_geocentric g) / 2)))) (fun _ => Some (0, 6, 30)) in
  let m := mkSicd (mkConverter (mkImage 7 9) pole (mkVec 1 0 0) (mkVec 0 1 0) 2 (1/2) (mkImage 3 4))
                  (mkProjectionSet (PLANE pole (mkVec 1 0 0) (mkVec 0 1 0)) [[0]] (mkPolyXYZ [-52] [0; -1] [polar_radius + 39]) vzero vzero 0)
                  (mkVec (3/5) 0 (4/5)) "L" (Some (mkVec 0 0 1)) in
  exists g, sicd_image_to_world wgs84_geodetic wgs84_geocentric m (mkImage 4 5) (Some ramp) = Ok (Some g) /\
    distance arp (wgs84_geocentric g) = 65 /\ range_rate arp v (wgs84_geocentric g) = 0 /\
    Rabs (elevation g - elevation (set_elevation ramp g)) <= 15.
Proof.
  intros ramp m. assert (Pv : 6000000 < polar_radius < 7000000) by (unfold polar_radius; lra).
  assert (Dp : distance arp pole = 65).
  { destruct (ramp_plane 0 0) as (_ & D); [lra|lra|ring|]. replace (polar_radius + 0) with polar_radius in D by ring. exact D. }
  assert (C : precise_rrdot (projection m) (grid_location m (mkImage 4 5)) = mkCoa 65 0 0 arp v).
  { assert (T : poly2d [[0]] ((5 + 4 - 9) * 2) ((4 + 3 - 7) * (1 / 2)) = 0) by (cbn; ring).
    unfold precise_rrdot, grid_location, rowcol_to_xrowycol, m. cbn [projection converter scp_pixel first_pixel row_ss col_ss coa_time_poly fst snd iy ix arp_poly varp_poly grid_specific_projection grid range_bias delta_arp delta_varp].
    rewrite T.
    replace (polyxyz (mkPolyXYZ _ _ _) 0) with arp by (apply vec_ext; cbn; ring). replace (polyxyz (varp_poly _) 0) with v by (apply vec_ext; cbn; ring).
    replace (vadd (vadd pole _) _) with pole by (apply vec_ext; cbn; field). replace (vnorm (vsub arp pole)) with 65 by (rewrite <- Dp; unfold distance, vnorm, vdot; f_equal; cbn; ring).
    f_equal; [ring|unfold vdot, v, arp, pole; cbn; field|apply vec_ext; cbn; ring|apply vec_ext; cbn; ring]. }
  destruct (ramp_seen 6 4) as (a & Ha & Da); [lra|lra|ring|]. destruct (ramp_seen 0 0) as (b & Hb & Db); [lra|lra|ring|].
  destruct (ramp_plane 6 4) as (_ & Ra); [lra|lra|ring|]. destruct (ramp_plane 0 0) as (_ & Rb); [lra|lra|ring|].
  destruct (ramp_near 6 4 a) as (Na & Ba); [lra|lra|exact Ra|exact Da|]. destruct (ramp_near 0 0 b) as (Nb & Bb); [lra|lra|exact Rb|exact Db|].
  destruct ramp_cross as (Cy & Cx & Vn & N).
  assert (X : vcross arp v <> vzero) by (rewrite Cy; intros E; apply (f_equal vz) in E; cbn in E; lra).
  assert (K : 0 ^ 2 <= vdot v v) by (unfold vdot, v; cbn [vx vy vz]; lra).
  assert (Bl : 10 <= below arp v a <= below arp v b) by lra.
  assert (Ea : elevation (wgs84_geodetic a) = 6) by (apply (C102_height (default_hae pole "L" 6) 65 0 arp v a); [cbn [hae default_hae]; lra|exact Ha]).
  set (u := local_up (wgs84_geodetic a)). destruct (up_of a) as (n & k & N0 & K0 & Ux & Uy & Uz); [lra|]. fold u in Ux, Uy, Uz.
  assert (Aq : 3 <= vx a <= 5 /\ -1 <= vy a <= 1 /\ polar_radius <= vz a).
  { apply near_parts in Da; [|lra]. cbn [vx vy vz] in Da. lra. }
  assert (Unit : vx u ^ 2 + vy u ^ 2 + vz u ^ 2 = 1) by apply up_is_unit.
  assert (X0 : 0 <= vx u <= 0.000001) by (split; nra). assert (Y0 : -0.000001 <= vy u <= 0.000001) by (split; nra). assert (Z0 : 0 < vz u) by nra. assert (Z1 : 0.9 < vz u) by nra.
  assert (U1 : vdot u (vcross (vcross arp v) v) <= 0) by (rewrite Cx; unfold vdot; cbn [vx vy vz]; nra).
  assert (U2 : 0 <= vdot u (vcross arp v)) by (rewrite Cy; unfold vdot; cbn [vx vy vz]; nra).
  assert (S : describe_region ramp (wgs84_geodetic pole) = Some (0, 6, 30)) by reflexivity.
  assert (Tr : forall p, distance arp p = 65 -> range_rate arp v p = 0 -> 0 <= elevation (set_elevation ramp (wgs84_geodetic p)) <= 6).
  { intros p _ _. cbn [ramp set_elevation elevation]. pose proof (clamp_range (vx (wgs84_geocentric (wgs84_geodetic p)))). lra. }
  pose proof (C105_sicd m (mkImage 4 5) ramp a b 0 6 30 (1 / 2)) as T. cbv zeta in T. rewrite C in T. cbn [r_coa rdot_coa arp_coa varp_coa scp_ecf converter side_of_track m String.eqb Ascii.eqb Bool.eqb] in T.
  destruct T as (d & s & M & Hs & T); try assumption; try lra.
  - intros p (O1 & O2). exact (Tr p O1 O2).
  - intros p (O1 & _). pose proof (ramp_deep p O1). lra.
  - intros p q _ _. cbn [ramp set_elevation elevation]. rewrite !geocentric_geodetic. eapply Rle_trans; [apply clamp_slope|]. apply Rmult_le_compat_l; [lra|].
    apply sq_le; [apply sqrt_pos|]. rewrite pow2_abs, distance_sq. pose proof (pow2_ge_0 (vy p - vy q)). pose proof (pow2_ge_0 (vz p - vz q)). lra.
  - destruct (C105_found ramp pole "L" d 65 0 arp v a b 0 6 30 S) as (s' & p0 & q0 & Hs' & P0 & L0 & Q0 & L1 & _); try assumption; try lra.
    rewrite Hs in Hs'. injection Hs' as <-.
    pose proof M as M'. unfold make_dem in M'. rewrite S in M'. injection M' as Ed.
    assert (Dd : 0 < delta_dist_dem d) by (rewrite <- Ed; cbn; lra). assert (Dr : 0 < delta_dist_rrc d) by (rewrite <- Ed; cbn; lra).
    pose proof Hs as Hs2. rewrite <- Ed in Hs2, Dd, Dr. assert (R0 : 0 < 65) by lra.
    destruct (samples_front _ _ _ 65 0 arp v s a b Hs2 Ha Hb R0 Dd Dr Bl) as (Cc & _ & (Rp & _) & Et & Es & (T0 & T1) & S1 & Sn & _ & _ & _ & P2).
    assert (R65 : rrrc (contour s) = 65).
    { apply contour_frame in Cc. cbv zeta in Cc. destruct Cc as (_ & _ & _ & _ & _ & _ & _ & _ & _ & Er). rewrite Er, Vn. replace (1 - -1 * 0 / 1 * (-1 * 0 / 1)) with 1 by field. rewrite sqrt_1. ring. }
    assert (St0 : 0 <= start s) by lra.
    destruct (C36_step _ _ _ 65 0 arp v s Hs2 Rp St0 Dd Dr) as (_ & _ & _ & Al). cbv zeta in Al. cbn [delta_dist_rrc delta_dist_dem] in Al.
    rewrite R65 in *. set (w := sqrt (1 - start s * start s)) in *. assert (Ws : w * w = 1 - start s * start s) by (apply sqrt_sqrt; assert (start s * start s <= 1 * 1) by (apply Rmult_le_compat; lra); lra). assert (W0 : 0 <= w) by apply sqrt_pos.
    assert (Sl : start s <= 0.602) by lra. 
    assert (Wl : 0.79 < w).
    { apply Rnot_le_lt. intros F. assert (w * w <= 0.79 * 0.79) by (apply Rmult_le_compat; lra). assert (start s * start s <= 0.602 * 0.602) by (apply Rmult_le_compat; lra). lra. }
    assert (Al' : 7 < - step s * 65).
    { destruct Al as [Al|Al]; [lra|]. apply Rnot_le_lt. intros F. assert (- step s * 65 * start s <= 7 * 0.602) by (apply Rmult_le_compat; lra). lra. }
    destruct (C36_samples_cover _ _ _ 65 0 arp v s Hs2 Sn T1) as (_ & (Lc & _) & _).
    assert (P3 : points s = 2%Z).
    { destruct (Z.lt_ge_cases 2 (points s)) as [G|G]; [|lia]. exfalso. assert (G2 : 2 <= IZR (points s - 1)) by (apply IZR_le; lia).
      assert (0 <= (IZR (points s - 1) - 2) * - step s) by (apply Rmult_le_pos; lra). lra. }
    destruct T as (g & G1 & G2 & G3 & G4).
    + intros j p Hj Hp. rewrite P3 in *. cbn [ramp set_elevation elevation]. pose proof (clamp_range (vx (wgs84_geocentric (wgs84_geodetic p)))) as Cl. change (2 - 1)%Z with 1%Z in Q0. intros F.
      destruct j as [|[|j]]; [| |lia].
      * cbn [INR] in Hp. rewrite P0 in Hp. injection Hp as <-. lra.
      * cbn [INR] in Hp. rewrite Q0 in Hp. injection Hp as <-. lra.
    + exists g. split; [exact G1|]. split; [exact G2|]. split; [exact G3|]. eapply Rle_trans; [exact G4|]. apply Rmax_lub; [lra|]. pose proof (Rmin_l 10 (30 / 2 * 65 / below arp v b)). lra.
Qed.
End Ramp.
