(** Property theorems for SICD pixels located on level terrain over the WGS 84 ellipsoid (C104). *)
Require Import ZArith Reals String List Lra Lia.
Require Import Verif.Base Verif.BaseFacts Verif.Vec Verif.VecFacts Verif.SicdModel Verif.PolySpec Verif.SicdSpec Verif.SicdProofs Verif.SicdGroundProofs Verif.SicdProps
  Verif.SicdSurfaceProps Verif.SicdFindProps Verif.GeodesyModel Verif.GeodesyProofs Verif.GeodesyHeightProofs Verif.GeodesyProps
  Verif.GeodesyUseProps.
Import ListNotations.
Local Open Scope R_scope.

(** ** C104: level terrain *)

(** How far a point is beside the plane through the antenna, its velocity and the centre of the Earth;
    positive to the left. *)
Definition beside (arp v q : Vec) : R := vdot (vsub q arp) (vcross arp v) / vnorm (vcross arp v).

(** By how much a point misses the contour, in range and, in metres, in range rate. *)
Definition range_miss (arp : Vec) (r : R) (q : Vec) : R := Rabs (distance arp q - r).
Definition rate_miss (arp v : Vec) (r rdot : R) (q : Vec) : R := Rabs (range_rate arp v q * distance arp q - rdot * r) / vnorm v.

Lemma cross_normalised a b : vcross (normalised a) (normalised b) = vscale (/ vnorm a * / vnorm b) (vcross a b).
Proof. unfold normalised, vcross, vscale. cbn. f_equal; ring. Qed.
Lemma vnorm_scale k a : 0 <= k -> vnorm (vscale k a) = k * vnorm a.
Proof. intros K. apply vnorm_of_sqr; [apply Rmult_le_pos; [exact K|apply vnorm_pos]|]. rewrite vdot_scale_l, vdot_scale_r, <- vnorm_sqr. ring. Qed.
Lemma make_contour_some r rdot arp v : vcross arp v <> vzero -> rdot ^ 2 <= vdot v v ->
  exists c, make_contour r rdot arp v = Some c /\ forall q, vdot (vsub q arp) (u_rry c) = beside arp v q.
Proof.
  intros X K. unfold make_contour.
  assert (V : v <> vzero) by (intros ->; apply X; unfold vcross, vzero; cbn; f_equal; ring).
  assert (A : arp <> vzero) by (intros ->; apply X; unfold vcross, vzero; cbn; f_equal; ring).
  pose proof (vnorm_pos_iff _ V) as Pv. pose proof (vnorm_sqr v) as Sv. pose proof (vnorm_pos_iff _ A) as Pa. pose proof (vnorm_pos_iff _ X) as Px.
  destruct (Req_EM_T (vnorm v) 0) as [Z|Z]; [lra|].
  destruct (Rlt_dec _ 0) as [F|F].
  { exfalso. replace (1 - -1 * rdot / vnorm v * (-1 * rdot / vnorm v)) with ((vdot v v - rdot ^ 2) / (vnorm v * vnorm v)) in F by (rewrite <- Sv; field; exact Z).
    assert (0 <= (vdot v v - rdot ^ 2) / (vnorm v * vnorm v)) by (apply Rmult_le_pos; [lra|apply Rlt_le, Rinv_0_lt_compat; nra]). lra. }
  assert (I1 : 0 < / vnorm arp) by (apply Rinv_0_lt_compat; lra). assert (I2 : 0 < / vnorm v) by (apply Rinv_0_lt_compat; lra).
  assert (I : 0 < / vnorm arp * / vnorm v) by (apply Rmult_lt_0_compat; assumption).
  rewrite cross_normalised, vnorm_scale by lra. destruct (Req_EM_T _ 0) as [E|E]; [exfalso; nra|]. eexists. split; [reflexivity|]. intros q. cbn [u_rry].
  unfold beside, normalised. rewrite vnorm_scale, !vdot_scale_r by lra. field. lra.
Qed.

Lemma sq_le a b : 0 <= b -> a ^ 2 <= b ^ 2 -> a <= b.
Proof. intros B H. apply Rnot_lt_le. intros L. cbn in H. nra. Qed.
Lemma abs_sq_diff a b : 0 <= a -> 0 <= b -> Rabs (a - b) * (a + b) = Rabs (a ^ 2 - b ^ 2).
Proof. intros A B. replace (a ^ 2 - b ^ 2) with ((a - b) * (a + b)) by ring. rewrite Rabs_mult, (Rabs_pos_eq (a + b)) by lra. reflexivity. Qed.
Lemma frame_norm u x y w : vdot u u = 1 -> vdot x x = 1 -> vdot y y = 1 -> vdot x y = 0 -> vdot x u = 0 -> vdot y u = 0 ->
  vdot w w = vdot w u ^ 2 + vdot w x ^ 2 + vdot w y ^ 2.
Proof.
  intros Uu Xx Yy Xy Xu Yu.
  set (t := vsub w (vadd (vscale (vdot w u) u) (vadd (vscale (vdot w x) x) (vscale (vdot w y) y)))).
  assert (Tu : vdot t u = 0) by (unfold t; rewrite vdot_sub_l, !vdot_add_l, !vdot_scale_l, Uu, Xu, Yu; ring).
  assert (Tx : vdot t x = 0) by (unfold t; rewrite vdot_sub_l, !vdot_add_l, !vdot_scale_l, (vdot_comm u x), (vdot_comm y x), Xx, Xu, Xy; ring).
  assert (Ty : vdot t y = 0) by (unfold t; rewrite vdot_sub_l, !vdot_add_l, !vdot_scale_l, (vdot_comm u y), Yy, Yu, Xy; ring).
  (* u, x, y have determinant one or minus one *)
  set (m := mkMat u x y). assert (D2 : det m * det m = 1).
  { transitivity (vdot u u * vdot x x * vdot y y + 2 * vdot x u * vdot x y * vdot y u - vdot u u * (vdot x y) ^ 2 - vdot x x * (vdot y u) ^ 2 - vdot y y * (vdot x u) ^ 2).
    - unfold m, det, vdot, vcross. cbn. ring.
    - rewrite Uu, Xx, Yy, Xy, Xu, Yu. ring. }
  assert (T0 : t = vzero).
  { destruct (mat_inv_ok m) as (n & N); [intros F; rewrite F in D2; lra|]. pose proof (mat_inv_l m n t N) as I. pose proof (mat_inv_l m n vzero N) as I0.
    rewrite <- I, <- I0. f_equal. unfold mulv, m. cbn [row1 row2 row3]. rewrite (vdot_comm u t), (vdot_comm x t), (vdot_comm y t), Tu, Tx, Ty. unfold vdot, vzero. cbn. f_equal; ring. }
  assert (W : w = vadd (vscale (vdot w u) u) (vadd (vscale (vdot w x) x) (vscale (vdot w y) y))).
  { unfold t in T0. set (z := vadd (vscale (vdot w u) u) _) in *. destruct w, z. unfold vsub, vzero in T0. cbn in T0. injection T0 as A B C. f_equal; lra. }
  rewrite W at 1. rewrite (vdot_comm _ w). rewrite !vdot_add_r, !vdot_scale_r. ring.
Qed.

Lemma rate_times_distance arp v q : range_rate arp v q * distance arp q = vdot v (vsub arp q).
Proof.
  rewrite range_rate_eq, distance_eq. destruct (Req_dec (vnorm (vsub arp q)) 0) as [Z|Z]; [|field; exact Z].
  rewrite Z, Rmult_0_r. apply vnorm_zero_iff in Z. rewrite Z. unfold vdot, vzero. cbn. ring.
Qed.

(** The contour point with the cosine of [q] is not far from [q]. *)
Lemma contour_near r rdot arp v c look q b :
  make_contour r rdot arp v = Some c -> 0 < r -> look * look = 1 -> 0 < b -> b <= look * vdot (vsub q arp) (u_rry c) ->
  let e1 := range_miss arp r q in let e2 := rate_miss arp v r rdot q in
  let off := (2 * r * (e1 + e2) + e1 ^ 2 + e2 ^ 2) / b in
  off < b ->
  let k := vdot (vsub q (ctr c)) (u_rrx c) / rrrc c in
  0 < rrrc c /\ 0 < 1 - k * k /\ exists p, contour_point c look k = Some p /\ distance p q <= e2 + off.
Proof.
  intros C R0 L B0 B e1 e2 off Ob k. apply contour_frame in C. cbv zeta in C. destruct C as (Pv & Uu & Xx & Yy & Xy & Xu & Yu & K0 & Ec & Er).
  set (u := normalised v) in *. set (n := -1 * rdot / vnorm v) in *. set (w := vsub q arp) in *. set (x := u_rrx c) in *. set (y := u_rry c) in *.
  assert (Vu : v = vscale (vnorm v) u) by (unfold u, normalised; apply vec_eq; cbn; field; lra).
  set (be := look * vdot w y) in *. set (e := vdot w u - r * n).
  assert (E2 : Rabs e = e2).
  { unfold e2, rate_miss. rewrite rate_times_distance. replace (vdot v (vsub arp q) - rdot * r) with (- vnorm v * e).
    - rewrite Rabs_mult, Rabs_Ropp, (Rabs_pos_eq (vnorm v)) by lra. field. lra.
    - rewrite Vu at 2. rewrite vdot_scale_l. unfold e, n, w. replace (vdot u (vsub arp q)) with (- vdot (vsub q arp) u) by (unfold vdot, vsub; cbn; ring). field. lra. }
  set (d := distance arp q - r). assert (E1 : Rabs d = e1) by reflexivity.
  assert (Dw : vdot w w = (r + d) ^ 2).
  { unfold d. replace (r + (distance arp q - r)) with (distance arp q) by ring. rewrite distance_sq. unfold w, vdot, vsub. cbn. ring. }
  rewrite (frame_norm u x y w Uu Xx Yy Xy Xu Yu) in Dw. set (wx := vdot w x) in *.
  replace (vdot w u) with (r * n + e) in Dw by (unfold e; ring).
  assert (Be : be ^ 2 = vdot w y ^ 2) by (unfold be; rewrite Rpow_mult_distr; replace (look ^ 2) with (look * look) by ring; rewrite L; ring).
  assert (Kx : rrrc c * k = wx \/ rrrc c = 0).
  { destruct (Req_dec (rrrc c) 0) as [Z|Z]; [now right|left]. unfold k. field_simplify; [|exact Z]. rewrite Ec. unfold wx, w. rewrite !vdot_sub_l, vdot_add_l, vdot_scale_l, (vdot_comm u x), Xu. ring. }
  assert (S2 : rrrc c ^ 2 = r ^ 2 * (1 - n * n)).
  { rewrite Er, Rpow_mult_distr. replace (sqrt (1 - n * n) ^ 2) with (sqrt (1 - n * n) * sqrt (1 - n * n)) by ring. rewrite sqrt_sqrt by exact K0. reflexivity. }
  assert (Df : be ^ 2 - (rrrc c ^ 2 - wx ^ 2) = 2 * r * d + d ^ 2 - 2 * (r * n) * e - e ^ 2) by (rewrite S2, Be; lra).
  assert (An : Rabs (r * n) <= r).
  { rewrite Rabs_mult, (Rabs_pos_eq r) by lra. assert (Rabs n <= 1) by (apply Rabs_le; nra). pose proof (Rabs_pos n). nra. }
  assert (Bd : Rabs (be ^ 2 - (rrrc c ^ 2 - wx ^ 2)) <= b * off).
  { rewrite Df. replace (b * off) with (2 * r * (e1 + e2) + e1 ^ 2 + e2 ^ 2) by (unfold off; field; lra).
    eapply Rle_trans; [apply Rabs_triang|]. eapply Rle_trans; [apply Rplus_le_compat_r, Rabs_triang|]. eapply Rle_trans; [apply Rplus_le_compat_r, Rplus_le_compat_r, Rabs_triang|].
    rewrite !Rabs_Ropp, !Rabs_mult, !(Rabs_pos_eq 2), (Rabs_pos_eq r) by lra. rewrite <- !RPow_abs, E1, E2. rewrite Rabs_mult in An. rewrite (Rabs_pos_eq r) in An by lra.
    assert (0 <= e2) by (rewrite <- E2; apply Rabs_pos). pose proof (Rabs_pos n). nra. }
  assert (Of0 : 0 <= off).
  { unfold off. apply Rmult_le_pos; [|apply Rlt_le, Rinv_0_lt_compat; lra]. assert (0 <= e1) by (rewrite <- E1; apply Rabs_pos). assert (0 <= e2) by (rewrite <- E2; apply Rabs_pos). nra. }
  assert (B2 : b ^ 2 <= be ^ 2) by (apply pow_incr; lra).
  assert (Q : 0 < rrrc c ^ 2 - wx ^ 2).
  { pose proof (Rle_abs (be ^ 2 - (rrrc c ^ 2 - wx ^ 2))). assert (b * off < b * b) by (apply Rmult_lt_compat_l; lra). nra. }
  assert (Rp : 0 < rrrc c).
  { assert (0 <= rrrc c) by (rewrite Er; apply Rmult_le_pos; [lra|apply sqrt_pos]). destruct (Req_dec (rrrc c) 0) as [Z|Z]; [|lra]. rewrite Z in Q. pose proof (pow2_ge_0 wx). lra. }
  destruct Kx as [Kx|Kx]; [|lra]. rewrite <- Kx in Q, Bd. 
  assert (K1 : 0 < 1 - k * k) by (apply Rmult_lt_reg_l with (rrrc c ^ 2); [cbn; nra|]; nra).
  split; [exact Rp|]. split; [exact K1|].
  unfold contour_point. destruct (Rlt_dec _ 0) as [F|_]; [lra|]. eexists. split; [reflexivity|].
  set (be0 := rrrc c * sqrt (1 - k * k)). assert (Z0 : 0 < be0) by (apply Rmult_lt_0_compat; [exact Rp|apply sqrt_lt_R0, K1]).
  assert (Be0 : be0 ^ 2 = rrrc c ^ 2 - (rrrc c * k) ^ 2).
  { unfold be0. rewrite Rpow_mult_distr. replace (sqrt (1 - k * k) ^ 2) with (sqrt (1 - k * k) * sqrt (1 - k * k)) by ring. rewrite sqrt_sqrt by lra. ring. }
  assert (Bb : Rabs (be - be0) <= off).
  { rewrite <- Be0 in Bd. rewrite <- (abs_sq_diff be be0) in Bd by lra. apply Rmult_le_reg_r with b; [exact B0|]. pose proof (Rabs_pos (be - be0)). nra. }
  set (p := vadd _ _). 
  assert (Pq : distance p q ^ 2 = e ^ 2 + (be - be0) ^ 2).
  { replace (distance p q ^ 2) with (vdot (vsub p q) (vsub p q)) by (rewrite distance_sq; unfold vdot, vsub; cbn; ring).
    rewrite (frame_norm u x y (vsub p q) Uu Xx Yy Xy Xu Yu).
    assert (Pw : vsub p q = vsub (vadd (vscale (r * n) u) (vscale (rrrc c) (vadd (vscale k x) (vscale (look * sqrt (1 - k * k)) y)))) w).
    { unfold p, w. rewrite Ec. unfold x, y. unfold vsub, vadd, vscale. cbn. f_equal; ring. }
    rewrite Pw. rewrite !vdot_sub_l, !vdot_add_l, !vdot_scale_l, !vdot_add_l, !vdot_scale_l, (vdot_comm u x), (vdot_comm u y), (vdot_comm y x), Uu, Xx, Yy, Xy, Xu, Yu.
    fold wx. replace (vdot w y) with (look * be) by (unfold be; rewrite <- Rmult_assoc, L; ring). replace (vdot w u) with (r * n + e) by (unfold e; ring). rewrite <- Kx. 
    transitivity (e ^ 2 + (look * look) * (be0 - be) ^ 2); [unfold be0; ring|rewrite L; ring]. }
  apply sq_le; [|].
  - assert (0 <= e2) by (rewrite <- E2; apply Rabs_pos). lra.
  - rewrite Pq. rewrite <- (pow2_abs e), <- (pow2_abs (be - be0)), E2. assert (0 <= e2) by (rewrite <- E2; apply Rabs_pos). pose proof (Rabs_pos (be - be0)). nra.
Qed.

Lemma height_near p q e : -6335438 < elevation (wgs84_geodetic q) -> distance p q <= e -> e <= 1 ->
  Rabs (elevation (wgs84_geodetic p) - elevation (wgs84_geodetic q)) <= e.
Proof.
  intros H D E. eapply Rle_trans; [|exact D]. apply C101_heights; [|lra].
  assert (Dd : 6335439 <= deepest) by (unfold deepest, semi_major, eccentricity2, flattening; lra).
  pose proof (height_lipschitz q p) as L. replace (distance q p) with (distance p q) in L by (unfold distance; f_equal; ring).
  apply Rnot_le_lt. intros F. assert (Rmax (elevation (wgs84_geodetic p)) (- deepest) <= -6335439) by (apply Rmax_lub; lra). lra.
Qed.
Lemma floor_zero : Rfloor 0 = 0%Z.
Proof.
  pose proof (Rfloor_bounds 0) as (A & B). assert (Rfloor 0 <= 0)%Z by (apply le_IZR; lra). assert (-1 < Rfloor 0)%Z by (apply lt_IZR; lra). lia.
Qed.

(** Terrain of the same elevation everywhere, as from a constant elevation model.  The point [q] that the
    height projection gives for that elevation misses the contour by a little (C102 says how little); if
    that, compared with how far [q] is beside the track, amounts to less than a millimetre, then the
    intersection is found, is that close to [q] and, with it, to the terrain. *)
Theorem C104_level_terrain :
  forall (t : Terrain) (scp : Vec) (side : string) (d : Dem) (r rdot : R) (arp v q : Vec) (h spacing b : R),
  describe_region t (wgs84_geodetic scp) = Some (h, h, spacing) -> spacing <> 0 -> (forall g, elevation (set_elevation t g) = h) -> -6335438 < h ->
  make_dem wgs84_geodetic scp side t = Ok d ->
  0 < r -> vcross arp v <> vzero -> rdot ^ 2 <= vdot v v ->
  hae_intersection wgs84_geodetic wgs84_geocentric (default_hae scp side h) r rdot arp v = Ok (Some q) ->
  0 < b -> b <= (if String.eqb side "R" then - beside arp v q else beside arp v q) ->
  let e1 := range_miss arp r q in let e2 := rate_miss arp v r rdot q in
  let off := (2 * r * (e1 + e2) + e1 ^ 2 + e2 ^ 2) / b in
  off < b -> e2 + off < 0.001 ->
  exists p ps, dem_intersection wgs84_geodetic wgs84_geocentric d r rdot arp v = Ok (Some p :: ps) /\
    distance p q <= e2 + off /\ Rabs (elevation (wgs84_geodetic p) - h) <= e2 + off.
Proof.
  intros t scp side d r rdot arp v q h spacing b S Sp Lv Hh M R0 X K Hq B0 B e1 e2 off Ob Om.
  unfold make_dem in M. rewrite S in M. injection M as <-.
  destruct (make_contour_some r rdot arp v X K) as (c & C & By).
  pose proof (look_of_sqr side) as L2.
  assert (Bl : b <= look_of side * vdot (vsub q arp) (u_rry c)) by (rewrite By; unfold look_of; destruct (String.eqb side "R"); lra).
  destruct (contour_near r rdot arp v c (look_of side) q b C R0 L2 B0 Bl Ob) as (Rp & K1 & p & P & D). fold e1 e2 off in D.
  set (k := vdot (vsub q (ctr c)) (u_rrx c) / rrrc c) in *.
  assert (E : elevation (wgs84_geodetic q) = h) by (apply (C102_height (default_hae scp side h) r rdot arp v q); [cbn [hae default_hae]; lra|exact Hq]).
  assert (Hp : Rabs (elevation (wgs84_geodetic p) - h) <= e2 + off) by (rewrite <- E; apply height_near; lra).
  exists p. unfold dem_intersection, dem_sampling. cbn [hae_max hae_min d_scp d_side]. rewrite Hq. cbn [bind]. rewrite C.
  destruct (Req_EM_T (rrrc c) 0) as [F|_]; [lra|]. fold k. destruct (Rlt_dec (1 - k * k) 0) as [F|_]; [lra|].
  set (st := cosine_step _ _ _ _). assert (St : st <> 0).
  { unfold st, cosine_step. cbn [delta_dist_rrc delta_dist_dem]. assert (Sq : 0 < sqrt (1 - k * k)) by (apply sqrt_lt_R0, K1).
    assert (A : 0 < Rabs (look_of side * sqrt (1 - k * k))) by (apply Rabs_pos_lt, Rmult_integral_contrapositive; split; [intros F; rewrite F in L2; lra|lra]).
    set (a := Rabs (look_of side * sqrt (1 - k * k))) in *. assert (Ir : 0 < / rrrc c) by (apply Rinv_0_lt_compat, Rp). assert (A1 : 0 < 10 * a / rrrc c) by (apply Rmult_lt_0_compat; lra).
    destruct (Req_EM_T k 0) as [Z|Z]; [intros F; lra|]. unfold Rmin. destruct (Rle_dec _ _) as [_|_]; [intros F; lra|].
    intros F. assert (F' : 0.5 * spacing * (a / k) / rrrc c = 0) by lra. clear F.
    apply Rmult_integral in F'. destruct F' as [F'|F']; [|lra]. apply Rmult_integral in F'. destruct F' as [F'|F']; [lra|].
    apply Rmult_integral in F'. destruct F' as [F'|F']; [lra|]. exact (Rinv_neq_0_compat _ Z F'). }
  destruct (Req_EM_T st 0) as [F|_]; [contradiction|]. cbn [bind].
  replace ((k - k) / st) with 0 by (field; exact St). rewrite floor_zero.
  set (s0 := mkSampling c (look_of side) k k st (0 + 2)).
  assert (A0 : sample_at s0 (INR 0) = Some p) by (unfold sample_at, s0; cbn [contour look_side start step INR]; replace (k + 0 * st) with k by ring; exact P).
  unfold sample_heights. change (Z.to_nat (points s0)) with 2%nat. cbn [seq List.map]. rewrite A0.
  assert (I : indicator 0.001 (Some (height_above wgs84_geodetic t p)) = 0%Z).
  { unfold indicator, height_above. rewrite Lv. destruct (Rlt_dec _ _) as [_|F]; [reflexivity|lra]. }
  cbn [dem_scan delta_hd_lim d_terrain]. rewrite I. cbn [Z.eqb app]. eexists. split; [reflexivity|]. split; assumption.
Qed.
Print Assumptions C104_level_terrain.

(** So the sensor model answers, and with the elevation of the model. *)
Theorem C104_sicd :
  forall (m : Sicd) (i : Image) (t : Terrain) (q : Vec) (h spacing b : R),
  let scp := scp_ecf (converter m) in let side := side_of_track m in
  describe_region t (wgs84_geodetic scp) = Some (h, h, spacing) -> spacing <> 0 -> (forall g, elevation (set_elevation t g) = h) -> -6335438 < h ->
  let c := precise_rrdot (projection m) (grid_location m i) in
  let r := r_coa c in let rdot := rdot_coa c in let arp := arp_coa c in let v := varp_coa c in
  0 < r -> vcross arp v <> vzero -> rdot ^ 2 <= vdot v v ->
  hae_intersection wgs84_geodetic wgs84_geocentric (default_hae scp side h) r rdot arp v = Ok (Some q) ->
  0 < b -> b <= (if String.eqb side "R" then - beside arp v q else beside arp v q) ->
  let e1 := range_miss arp r q in let e2 := rate_miss arp v r rdot q in
  let off := (2 * r * (e1 + e2) + e1 ^ 2 + e2 ^ 2) / b in
  off < b -> e2 + off < 0.001 ->
  exists g, sicd_image_to_world wgs84_geodetic wgs84_geocentric m i (Some t) = Ok (Some g) /\
    Rabs (elevation g - h) < 0.001 /\ distance (wgs84_geocentric g) q < 0.001 /\
    distance arp (wgs84_geocentric g) = r /\ range_rate arp v (wgs84_geocentric g) = rdot.
Proof.
  intros m i t q h spacing b scp side S Sp Lv Hh c r rdot arp v R0 X K Hq B0 B e1 e2 off Ob Om.
  destruct (make_dem wgs84_geodetic scp side t) as [d|e] eqn:M; [|unfold make_dem in M; rewrite S in M; discriminate].
  destruct (C104_level_terrain t scp side d r rdot arp v q h spacing b S Sp Lv Hh M R0 X K Hq B0 B Ob Om) as (p & ps & P & D & H).
  exists (wgs84_geodetic p). unfold sicd_image_to_world. fold c scp side. rewrite M. cbn [bind]. fold r rdot arp v. rewrite P. cbn [bind]. split; [reflexivity|].
  rewrite geocentric_geodetic. fold e1 e2 off in D, H. split; [lra|]. split; [lra|].
  apply (C36_on_contour wgs84_geodetic wgs84_geocentric d r rdot arp v (Some p :: ps) p R0 P). now left.
Qed.
Print Assumptions C104_sicd.

(** An image of the North Pole, seen from three metres above it and four metres beside it. *)
Example C104_non_vacuous :
  let pole := mkVec 0 0 polar_radius in
  let level := mkTerrain (fun g => mkGeo (longitude g) (latitude g) 0) (fun _ => Some (0, 0, 30)) in
  let m := mkSicd (mkConverter (mkImage 7 9) pole (mkVec 1 0 0) (mkVec 0 1 0) 2 (1/2) (mkImage 3 4))
                  (mkProjectionSet (PLANE pole (mkVec 1 0 0) (mkVec 0 1 0)) [[0]] (mkPolyXYZ [-4] [0; -1] [polar_radius + 3]) vzero vzero 0)
                  (mkVec (3/5) 0 (4/5)) "L" (Some (mkVec 0 0 1)) in
  exists g, sicd_image_to_world wgs84_geodetic wgs84_geocentric m (mkImage 4 5) (Some level) = Ok (Some g) /\
    Rabs (elevation g - 0) < 0.001 /\ distance (wgs84_geocentric g) pole < 0.001 /\
    distance (mkVec (-4) 0 (polar_radius + 3)) (wgs84_geocentric g) = 5 /\
    range_rate (mkVec (-4) 0 (polar_radius + 3)) (mkVec 0 (-1) 0) (wgs84_geocentric g) = 0.
Proof.
  intros pole level m. set (arp := mkVec (-4) 0 (polar_radius + 3)). set (v := mkVec 0 (-1) 0).
  assert (Pv : 6000000 < polar_radius) by (unfold polar_radius; lra).
  assert (Dp : distance arp pole = 5).
  { unfold distance, arp, pole. cbn [vx vy vz]. replace ((-4 - 0) ^ 2 + (0 - 0) ^ 2 + (polar_radius + 3 - polar_radius) ^ 2) with (5 * 5) by ring. apply sqrt_square. lra. }
  assert (Rp : range_rate arp v pole = 0) by (unfold range_rate; rewrite Dp; unfold v, arp, pole; cbn [vx vy vz]; field).
  assert (Vn : vnorm v = 1) by (unfold vnorm, v, vdot; cbn [vx vy vz]; replace (0 * 0 + -1 * -1 + 0 * 0) with 1 by ring; apply sqrt_1).
  assert (C : precise_rrdot (projection m) (grid_location m (mkImage 4 5)) = mkCoa 5 0 0 arp v).
  { assert (T : poly2d [[0]] ((5 + 4 - 9) * 2) ((4 + 3 - 7) * (1 / 2)) = 0) by (cbn; ring).
    unfold precise_rrdot, grid_location, rowcol_to_xrowycol, m. cbn [projection converter scp_pixel first_pixel row_ss col_ss coa_time_poly fst snd iy ix arp_poly varp_poly grid_specific_projection grid range_bias delta_arp delta_varp].
    rewrite T.
    replace (polyxyz (mkPolyXYZ _ _ _) 0) with arp by (apply vec_ext; cbn; ring). replace (polyxyz (varp_poly _) 0) with v by (apply vec_ext; cbn; ring).
    replace (vadd (vadd pole _) _) with pole by (apply vec_ext; cbn; field). replace (vnorm (vsub arp pole)) with 5 by (rewrite <- Dp; unfold distance, vnorm, vdot; f_equal; cbn; ring).
    f_equal; [ring|unfold vdot, v, arp, pole; cbn; field|apply vec_ext; cbn; ring|apply vec_ext; cbn; ring]. }
  pose proof (C104_sicd m (mkImage 4 5) level pole 0 30 1) as T. cbv zeta in T. rewrite C in T. cbn [r_coa rdot_coa arp_coa varp_coa] in T.
  assert (E1 : range_miss arp 5 pole = 0) by (unfold range_miss; rewrite Dp; replace (5 - 5) with 0 by ring; apply Rabs_R0).
  assert (E2 : rate_miss arp v 5 0 pole = 0) by (unfold rate_miss; rewrite Dp, Rp, Vn; replace (0 * 5 - 0 * 5) with 0 by ring; rewrite Rabs_R0; field).
  rewrite E1, E2 in T. apply T; try lra.
  - reflexivity.
  - intros g. reflexivity.
  - intros E. apply (f_equal vz) in E. unfold arp, v in E. cbn in E. lra.
  - unfold vdot, v. cbn [vx vy vz]. lra.
  - exact pole_seen.
  - cbn [side_of_track m String.eqb Ascii.eqb Bool.eqb]. unfold beside. replace (vdot (vsub pole arp) (vcross arp v)) with (4 * polar_radius) by (unfold vdot, pole, arp, v; cbn; ring).
    set (w := vcross arp v). assert (W : vnorm w * vnorm w = (polar_radius + 3) ^ 2 + 16) by (rewrite vnorm_sqr; unfold w, arp, v, vdot; cbn; ring).
    pose proof (vnorm_pos w) as W0. assert (W1 : vnorm w <= polar_radius + 7) by (apply sq_le; [lra|nra]). assert (W2 : 0 < vnorm w) by nra.
    apply Rmult_le_reg_r with (vnorm w); [exact W2|]. unfold Rdiv. rewrite Rmult_assoc, Rinv_l by lra. lra.
Qed.
