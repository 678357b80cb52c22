(** Property theorems for the WGS 84 conversions (C101) and for projections to a constant height above
    the WGS 84 ellipsoid (C102). *)
Require Import ZArith Reals String List Lra Lia.
Require Import Verif.Base Verif.BaseFacts Verif.Vec Verif.VecFacts Verif.SicdModel Verif.PolySpec Verif.SicdSpec Verif.SicdProofs Verif.SicdGroundProofs Verif.SicdProps
  Verif.SicdSurfaceProps Verif.SicdFindProps Verif.GeodesyModel Verif.GeodesyProofs Verif.GeodesyHeightProofs.
Import ListNotations.
Local Open Scope R_scope.

(** ** C101: geodetic and geocentric coordinates *)

(** One name for every place: longitudes in (-pi, pi], latitudes in [-pi/2, pi/2], longitude zero at the
    poles. *)
Definition canonical (g : Geodetic) : Prop :=
  - PI < longitude g <= PI /\
  (- (PI / 2) < latitude g < PI / 2 \/ (latitude g = PI / 2 \/ latitude g = - (PI / 2)) /\ longitude g = 0).

(** Every point of space has such a name, and converting that name gives the point. *)
Theorem C101_back : forall p : Vec, canonical (wgs84_geodetic p) /\ wgs84_geocentric (wgs84_geodetic p) = p.
Proof.
  intros p. split; [|apply geocentric_geodetic]. unfold wgs84_geodetic, canonical. cbn [longitude latitude]. set (rho := sqrt (vx p ^ 2 + vy p ^ 2)).
  destruct (rho_pos (vx p) (vy p)) as (R0 & R2). fold rho in R0, R2. pose proof PI_RGT_0. destruct (Req_dec rho 0) as [Z|Z].
  - unfold wgs84_longitude, wgs84_latitude. destruct (Req_EM_T rho 0); [|lra]. split; [lra|]. right. split; [|reflexivity]. destruct (Rlt_dec (vz p) 0); [now right|now left].
  - destruct (latitude_off_axis rho (vz p)) as (L & _); [lra|]. destruct (longitude_direction rho (vx p) (vy p)) as (_ & _ & Lo); [lra|exact R2|]. split; [exact Lo|]. now left.
Qed.
Print Assumptions C101_back.

(** Down to more than 6,335 kilometres below the surface every name comes back from its point. *)
Theorem C101_forth : forall g : Geodetic, canonical g -> -6335439 < elevation g -> wgs84_geodetic (wgs84_geocentric g) = g.
Proof.
  intros [lon lat h] (Lo & La) H. cbn [longitude latitude elevation] in *.
  assert (D : - deepest < h) by (unfold deepest, semi_major, eccentricity2, flattening; lra).
  destruct La as [La|(La & ->)]; [now apply geodetic_geocentric|]. destruct La as [-> | ->]; [exact (geodetic_pole 0 h true D)|exact (geodetic_pole 0 h false D)].
Qed.
Print Assumptions C101_forth.
Lemma shallow_deep h : -6335439 < h -> - deepest < h.
Proof. unfold deepest, semi_major, eccentricity2, flattening. lra. Qed.

(** So the name is the only one, and different names are different points. *)
Theorem C101_determined :
  forall (g g' : Geodetic) (p : Vec), canonical g -> canonical g' -> -6335439 < elevation g -> -6335439 < elevation g' ->
  wgs84_geocentric g = p -> (wgs84_geodetic p = g /\ (wgs84_geocentric g' = p -> g' = g)).
Proof.
  intros g g' p C C' H H' <-. split; [now apply C101_forth|]. intros E. rewrite <- (C101_forth g C H), <- (C101_forth g' C' H'). now rewrite E.
Qed.
Print Assumptions C101_determined.

(** The sign of the height tells where the point is: inside, on or outside the ellipsoid with semi axes
    6,378,137 and 6,378,137 (1 - 1/298.257223563) metres. *)
Theorem C101_surface :
  forall p : Vec, let a := 6378137 in let b := a * (1 - 1 / 298.257223563) in
  let q := (vx p ^ 2 + vy p ^ 2) / a ^ 2 + vz p ^ 2 / b ^ 2 in
  (elevation (wgs84_geodetic p) < 0 <-> q < 1) /\ (elevation (wgs84_geodetic p) = 0 <-> q = 1) /\ (0 < elevation (wgs84_geodetic p) <-> 1 < q).
Proof.
  intros p a b q. assert (E : q = ellipsoid_form p).
  { unfold q, ellipsoid_form. replace (b ^ 2) with minor2; [reflexivity|]. unfold minor2, b, a, semi_major, eccentricity2, flattening.
    replace 298.257223563 with (298257223563 / 1000000000) by lra. field. }
  rewrite E. pose proof (inside_below p) as I. pose proof (below_inside p) as B. pose proof (level_surface p) as L.
  destruct (Rtotal_order (elevation (wgs84_geodetic p)) 0) as [H|[H|H]].
  - specialize (B H). repeat split; lra.
  - specialize (L H). repeat split; lra.
  - assert (1 < ellipsoid_form p) by (destruct (Rle_lt_dec (ellipsoid_form p) 1) as [F|]; [specialize (I F); lra|assumption]). repeat split; lra.
Qed.
Print Assumptions C101_surface.

(** The height is the distance from the ellipsoid: the point of the ellipsoid with the same longitude and
    latitude is that far away, along the local vertical, and no point of the ellipsoid is nearer. *)
Theorem C101_nearest :
  forall p : Vec, let g := wgs84_geodetic p in -6335439 < elevation g ->
  let f := wgs84_geocentric (mkGeo (longitude g) (latitude g) 0) in
  p = vadd f (vscale (elevation g) (local_up g)) /\ distance p f = Rabs (elevation g) /\
  forall q, elevation (wgs84_geodetic q) = 0 -> Rabs (elevation g) <= distance p q.
Proof.
  intros p g H f. pose proof (geocentric_geodetic p) as P. fold g in P. pose proof (at_height g) as A. rewrite P in A. change (on_ellipsoid g) with f in A.
  split; [exact A|]. split.
  - rewrite A. unfold distance, vadd, vscale. cbn [vx vy vz].
    replace ((vx f + elevation g * vx (local_up g) - vx f) ^ 2 + (vy f + elevation g * vy (local_up g) - vy f) ^ 2 + (vz f + elevation g * vz (local_up g) - vz f) ^ 2)
      with (elevation g ^ 2 * (vx (local_up g) ^ 2 + vy (local_up g) ^ 2 + vz (local_up g) ^ 2)) by ring.
    rewrite up_is_unit, Rmult_1_r. rewrite <- Rsqr_pow2. apply sqrt_Rsqr_abs.
  - intros q Q. pose proof (height_lipschitz p q) as L1. pose proof (height_lipschitz q p) as L2. fold g in L1, L2. rewrite Q in L1, L2. pose proof (shallow_deep _ H).
    rewrite Rmax_left in L2 by lra. rewrite Rmax_left in L1 by (unfold deepest, semi_major, eccentricity2, flattening; lra).
    replace (distance q p) with (distance p q) in L2 by (unfold distance; f_equal; ring). apply Rabs_le. lra.
Qed.
Print Assumptions C101_nearest.

(** Moving up the local vertical only changes the height. *)
Theorem C101_vertical :
  forall (g : Geodetic) (t : R),
  wgs84_geocentric (mkGeo (longitude g) (latitude g) (elevation g + t)) = vadd (wgs84_geocentric g) (vscale t (local_up g)) /\
  (canonical g -> -6335439 < elevation g + t ->
   wgs84_geodetic (vadd (wgs84_geocentric g) (vscale t (local_up g))) = mkGeo (longitude g) (latitude g) (elevation g + t)).
Proof.
  intros g t. assert (E : wgs84_geocentric (mkGeo (longitude g) (latitude g) (elevation g + t)) = vadd (wgs84_geocentric g) (vscale t (local_up g))).
  { unfold wgs84_geocentric, local_up, vadd, vscale. cbn [vx vy vz longitude latitude elevation]. f_equal; ring. }
  split; [exact E|]. intros C H. rewrite <- E. apply C101_forth; [exact C|exact H].
Qed.
Print Assumptions C101_vertical.

(** Two places differ in height by no more than their distance. *)
Theorem C101_heights :
  forall p q : Vec, -6335439 < elevation (wgs84_geodetic p) -> -6335439 < elevation (wgs84_geodetic q) ->
  Rabs (elevation (wgs84_geodetic p) - elevation (wgs84_geodetic q)) <= distance p q.
Proof.
  intros p q Hp Hq. pose proof (height_lipschitz p q) as L1. pose proof (height_lipschitz q p) as L2.
  rewrite Rmax_left in L1 by (apply shallow_deep in Hq; lra). rewrite Rmax_left in L2 by (apply shallow_deep in Hp; lra).
  replace (distance q p) with (distance p q) in L2 by (unfold distance; f_equal; ring). apply Rabs_le. lra.
Qed.
Print Assumptions C101_heights.

(** The horizontal plane through a place touches the surface of its height from above: no point of the
    plane is lower, and the height grows at most with the square of the distance over twice the radius
    of the Earth. *)
Theorem C101_horizon :
  forall (g : Geodetic) (p : Vec), -6335439 < elevation g -> on_plane (wgs84_geocentric g) (local_up g) p ->
  elevation g <= elevation (wgs84_geodetic p) <= elevation g + distance p (wgs84_geocentric g) ^ 2 / (2 * (6335439 + elevation g)).
Proof.
  intros g p H O. pose proof (shallow_deep _ H) as D. pose proof (height_along g) as A. pose proof (up_is_unit g) as U.
  assert (E : vdot p (local_up g) = vdot (wgs84_geocentric g) (local_up g)) by (unfold on_plane in O; unfold vdot; lra).
  pose proof (no_higher p g) as N. rewrite E, A in N. assert (L : elevation g <= elevation (wgs84_geodetic p)).
  { unfold Rmax in N. destruct (Rle_dec _ _); lra. }
  split; [exact L|].
  set (f := wgs84_geocentric g) in *. set (rr := deepest + elevation g). set (c := vsub f (vscale rr (local_up g))).
  assert (C : elevation (wgs84_geodetic c) <= - deepest).
  { pose proof (height_along (wgs84_geodetic c)) as Hc. rewrite geocentric_geodetic in Hc. set (k := wgs84_geodetic c) in *. pose proof (up_is_unit k) as Uk.
    pose proof (prime_vertical_bounds (latitude g)) as Pv. pose proof eccentricity2_bounds as Ee. pose proof major_pos as M.
    assert (Bi : 0 <= deepest <= prime_vertical (latitude g) * (1 - eccentricity2)).
    { unfold deepest. split; [apply Rmult_le_pos; lra|apply Rmult_le_compat_r; lra]. }
    pose proof (ball_inside g deepest (local_up k) Bi Uk) as F. apply (below_tangent _ k) in F.
    assert (X : vdot (vadd (on_ellipsoid g) (vscale deepest (vsub (local_up k) (local_up g)))) (local_up k) = vdot c (local_up k) + deepest * (vx (local_up k) ^ 2 + vy (local_up k) ^ 2 + vz (local_up k) ^ 2)).
    { unfold c, f. rewrite (at_height g). unfold rr, vdot, vadd, vscale, vsub. cbn [vx vy vz]. ring. }
    rewrite X, Uk in F. lra. }
  pose proof (height_lipschitz p c) as Li. rewrite Rmax_right in Li by lra.
  assert (Rp : 0 < rr) by (unfold rr; lra).
  assert (Q : distance p c ^ 2 = rr ^ 2 + distance p f ^ 2).
  { rewrite !distance_sq. unfold c, vsub, vscale. cbn [vx vy vz]. unfold on_plane in O.
    transitivity (rr ^ 2 * (vx (local_up g) ^ 2 + vy (local_up g) ^ 2 + vz (local_up g) ^ 2)
      + 2 * rr * (vx (local_up g) * (vx p - vx f) + vy (local_up g) * (vy p - vy f) + vz (local_up g) * (vz p - vz f)) + ((vx p - vx f) ^ 2 + (vy p - vy f) ^ 2 + (vz p - vz f) ^ 2)); [ring|].
    rewrite O, U. ring. }
  set (d := distance p f) in *. set (s := distance p c) in *. assert (S0 : 0 <= s) by apply sqrt_pos. pose proof (pow2_ge_0 d) as D2.
  assert (Sb : s <= rr + d ^ 2 / (2 * rr)).
  { destruct (Rle_lt_dec s (rr + d ^ 2 / (2 * rr))) as [|G]; [assumption|]. exfalso.
    assert (K : 0 <= d ^ 2 / (2 * rr)) by (apply Rmult_le_pos; [exact D2|apply Rlt_le, Rinv_0_lt_compat; lra]).
    assert (W : (rr + d ^ 2 / (2 * rr)) ^ 2 < s ^ 2) by (cbn [pow]; rewrite !Rmult_1_r; apply Rmult_le_0_lt_compat; lra).
    replace ((rr + d ^ 2 / (2 * rr)) ^ 2) with (rr ^ 2 + d ^ 2 + (d ^ 2 / (2 * rr)) ^ 2) in W by (field; lra). pose proof (pow2_ge_0 (d ^ 2 / (2 * rr))). lra. }
  assert (F : d ^ 2 / (2 * rr) <= d ^ 2 / (2 * (6335439 + elevation g))).
  { apply Rmult_le_compat_l; [exact D2|]. apply Rinv_le_contravar; [lra|]. unfold rr, deepest, semi_major, eccentricity2, flattening. lra. }
  unfold rr in Sb at 1. lra.
Qed.
Print Assumptions C101_horizon.

(** The verticals of two places differ by no more than their distance over the radius of the Earth. *)
Theorem C101_directions :
  forall p q : Vec, let g := wgs84_geodetic p in let k := wgs84_geodetic q in -6335439 < elevation g -> -6335439 < elevation k ->
  (6335439 + (elevation g + elevation k) / 2) * distance (local_up g) (local_up k) <= distance p q.
Proof.
  intros p q g k Hg Hk. pose proof (geocentric_geodetic p) as P. pose proof (geocentric_geodetic q) as Q. fold g in P. fold k in Q. rewrite at_height in P, Q.
  pose proof (up_is_unit g) as Ug. pose proof (up_is_unit k) as Uk.
  assert (Bi : forall x, 0 <= deepest <= prime_vertical (latitude x) * (1 - eccentricity2)).
  { intros x. pose proof (prime_vertical_bounds (latitude x)). pose proof eccentricity2_bounds. pose proof major_pos. unfold deepest. split; [apply Rmult_le_pos; lra|apply Rmult_le_compat_r; lra]. }
  pose proof (below_tangent _ k (ball_inside g deepest (local_up k) (Bi g) Uk)) as B1. pose proof (below_tangent _ g (ball_inside k deepest (local_up g) (Bi k) Ug)) as B2.
  pose proof (height_along (mkGeo (longitude k) (latitude k) 0)) as S1. pose proof (height_along (mkGeo (longitude g) (latitude g) 0)) as S2.
  change (wgs84_geocentric (mkGeo (longitude k) (latitude k) 0)) with (on_ellipsoid k) in S1. change (wgs84_geocentric (mkGeo (longitude g) (latitude g) 0)) with (on_ellipsoid g) in S2.
  change (local_up (mkGeo (longitude k) (latitude k) 0)) with (local_up k) in S1. change (local_up (mkGeo (longitude g) (latitude g) 0)) with (local_up g) in S2. cbn [latitude elevation] in S1, S2.
  set (a := local_up g) in *. set (b := local_up k) in *. set (s := on_ellipsoid g) in *. set (t := on_ellipsoid k) in *. set (h := elevation g) in *. set (l := elevation k) in *.
  assert (De : distance a b ^ 2 = 2 * (1 - vdot a b)) by (rewrite distance_sq; unfold vdot; lra).
  assert (Dd : 6335439 <= deepest) by (unfold deepest, semi_major, eccentricity2, flattening; lra).
  assert (K1 : vdot s b + deepest * (1 - vdot a b) <= vdot t b).
  { assert (E : vdot (vadd s (vscale deepest (vsub b a))) b = vdot s b + deepest * ((vx b ^ 2 + vy b ^ 2 + vz b ^ 2) - vdot a b)) by (unfold vdot, vadd, vscale, vsub; cbn [vx vy vz]; ring).
    rewrite E, Uk in B1. lra. }
  assert (K2 : vdot t a + deepest * (1 - vdot a b) <= vdot s a).
  { assert (E : vdot (vadd t (vscale deepest (vsub a b))) a = vdot t a + deepest * ((vx a ^ 2 + vy a ^ 2 + vz a ^ 2) - vdot a b)) by (unfold vdot, vadd, vscale, vsub; cbn [vx vy vz]; ring).
    rewrite E, Ug in B2. lra. }
  assert (E : vdot (vsub p q) (vsub a b) = (vdot s a - vdot t a) + (vdot t b - vdot s b) + (h + l) * (1 - vdot a b)).
  { rewrite <- P, <- Q. unfold vdot, vsub, vadd, vscale. cbn [vx vy vz].
    transitivity ((vx s * vx a + vy s * vy a + vz s * vz a) - (vx t * vx a + vy t * vy a + vz t * vz a) + ((vx t * vx b + vy t * vy b + vz t * vz b) - (vx s * vx b + vy s * vy b + vz s * vz b))
      + h * ((vx a ^ 2 + vy a ^ 2 + vz a ^ 2) - (vx a * vx b + vy a * vy b + vz a * vz b)) + l * ((vx b ^ 2 + vy b ^ 2 + vz b ^ 2) - (vx a * vx b + vy a * vy b + vz a * vz b))); [ring|]. rewrite Ug, Uk. ring. }
  pose proof (cauchy_schwarz (vsub p q) (vsub a b)) as C. rewrite E, <- !distance_eq in C.
  assert (D0 : 0 <= distance a b) by apply sqrt_pos. assert (P0 : 0 <= distance p q) by apply sqrt_pos. set (x := distance a b) in *. set (y := distance p q) in *.
  assert (F : (6335439 + (h + l) / 2) * x * x <= y * x).
  { assert (0 <= (deepest - 6335439) * (1 - vdot a b)) by (apply Rmult_le_pos; [lra|pose proof (pow2_ge_0 x); lra]). replace ((6335439 + (h + l) / 2) * x * x) with ((6335439 + (h + l) / 2) * x ^ 2) by ring. rewrite De. lra. }
  destruct (Req_dec x 0) as [->|N]; [lra|]. apply Rmult_le_reg_r with x; [lra|exact F].
Qed.
Print Assumptions C101_directions.

(** Ten degrees north, five degrees east and thirty metres below the ellipsoid is such a name. *)
Example C101_non_vacuous :
  let g := mkGeo (PI / 36) (PI / 18) (-30) in
  canonical g /\ wgs84_geodetic (wgs84_geocentric g) = g /\
  wgs84_geodetic (mkVec 0 0 (-6356853)) = mkGeo 0 (- (PI / 2)) (6356853 - 6378137 * (1 - 1 / 298.257223563)) /\
  on_plane (wgs84_geocentric g) (local_up g) (wgs84_geocentric g).
Proof.
  cbv zeta. pose proof PI_RGT_0. assert (C : canonical (mkGeo (PI / 36) (PI / 18) (-30))) by (unfold canonical; cbn [longitude latitude]; split; [lra|left; lra]).
  split; [exact C|]. split; [apply C101_forth; [exact C|cbn; lra]|]. split; [|unfold on_plane; ring].
  unfold wgs84_geodetic. cbn [vx vy vz]. replace (0 ^ 2 + 0 ^ 2) with 0 by ring. rewrite sqrt_0. unfold wgs84_longitude, wgs84_latitude.
  destruct (Req_EM_T 0 0) as [_|F]; [|now contradiction F]. destruct (Rlt_dec (-6356853) 0) as [_|F]; [|lra]. f_equal. rewrite prime_vertical_opp.
  unfold prime_vertical. rewrite sin_PI2. replace (1 - eccentricity2 * 1 ^ 2) with ((1 - flattening) * (1 - flattening)) by (unfold eccentricity2; ring).
  rewrite sqrt_square by (unfold flattening; lra). rewrite Rabs_left by lra. unfold semi_major, eccentricity2, flattening.
  replace 298.257223563 with (298257223563 / 1000000000) by lra. field.
Qed.

(** ** C102: projection to a constant height above the WGS 84 ellipsoid *)

Lemma up_nonzero g : local_up g <> vzero.
Proof. intros E. pose proof (up_is_unit g) as U. rewrite E in U. cbn in U. lra. Qed.
Lemma foot_place p target : -6335439 < target -> let g := wgs84_geodetic p in
  foot wgs84_geodetic target p = wgs84_geocentric (mkGeo (longitude g) (latitude g) target) /\
  wgs84_geodetic (foot wgs84_geodetic target p) = mkGeo (longitude g) (latitude g) target.
Proof.
  intros H g. assert (E : foot wgs84_geodetic target p = wgs84_geocentric (mkGeo (longitude g) (latitude g) target)).
  { destruct (C101_vertical g (target - elevation g)) as (V & _). replace (elevation g + (target - elevation g)) with target in V by ring. rewrite V.
    unfold g at 1. rewrite geocentric_geodetic. unfold foot, excess, vadd, vscale. fold g. apply vec_ext; cbn [vx vy vz]; ring. }
  split; [exact E|]. rewrite E. apply C101_forth; [|exact H]. exact (proj1 (C101_back p)).
Qed.

(** The result has the requested height. *)
Theorem C102_height :
  forall (s : Hae) (r rdot : R) (arp v q : Vec), -6335439 < hae s ->
  hae_intersection wgs84_geodetic wgs84_geocentric s r rdot arp v = Ok (Some q) -> elevation (wgs84_geodetic q) = hae s.
Proof.
  intros s r rdot arp v q H E. apply C35_iteration in E. destruct E as (k & p & d & _ & _ & _ & _ & _ & _ & _ & ->).
  rewrite C101_forth; [reflexivity| |exact H]. exact (proj1 (C101_back (vadd p d))).
Qed.
Print Assumptions C102_height.

(** No plane of the iteration gives a point below the requested height, so the comparison with the
    threshold, which disregards the sign, stops the iteration only within the threshold. *)
Lemma plane_hit_height r rdot arp v g p : -6335439 < elevation g -> plane_hit r rdot arp v (wgs84_geocentric g) (local_up g) = Some p ->
  on_plane (wgs84_geocentric g) (local_up g) p /\ elevation g <= elevation (wgs84_geodetic p).
Proof.
  intros H E. unfold plane_hit in E. destruct (ground_intersection _ _ _ _ _) as [[q|]|] eqn:G; try discriminate. injection E as ->.
  apply ground_on_plane in G; [|apply up_nonzero]. cbn [ref_ecf u_gpn] in G. split; [exact G|]. now apply C101_horizon.
Qed.
Lemma tangent_touch r rdot arp v target : -6335439 < target -> forall k p0 p,
  tangent_point (plane_hit r rdot arp v) wgs84_geodetic target k (foot wgs84_geodetic target p0) (local_up (wgs84_geodetic p0)) = Some p ->
  exists g, canonical g /\ elevation g = target /\ plane_hit r rdot arp v (wgs84_geocentric g) (local_up g) = Some p.
Proof.
  intros H k. induction k as [|k IH]; intros p0 p E; cbn [tangent_point] in E; set (g0 := wgs84_geodetic p0) in *;
    destruct (plane_hit r rdot arp v _ _) as [q|] eqn:P; try discriminate.
  - injection E as ->. exists (mkGeo (longitude g0) (latitude g0) target). split; [exact (proj1 (C101_back p0))|]. split; [reflexivity|].
    destruct (foot_place p0 target H) as (F & _). fold g0 in F. rewrite F in P. exact P.
  - eapply IH. exact E.
Qed.
Theorem C102_never_below :
  forall (s : Hae) (r rdot : R) (arp v : Vec) (k : nat) (p : Vec), -6335439 < hae s ->
  tangent_point (plane_hit r rdot arp v) wgs84_geodetic (hae s) k (foot wgs84_geodetic (hae s) (h_scp s)) (local_up (wgs84_geodetic (h_scp s))) = Some p ->
  hae s <= elevation (wgs84_geodetic p).
Proof.
  intros s r rdot arp v k p H E. destruct (tangent_touch r rdot arp v (hae s) H k (h_scp s) p E) as (g & _ & G & P).
  rewrite <- G. apply (plane_hit_height r rdot arp v); [lra|exact P].
Qed.
Print Assumptions C102_never_below.

Lemma abs_cauchy a b : Rabs (vdot a b) <= vnorm a * vnorm b.
Proof.
  pose proof (cauchy_schwarz a b) as A. pose proof (cauchy_schwarz a (vscale (-1) b)) as B.
  replace (vnorm (vscale (-1) b)) with (vnorm b) in B by (unfold vnorm; f_equal; unfold vdot; cbn; ring).
  replace (vdot a (vscale (-1) b)) with (- vdot a b) in B by (unfold vdot; cbn; ring). apply Rabs_le. lra.
Qed.
(** How far the result is from the contour: the point [p] of the last plane is on the contour, within the
    threshold above the surface unless the limit of iterations is reached; the step [d] from there is as
    long as that height over the cosine between the vertical and the slant plane's normal, and the result
    misses the range by at most the square of the step over twice the range and over twice the radius
    of the Earth; range times range rate are missed by at most the speed times the latter. *)
Theorem C102_accuracy :
  forall (s : Hae) (r rdot : R) (arp v q : Vec), -6335439 < hae s -> 0 < r ->
  hae_intersection wgs84_geodetic wgs84_geocentric s r rdot arp v = Ok (Some q) ->
  exists (k : nat) (g : Geodetic) (p d : Vec),
    let high := elevation (wgs84_geodetic p) - hae s in
    (k < Nat.max 1 (nlim s))%nat /\
    elevation g = hae s /\ on_plane (wgs84_geocentric g) (local_up g) p /\
    0 <= high /\ (high <= delta_hae_max s \/ S k = Nat.max 1 (nlim s)) /\
    perpendicular d v /\ perpendicular d (vsub p arp) /\ vdot (local_up (wgs84_geodetic p)) d = - high /\
    let bend := vdot d d / (2 * (6335439 + hae s)) in
    distance (vadd p d) q <= bend /\
    (side_of (local_up g) arp v (wgs84_geocentric g) <> 0 ->
     distance arp p = r /\ range_rate arp v p = rdot /\
     Rabs (distance arp q - r) <= vdot d d / (2 * r) + bend /\
     Rabs (range_rate arp v q * distance arp q - rdot * r) <= vnorm v * bend).
Proof.
  intros s r rdot arp v q H Hr E. apply C35_iteration in E. destruct E as (k & p & d & K & T & Th & _ & P1 & P2 & P3 & Q).
  destruct (tangent_touch r rdot arp v (hae s) H k (h_scp s) p T) as (g & Cg & G & P).
  destruct (plane_hit_height r rdot arp v g p) as (O & L); [lra|exact P|].
  exists k, g, p, d. cbv zeta. split; [lia|]. split; [exact G|]. split; [exact O|]. split; [lra|]. split; [exact Th|]. split; [exact P1|]. split; [exact P2|]. split; [exact P3|].
  set (e := vadd p d) in *. set (x := excess wgs84_geodetic (hae s) p) in *.
  (* the end of the step is in the plane that touches below p *)
  set (t := mkGeo (longitude (wgs84_geodetic p)) (latitude (wgs84_geodetic p)) (hae s)).
  assert (Tf : wgs84_geocentric t = foot wgs84_geodetic (hae s) p) by (symmetry; apply (foot_place p (hae s) H)).
  pose proof (up_is_unit (wgs84_geodetic p)) as U. set (u := local_up (wgs84_geodetic p)) in *. change (local_up t) with u in *.
  assert (Oe : on_plane (wgs84_geocentric t) (local_up t) e).
  { rewrite Tf. unfold on_plane, foot. fold x. cbn [vx vy vz]. change (local_up t) with u. fold u. unfold vdot in P3. unfold e, vadd. cbn [vx vy vz].
    transitivity ((vx u * vx d + vy u * vy d + vz u * vz d) + x * (vx u ^ 2 + vy u ^ 2 + vz u ^ 2)); [ring|]. rewrite U, P3. ring. }
  assert (De : distance e (wgs84_geocentric t) ^ 2 <= vdot d d).
  { rewrite distance_sq, Tf. unfold foot. fold x. fold u. cbn [vx vy vz]. unfold e, vadd. cbn [vx vy vz]. unfold vdot in P3 |- *.
    replace ((vx p + vx d - (vx p - x * vx u)) ^ 2 + (vy p + vy d - (vy p - x * vy u)) ^ 2 + (vz p + vz d - (vz p - x * vz u)) ^ 2)
      with (vx d * vx d + vy d * vy d + vz d * vz d + 2 * x * (vx u * vx d + vy u * vy d + vz u * vz d) + x ^ 2 * (vx u ^ 2 + vy u ^ 2 + vz u ^ 2)) by ring.
    rewrite U, P3. pose proof (pow2_ge_0 x). lra. }
  destruct (C101_horizon t e) as (Lo & Hi); [exact H|exact Oe|]. cbn [elevation t] in Lo, Hi.
  assert (Bn : distance e (wgs84_geocentric t) ^ 2 / (2 * (6335439 + hae s)) <= vdot d d / (2 * (6335439 + hae s))).
  { apply Rmult_le_compat_r; [apply Rlt_le, Rinv_0_lt_compat; lra|exact De]. }
  set (bend := vdot d d / (2 * (6335439 + hae s))) in *.
  (* the result is below the end of the step *)
  assert (Dq : distance e q <= bend).
  { destruct (foot_place e (hae s) H) as (Fe & _). rewrite Q, <- Fe. set (y := elevation (wgs84_geodetic e) - hae s).
    assert (Y : distance e (foot wgs84_geodetic (hae s) e) = y).
    { rewrite <- (sqrt_pow2 y) by (unfold y; lra). unfold distance, foot, excess. cbn [vx vy vz]. f_equal. fold y.
      transitivity (y ^ 2 * (vx (local_up (wgs84_geodetic e)) ^ 2 + vy (local_up (wgs84_geodetic e)) ^ 2 + vz (local_up (wgs84_geodetic e)) ^ 2)); [ring|]. rewrite up_is_unit. ring. }
    rewrite Y. unfold y. lra. }
  split; [exact Dq|]. intros Sd.
  destruct (C35_on_contour r rdot arp v (wgs84_geocentric g) (local_up g) p (up_nonzero g) Sd P) as (Rg & Rr). split; [exact Rg|]. split; [exact Rr|].
  (* range of the end of the step *)
  assert (Re : distance arp e ^ 2 = r ^ 2 + vdot d d).
  { rewrite <- Rg, !distance_sq. unfold e, vadd, vdot. cbn [vx vy vz]. unfold perpendicular, vsub in P2. cbn [vx vy vz] in P2. lra. }
  assert (D0 : 0 <= vdot d d) by (unfold vdot; pose proof (Rle_0_sqr (vx d)); pose proof (Rle_0_sqr (vy d)); pose proof (Rle_0_sqr (vz d)); unfold Rsqr in *; lra).
  assert (E0 : 0 <= distance arp e) by apply sqrt_pos.
  assert (E1 : r <= distance arp e <= r + vdot d d / (2 * r)).
  { assert (K0 : 0 <= vdot d d / (2 * r)) by (apply Rmult_le_pos; [exact D0|apply Rlt_le, Rinv_0_lt_compat; lra]). split; [nra|].
    destruct (Rle_lt_dec (distance arp e) (r + vdot d d / (2 * r))) as [|W]; [assumption|]. exfalso.
    assert (W2 : (r + vdot d d / (2 * r)) ^ 2 < distance arp e ^ 2) by (cbn [pow]; rewrite !Rmult_1_r; apply Rmult_le_0_lt_compat; lra).
    rewrite Re in W2. replace ((r + vdot d d / (2 * r)) ^ 2) with (r ^ 2 + vdot d d + (vdot d d / (2 * r)) ^ 2) in W2 by (field; lra). pose proof (pow2_ge_0 (vdot d d / (2 * r))). lra. }
  split.
  - pose proof (distance_triangle arp e q) as T1. pose proof (distance_triangle arp q e) as T2. replace (distance q e) with (distance e q) in T2 by (unfold distance; f_equal; ring). apply Rabs_le. lra.
  - assert (Rq : range_rate arp v q * distance arp q - rdot * r = vdot v (vsub e q) \/ distance arp q = 0).
    { destruct (Req_dec (distance arp q) 0) as [Z|Z]; [now right|]. left. rewrite <- Rr, <- Rg. unfold range_rate.
      assert (distance arp p <> 0) by lra. assert (X1 : forall n, n / distance arp q * distance arp q = n) by (intros; field; exact Z).
      assert (X2 : forall n, n / distance arp p * distance arp p = n) by (intros; field; assumption). rewrite X1, X2.
      unfold perpendicular in P1. unfold vdot, vsub, e, vadd. cbn [vx vy vz]. lra. }
    assert (CS : Rabs (vdot v (vsub e q)) <= vnorm v * bend).
    { eapply Rle_trans; [apply abs_cauchy|]. apply Rmult_le_compat_l; [apply sqrt_pos|]. rewrite <- distance_eq. exact Dq. }
    destruct Rq as [->|Z]; [exact CS|]. 
    assert (X : vdot v (vsub e q) = - (rdot * r)).
    { assert (arp = q) as <-.
      { pose proof (distance_sq arp q) as S. rewrite Z in S. pose proof (pow2_ge_0 (vx arp - vx q)). pose proof (pow2_ge_0 (vy arp - vy q)). pose proof (pow2_ge_0 (vz arp - vz q)). apply vec_ext; nra. }
      rewrite <- Rr, <- Rg. unfold range_rate. assert (distance arp p <> 0) by lra. assert (X2 : forall n, n / distance arp p * distance arp p = n) by (intros; field; assumption). rewrite X2.
      unfold perpendicular in P1. unfold vdot, vsub, e, vadd. cbn [vx vy vz]. lra. }
    rewrite Z, Rmult_0_r. replace (0 - rdot * r) with (vdot v (vsub e q)) by lra. exact CS.
Qed.
Print Assumptions C102_accuracy.

(** A scene at the north pole, seen from a kilometre down the Greenwich meridian's far side: the first
    plane gives a point four metres from the antenna's foot, eight centimetres above the ellipsoid. *)
Definition polar_radius : R := 6378137 * (1 - 1000000000 / 298257223563).
Lemma north_pole : wgs84_geodetic (mkVec 0 0 polar_radius) = mkGeo 0 (PI / 2) 0 /\ wgs84_geocentric (mkGeo 0 (PI / 2) 0) = mkVec 0 0 polar_radius /\
  local_up (mkGeo 0 (PI / 2) 0) = mkVec 0 0 1.
Proof.
  assert (E : wgs84_geocentric (mkGeo 0 (PI / 2) 0) = mkVec 0 0 polar_radius).
  { unfold wgs84_geocentric. cbn [longitude latitude elevation]. rewrite cos_PI2, sin_PI2. unfold prime_vertical. rewrite sin_PI2.
    replace (1 - eccentricity2 * 1 ^ 2) with ((1 - flattening) * (1 - flattening)) by (unfold eccentricity2; ring). rewrite sqrt_square by (unfold flattening; lra).
    apply vec_ext; cbn [vx vy vz]; [ring|ring|]. unfold semi_major, eccentricity2, flattening, polar_radius. field. }
  split; [|split; [exact E|]].
  - rewrite <- E. pose proof PI_RGT_0. apply C101_forth; [|cbn; lra]. unfold canonical. cbn [longitude latitude]. split; [lra|]. right. split; [now left|reflexivity].
  - unfold local_up. cbn [longitude latitude]. rewrite cos_PI2, sin_PI2. apply vec_ext; cbn [vx vy vz]; ring.
Qed.
Example C102_non_vacuous :
  let s := default_hae (mkVec 0 0 polar_radius) "L" 0 in
  let arp := mkVec (-1000) 0 (polar_radius + 3) in
  exists q, hae_intersection wgs84_geodetic wgs84_geocentric s 5 0 arp (mkVec 0 (-1) 0) = Ok (Some q) /\
  elevation (wgs84_geodetic q) = 0 /\ 0 <= elevation (wgs84_geodetic (mkVec (-996) 0 polar_radius)) <= 0.1 /\
  side_of (mkVec 0 0 1) arp (mkVec 0 (-1) 0) (mkVec 0 0 polar_radius) <> 0.
Proof.
  cbv zeta. destruct north_pole as (Ng & Nc & Nu). set (arp := mkVec (-1000) 0 (polar_radius + 3)). set (v := mkVec 0 (-1) 0).
  set (s := default_hae (mkVec 0 0 polar_radius) "L" 0). set (p := mkVec (-996) 0 polar_radius).
  assert (Pv : 6000000 < polar_radius) by (unfold polar_radius; lra).
  assert (Sd : side_of (mkVec 0 0 1) arp v (mkVec 0 0 polar_radius) <> 0) by (unfold side_of, arp, v; cbn [vx vy vz]; lra).
  assert (O : on_plane (wgs84_geocentric (mkGeo 0 (PI / 2) 0)) (local_up (mkGeo 0 (PI / 2) 0)) p) by (rewrite Nc, Nu; unfold on_plane, p; cbn [vx vy vz]; ring).
  destruct (C101_horizon (mkGeo 0 (PI / 2) 0) p) as (L & Hi); [cbn; lra|exact O|]. cbn [elevation] in L, Hi. rewrite distance_sq, Nc in Hi. unfold p at 2 3 4 in Hi. cbn [vx vy vz] in Hi.
  assert (H1 : elevation (wgs84_geodetic p) <= 0.1) by lra.
  assert (Dp : distance arp p = 5).
  { unfold distance, arp, p. cbn [vx vy vz]. replace ((-1000 - -996) ^ 2 + (0 - 0) ^ 2 + (polar_radius + 3 - polar_radius) ^ 2) with (5 * 5) by ring. apply sqrt_square. lra. }
  assert (G : ground_intersection (mkPlane (mkVec 0 0 polar_radius) (mkVec 0 0 1)) 5 0 arp v = Ok (Some p)).
  { apply C33_finds_every_solution; cbn [ref_ecf u_gpn].
    - intros E. apply (f_equal vz) in E. cbn in E. lra.
    - intros k E. apply (f_equal vy) in E. unfold v in E. cbn in E. lra.
    - exact Sd.
    - unfold height_over, arp. cbn [vx vy vz]. replace (0 ^ 2 + 0 ^ 2 + 1 ^ 2) with 1 by ring. rewrite sqrt_1. lra.
    - unfold on_plane, p. cbn [vx vy vz]. ring.
    - exact Dp.
    - unfold range_rate. rewrite Dp. unfold v, arp, p. cbn [vx vy vz]. field.
    - unfold side_of, arp, v, p. cbn [vx vy vz]. lra. }
  set (gp := wgs84_geodetic p) in *.
  assert (E : exists q, hae_intersection wgs84_geodetic wgs84_geocentric s 5 0 arp v = Ok (Some q)).
  { unfold hae_intersection, hae_first_plane. cbn [h_scp s default_hae hae nlim]. rewrite Ng. cbn [elevation].
    change (up_vector (mkGeo 0 (PI / 2) 0)) with (local_up (mkGeo 0 (PI / 2) 0)). rewrite Nu.
    replace (vadd (mkVec 0 0 polar_radius) (vscale (0 - 0) (mkVec 0 0 1))) with (mkVec 0 0 polar_radius) by (apply vec_ext; cbn; ring).
    cbn [hae_loop Nat.sub]. unfold make_plane. rewrite (normalised_of_unit (mkVec 0 0 1)) by (unfold vdot; cbn; ring). rewrite G. fold gp.
    destruct (Rle_dec _ _) as [_|F]; [|unfold s in F; cbn [hae delta_hae_max default_hae] in F; lra]. cbn [bind].
    unfold hae_finish. cbn [gpp u_up delta_hae h_side look_of String.eqb].
    set (spn := vcross _ _). assert (Sp : spn = mkVec 3 0 4).
    { unfold spn, v, p, arp, look_of. cbn [String.eqb Ascii.eqb Bool.eqb]. apply vec_ext; cbn; ring. }
    assert (Sn : vnorm spn = 5) by (rewrite Sp; unfold vnorm, vdot; cbn [vx vy vz]; replace (3 * 3 + 0 * 0 + 4 * 4) with (5 * 5) by ring; apply sqrt_square; lra).
    destruct (Req_EM_T (vnorm spn) 0) as [F|_]; [lra|].
    assert (Sf : vdot (up_vector gp) (normalised spn) <> 0).
    { unfold normalised. rewrite Sn, Sp. change (up_vector gp) with (local_up gp). pose proof (geocentric_geodetic p) as P. fold gp in P. rewrite at_height, on_ellipsoid_up in P.
      set (u := local_up gp) in *. set (n := prime_vertical (latitude gp)) in *. pose proof (prime_vertical_bounds (latitude gp)) as B. fold n in B. unfold semi_major in B. pose proof eccentricity2_bounds as Ee.
      pose proof (f_equal vx P) as Px. pose proof (f_equal vz P) as Pz. unfold p in Px, Pz. unfold vadd, vscale in Px, Pz. cbn [vx vy vz] in Px, Pz.
      assert (X : vx u * (n + elevation gp) = -996) by lra. assert (Z : vz u * (n * (1 - eccentricity2) + elevation gp) = polar_radius) by lra.
      assert (Z0 : 0.1 < vz u).
      { destruct (Rlt_le_dec 0.1 (vz u)) as [|F]; [assumption|]. exfalso. assert (0 < n * (1 - eccentricity2) + elevation gp) by (assert (0 < n * (1 - eccentricity2)) by (apply Rmult_lt_0_compat; lra); lra).
        assert (n * (1 - eccentricity2) <= n * 1) by (apply Rmult_le_compat_l; lra).
        assert (vz u * (n * (1 - eccentricity2) + elevation gp) <= 0.1 * (n * (1 - eccentricity2) + elevation gp)) by (apply Rmult_le_compat_r; lra). lra. }
      assert (X0 : -0.01 < vx u).
      { destruct (Rlt_le_dec (-0.01) (vx u)) as [|F]; [assumption|]. exfalso. assert (vx u * (n + elevation gp) <= -0.01 * (n + elevation gp)) by (apply Rmult_le_compat_r; lra). lra. }
      unfold vdot, vscale. cbn [vx vy vz]. lra. }
    destruct (Req_EM_T (vdot (up_vector gp) (normalised spn)) 0) as [F|_]; [contradiction|]. eexists. reflexivity. }
  destruct E as (q & E). exists q. split; [exact E|]. split; [exact (C102_height s 5 0 arp v q ltac:(cbn; lra) E)|]. split; [split; [exact L|exact H1]|exact Sd].
Qed.

(** A pixel of a SICD image that is located on the plane tangent at the scene centre is never lower than
    the scene centre. *)
Theorem C102_default_plane :
  forall to_geocentric (m : Sicd) (i : Image) (g : Geodetic), uvect_gpn m = None -> -6335439 < elevation (wgs84_geodetic (scp_ecf (converter m))) ->
  sicd_image_to_world wgs84_geodetic to_geocentric m i None = Ok (Some g) ->
  elevation (wgs84_geodetic (scp_ecf (converter m))) <= elevation g.
Proof.
  intros tc m i g U H E. unfold sicd_image_to_world in E. destruct (ground_intersection _ _ _ _ _) as [[q|]|] eqn:G; try discriminate. injection E as <-.
  unfold default_surface, make_plane in G. rewrite U in G. apply ground_on_plane in G; [|apply up_nonzero]. cbn [ref_ecf u_gpn] in G.
  destruct (C101_horizon (wgs84_geodetic (scp_ecf (converter m))) q H) as (L & _); [|exact L]. rewrite geocentric_geodetic. exact G.
Qed.
Print Assumptions C102_default_plane.
