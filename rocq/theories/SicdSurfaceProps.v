(** Property theorems for SICD surface intersections and the sensor model: C35 - C38 and C68. *)
Require Import ZArith Reals String List Lra Lia Bool Sorting.Sorted.
Require Import Verif.Base Verif.BaseFacts Verif.Vec Verif.VecFacts Verif.SicdModel Verif.PolySpec Verif.SicdSpec Verif.SicdProofs Verif.SicdGroundProofs Verif.SicdProps.
Import ListNotations.
Local Open Scope R_scope.

(** ** C35: projection to a constant height *)

(** A result comes from the first tangent plane whose intersection is at most the threshold above
    the surface, or from the last plane allowed.  At least one and at most max(1, nlim) planes are
    used.  The final step is perpendicular to the velocity and to the line of sight, and undoes
    the height error to first order. *)
Theorem C35_iteration :
  forall (to_geodetic : Vec -> Geodetic) (to_geocentric : Geodetic -> Vec) (s : Hae) (r rdot : R) (arp v q : Vec),
  hae_intersection to_geodetic to_geocentric s r rdot arp v = Ok (Some q) ->
  let point := fun k => tangent_point (plane_hit r rdot arp v) to_geodetic (hae s) k
                          (foot to_geodetic (hae s) (h_scp s)) (local_up (to_geodetic (h_scp s))) in
  exists (k : nat) (p d : Vec),
    (S k <= Nat.max 1 (nlim s))%nat /\ point k = Some p /\
    (excess to_geodetic (hae s) p <= delta_hae_max s \/ S k = Nat.max 1 (nlim s)) /\
    (forall j p', (j < k)%nat -> point j = Some p' -> delta_hae_max s < excess to_geodetic (hae s) p') /\
    perpendicular d v /\ perpendicular d (vsub p arp) /\
    vdot (local_up (to_geodetic p)) d = - excess to_geodetic (hae s) p /\
    q = to_geocentric (mkGeo (longitude (to_geodetic (vadd p d))) (latitude (to_geodetic (vadd p d))) (hae s)).
Proof.
  intros tg tc s r rdot arp v q H point. unfold hae_intersection, hae_first_plane in H.
  destruct (hae_loop _ _ _ _ _ _ _ _ _ _) as [[st|]|e] eqn:E; try discriminate. cbn [bind] in H. injection H as H.
  apply hae_loop_spec in E; [|apply up_unit]. destruct E as (k & C & K & T & Up & De & St & Be).
  apply hae_finish_inv in H. destruct H as (Q & P1 & P2 & P3).
  replace (vadd (h_scp s) (vscale (hae s - elevation (tg (h_scp s))) (up_vector (tg (h_scp s))))) with (foot tg (hae s) (h_scp s)) in *
    by (unfold foot, excess; apply vec_eq; cbn; ring).
  exists k, (gpp st), (slant_step s arp v st). rewrite Up, De in *.
  split; [lia|]. split; [exact T|]. split; [destruct St; [now left|right; lia]|]. split; [exact Be|].
  split; [exact P1|]. split; [exact P2|]. split; [exact P3|exact Q].
Qed.
Print Assumptions C35_iteration.

(** The result has the requested height, for every conversion to geodetic coordinates that undoes
    the conversion from them. *)
Theorem C35_height :
  forall (to_geodetic : Vec -> Geodetic) (to_geocentric : Geodetic -> Vec) (s : Hae) (r rdot : R) (arp v q : Vec),
  (forall g, elevation (to_geodetic (to_geocentric g)) = elevation g) ->
  hae_intersection to_geodetic to_geocentric s r rdot arp v = Ok (Some q) -> elevation (to_geodetic q) = hae s.
Proof.
  intros tg tc s r rdot arp v q L H. apply C35_iteration in H. destruct H as (k & p & d & _ & _ & _ & _ & _ & _ & _ & ->). now rewrite L.
Qed.
Print Assumptions C35_height.

(** Every tangent plane intersection has the requested range and range rate, as long as the point
    where the plane touches is not below the track. *)
Theorem C35_on_contour :
  forall (r rdot : R) (arp v g n p : Vec), n <> vzero -> side_of n arp v g <> 0 ->
  plane_hit r rdot arp v g n = Some p -> distance arp p = r /\ range_rate arp v p = rdot.
Proof.
  intros r rdot arp v g n p N S H. unfold plane_hit in H.
  destruct (ground_intersection (mkPlane g n) r rdot arp v) as [[q|]|e] eqn:E; try discriminate. injection H as <-.
  apply C33_exact in E; [|exact N|exact S]. tauto.
Qed.
Print Assumptions C35_on_contour.

Theorem C35_error :
  forall to_geodetic to_geocentric (s : Hae) (r rdot : R) (arp v : Vec) (e : exn),
  hae_intersection to_geodetic to_geocentric s r rdot arp v = Err e -> e = ValueError.
Proof.
  intros tg tc s r rdot arp v e H. unfold hae_intersection, hae_first_plane in H.
  destruct (hae_loop _ _ _ _ _ _ _ _ _ _) as [[st|]|e'] eqn:E; try discriminate. injection H as <-. eapply hae_loop_error; eauto.
Qed.
Print Assumptions C35_error.

(** A flat earth: height is z and up is the z axis. *)
Definition flat_geodetic (p : Vec) : Geodetic := mkGeo (vy p) (PI / 2) (vz p).
Definition flat_geocentric (g : Geodetic) : Vec := mkVec 0 (longitude g) (elevation g).
Lemma flat_up p : up_vector (flat_geodetic p) = mkVec 0 0 1.
Proof. unfold up_vector, flat_geodetic. cbn. rewrite cos_PI2, sin_PI2. f_equal; ring. Qed.

(** An antenna at height [a], moving along x at speed [s]. *)
Lemma flat_hit a s scp h y : 0 < s -> 0 < a - h < 5 -> 0 < y -> y * y + (a - h) * (a - h) = 25 -> vy scp > 0 -> vz scp = h ->
  ground_intersection (mkPlane scp (mkVec 0 0 1)) 5 0 (mkVec 0 0 a) (mkVec s 0 0) = Ok (Some (mkVec 0 y h)).
Proof.
  intros S0 H Y E Sy Sz.
  assert (Z : normalised (mkVec 0 0 1) = mkVec 0 0 1) by (apply normalised_of_unit; unfold vdot; cbn; ring).
  assert (D : distance (mkVec 0 0 a) (mkVec 0 y h) = 5).
  { unfold distance. cbn [vx vy vz]. replace ((0 - 0) ^ 2 + (0 - y) ^ 2 + (a - h) ^ 2) with (5 * 5) by lra. apply sqrt_square. lra. }
  apply C33_finds_every_solution; cbn [u_gpn ref_ecf].
  - intros F. injection F. lra.
  - intros k F. cbn in F. injection F. lra.
  - unfold side_of. cbn. nra.
  - rewrite height_over_eq, Z. unfold vdot. cbn. lra.
  - unfold on_plane. cbn. lra.
  - exact D.
  - unfold range_rate. rewrite D. cbn. field.
  - unfold side_of. cbn. assert (0 <= s * y * (s * vy scp)) by (repeat apply Rmult_le_pos; lra). lra.
Qed.

(** A conversion that is flat above the line x = 0 will do. *)
Definition flat_on_line (tg : Vec -> Geodetic) : Prop := forall p, vx p = 0 -> tg p = flat_geodetic p.
Lemma flat_hae_any tg tc a s scp h y : flat_on_line tg -> 0 < s -> 0 < a - h < 5 -> 0 < y -> y * y + (a - h) * (a - h) = 25 -> vx scp = 0 -> vy scp > 0 ->
  hae_intersection tg tc (default_hae scp "L" h) 5 0 (mkVec 0 0 a) (mkVec s 0 0) = Ok (Some (tc (mkGeo y (PI / 2) h))).
Proof.
  intros T S0 H Y E Sx S. unfold hae_intersection, hae_first_plane, default_hae. cbn [h_scp nlim hae Nat.sub]. rewrite (T scp Sx).
  set (gref := vadd scp _).
  assert (G : vy gref > 0 /\ vz gref = h) by (unfold gref; rewrite flat_up; cbn [vadd vscale vx vy vz flat_geodetic elevation]; lra). destruct G as [G1 G2].
  assert (Z : normalised (mkVec 0 0 1) = mkVec 0 0 1) by (apply normalised_of_unit; unfold vdot; cbn; ring).
  assert (L : hae_loop tg (mkHae scp "L" h 1 3) 5 0 (mkVec 0 0 a) (mkVec s 0 0) 2 1 gref (mkVec 0 0 1)
              = Ok (Some (mkHaeStop (mkVec 0 y h) (mkVec 0 0 1) (h - h) 1))).
  { cbn [hae_loop]. unfold make_plane. rewrite Z, (flat_hit a s gref h y S0 H Y E G1 G2), (T (mkVec 0 y h) eq_refl), flat_up.
    change (elevation (flat_geodetic (mkVec 0 y h))) with h. cbn [hae delta_hae_max]. destruct (Rle_dec (h - h) 1) as [_|F]; [reflexivity|lra]. }
  rewrite flat_up, L. cbn [bind]. f_equal.
  unfold hae_finish. cbn [gpp u_up delta_hae h_side hae].
  set (spn := vcross _ _). assert (Sp : spn = mkVec 0 (s * (a - h)) (s * y)) by (unfold spn, look_of; cbn; apply vec_eq; cbn; ring).
  assert (N5 : vnorm spn = 5 * s).
  { rewrite Sp. apply vnorm_of_sqr; [lra|]. unfold vdot. cbn.
    replace (0 * 0 + s * (a - h) * (s * (a - h)) + s * y * (s * y)) with (s * s * (y * y + (a - h) * (a - h))) by ring. rewrite E. ring. }
  rewrite N5. destruct (Req_EM_T (5 * s) 0) as [F|_]; [lra|].
  destruct (Req_EM_T _ 0) as [F|Nf].
  - exfalso. rewrite normalised_dot, N5, Sp in F. unfold vdot in F. cbn in F.
    assert (F' : (0 * 0 + s * (a - h) * 0 + s * y * 1) = 0).
    { apply (f_equal (fun x => x * (5 * s))) in F. field_simplify in F; [lra | lra]. }
    assert (0 < s * y) by (apply Rmult_lt_0_compat; lra). lra.
  - rewrite T by (unfold normalised; rewrite Sp; cbn; unfold Rdiv; ring).
    do 2 f_equal. unfold flat_geodetic. cbn [longitude latitude]. f_equal. cbn [vsub vscale vy]. unfold Rdiv. ring.
Qed.
Lemma flat_is_flat : flat_on_line flat_geodetic.
Proof. intros p _. reflexivity. Qed.

Example C35_non_vacuous :
  hae_intersection flat_geodetic flat_geocentric (default_hae (mkVec 0 9 7) "L" 1) 5 0 (mkVec 0 0 5) (mkVec 1 0 0) = Ok (Some (mkVec 0 3 1)) /\
  forall g, elevation (flat_geodetic (flat_geocentric g)) = elevation g.
Proof. split; [apply (flat_hae_any _ flat_geocentric 5 1 _ 1 3 flat_is_flat); cbn; lra|]. intros []. reflexivity. Qed.
(** The plane at that height through a point beside the track. *)
Example C35_contour_non_vacuous :
  plane_hit 5 0 (mkVec 0 0 5) (mkVec 1 0 0) (mkVec 0 9 1) (mkVec 0 0 1) = Some (mkVec 0 3 1) /\
  distance (mkVec 0 0 5) (mkVec 0 3 1) = 5 /\ range_rate (mkVec 0 0 5) (mkVec 1 0 0) (mkVec 0 3 1) = 0.
Proof.
  assert (P : plane_hit 5 0 (mkVec 0 0 5) (mkVec 1 0 0) (mkVec 0 9 1) (mkVec 0 0 1) = Some (mkVec 0 3 1)).
  { unfold plane_hit. rewrite (flat_hit 5 1 (mkVec 0 9 1) 1 3) by (cbn; lra). reflexivity. }
  split; [exact P|]. apply (C35_on_contour 5 0 _ _ (mkVec 0 9 1) (mkVec 0 0 1)); [intros F; injection F; lra | unfold side_of; cbn; lra | exact P].
Qed.

(** ** C36: projection to a digital elevation model *)

(** Every point returned lies on the contour. *)
Theorem C36_on_contour :
  forall to_geodetic to_geocentric (d : Dem) (r rdot : R) (arp v : Vec) (ps : list (option Vec)) (p : Vec),
  0 < r -> dem_intersection to_geodetic to_geocentric d r rdot arp v = Ok ps -> In (Some p) ps ->
  distance arp p = r /\ range_rate arp v p = rdot.
Proof.
  intros tg tc d r rdot arp v ps p R0 H I. unfold dem_intersection in H.
  destruct (dem_sampling tg tc d r rdot arp v) as [s|e] eqn:E; [|discriminate]. cbn [bind] in H. injection H as <-.
  apply dem_sampling_inv in E. destruct E as (C & Lk & _).
  assert (K : exists k, sample_at s k = Some p).
  { unfold sample_heights in I. revert I. generalize (@None (Z * option R)). generalize 0%nat at 1. generalize (seq 0 (Z.to_nat (points s))).
    induction l as [|n l IH]; intros n0 prev I; [contradiction|]. cbn [List.map dem_scan] in I.
    apply in_app_or in I. destruct I as [I|I].
    - destruct (Z.eqb _ 0); [|contradiction]. destruct I as [I|[]]. eauto.
    - apply in_app_or in I. destruct I as [I|I]; [|eapply IH; exact I].
      destruct prev as [[i0 h0]|]; [|contradiction]. destruct (Z.eqb _ (-1)); [|contradiction].
      destruct h0; [|destruct I as [I|[]]; discriminate]. destruct (sample_at s (INR n)); [|destruct I as [I|[]]; discriminate].
      destruct I as [I|[]]. eauto. }
  destruct K as (k & K). unfold sample_at in K. eapply contour_point_on; eauto. rewrite Lk. apply look_of_sqr.
Qed.
Print Assumptions C36_on_contour.

(** The samples run from the point at the smallest height of the terrain to one beyond the point at
    its greatest height, by less than one step. *)
Theorem C36_samples_cover :
  forall to_geodetic to_geocentric (d : Dem) (r rdot : R) (arp v : Vec) (s : Sampling),
  dem_sampling to_geodetic to_geocentric d r rdot arp v = Ok s -> step s < 0 -> top s <= start s ->
  (2 <= points s)%Z /\ top s + step s <= start s + IZR (points s - 1) * step s < top s /\
  exists a b, hae_intersection to_geodetic to_geocentric (default_hae (d_scp d) (d_side d) (hae_max d)) r rdot arp v = Ok (Some a) /\
    hae_intersection to_geodetic to_geocentric (default_hae (d_scp d) (d_side d) (hae_min d)) r rdot arp v = Ok (Some b) /\
    rrrc (contour s) * top s = vdot (vsub a (ctr (contour s))) (u_rrx (contour s)) /\
    rrrc (contour s) * start s = vdot (vsub b (ctr (contour s))) (u_rrx (contour s)).
Proof.
  intros tg tc d r rdot arp v s H S0 T. apply dem_sampling_inv in H. destruct H as (_ & _ & _ & Rc & _ & P & _ & a & b & A & B & Ta & Sb).
  destruct (sampling_covers s S0 T P) as [P2 Q]. split; [exact P2|]. split; [exact Q|]. exists a, b. split; [exact A|]. split; [exact B|].
  rewrite Ta, Sb. split; field; exact Rc.
Qed.
Print Assumptions C36_samples_cover.

(** The step is at most ten metres along the contour and, for a contour point below the antenna,
    half the post spacing of the terrain horizontally; and it is as large as these two allow.  A
    contour point straight ahead ([start] zero) is bound by the first only. *)
Theorem C36_step :
  forall to_geodetic to_geocentric (d : Dem) (r rdot : R) (arp v : Vec) (s : Sampling),
  dem_sampling to_geodetic to_geocentric d r rdot arp v = Ok s -> 0 < rrrc (contour s) -> 0 <= start s -> 0 < delta_dist_dem d -> 0 < delta_dist_rrc d ->
  let along := - step s * rrrc (contour s) in
  let across := sqrt (1 - start s * start s) in
  step s < 0 /\ along <= delta_dist_rrc d * across /\ along * start s <= delta_dist_dem d * across /\
  (along = delta_dist_rrc d * across \/ along * start s = delta_dist_dem d * across).
Proof.
  intros tg tc d r rdot arp v s H Rc St Dd Dr along across. apply dem_sampling_inv in H. destruct H as (_ & _ & N & _ & S1 & _ & E & _).
  unfold cosine_step in E. fold across in E. set (sq := across) in *. assert (Q0 : 0 <= sq) by apply sqrt_pos.
  assert (A : Rabs (look_of (d_side d) * sq) = sq).
  { rewrite Rabs_mult, (Rabs_pos_eq sq Q0). replace (Rabs (look_of (d_side d))) with 1; [ring|].
    unfold look_of. destruct (String.eqb _ _); unfold Rabs; destruct (Rcase_abs _); lra. }
  rewrite A in E. destruct (Req_EM_T (start s) 0) as [F|F].
  { assert (X : along = delta_dist_rrc d * sq). { unfold along. rewrite E. field. lra. }
    assert (P : 0 <= delta_dist_rrc d * sq / rrrc (contour s)). { unfold Rdiv; repeat apply Rmult_le_pos; try lra; left; apply Rinv_0_lt_compat; lra. }
    split; [lra|]. rewrite F, Rmult_0_r. split; [lra|]. split; [apply Rmult_le_pos; lra|now left]. }
  set (m := Rmin _ _) in E. assert (M1 : m <= delta_dist_rrc d * sq / rrrc (contour s)) by apply Rmin_l.
  assert (M2 : m <= delta_dist_dem d * (sq / start s) / rrrc (contour s)) by apply Rmin_r.
  assert (M3 : m = delta_dist_rrc d * sq / rrrc (contour s) \/ m = delta_dist_dem d * (sq / start s) / rrrc (contour s)).
  { unfold m, Rmin. destruct (Rle_dec _ _); auto. }
  assert (M0 : 0 <= m).
  { apply Rmin_glb; unfold Rdiv; repeat apply Rmult_le_pos; try lra; left; apply Rinv_0_lt_compat; lra. }
  split; [lra|]. unfold along. replace (- step s) with m by lra. split; [|split].
  - apply (Rmult_le_compat_r (rrrc (contour s))) in M1; [|lra]. unfold Rdiv in M1. rewrite Rmult_assoc, Rinv_l in M1 by lra. lra.
  - apply (Rmult_le_compat_r (rrrc (contour s) * start s)) in M2; [|nra].
    replace (delta_dist_dem d * (sq / start s) / rrrc (contour s) * (rrrc (contour s) * start s)) with (delta_dist_dem d * sq) in M2 by (field; lra). lra.
  - destruct M3 as [-> | ->]; [left|right]; field; lra.
Qed.
Print Assumptions C36_step.

(** A lowest point straight below the contour's centre, or straight above it, leaves no step: an
    error, and a different one where the whole contour is a point. *)
Theorem C36_no_step :
  forall to_geodetic to_geocentric (d : Dem) (r rdot : R) (arp v : Vec) (c : Contour) (a b : Vec),
  make_contour r rdot arp v = Some c -> rrrc c <> 0 ->
  hae_intersection to_geodetic to_geocentric (default_hae (d_scp d) (d_side d) (hae_max d)) r rdot arp v = Ok (Some a) ->
  hae_intersection to_geodetic to_geocentric (default_hae (d_scp d) (d_side d) (hae_min d)) r rdot arp v = Ok (Some b) ->
  (vdot (vsub b (ctr c)) (u_rrx c) = rrrc c \/ vdot (vsub b (ctr c)) (u_rrx c) = - rrrc c) ->
  dem_sampling to_geodetic to_geocentric d r rdot arp v =
    Err (if Req_EM_T (vdot (vsub a (ctr c)) (u_rrx c)) (vdot (vsub b (ctr c)) (u_rrx c)) then ValueError else OtherError).
Proof.
  intros tg tc d r rdot arp v c a b C N A B X. unfold dem_sampling. rewrite A, B, C. cbn [bind].
  destruct (Req_EM_T (rrrc c) 0) as [|_]; [contradiction|]. cbv zeta.
  set (p := vdot (vsub a (ctr c)) (u_rrx c)) in *. set (q := vdot (vsub b (ctr c)) (u_rrx c)) in *.
  assert (Q : q / rrrc c * (q / rrrc c) = 1) by (destruct X as [-> | ->]; field; assumption).
  rewrite Q. destruct (Rlt_dec _ _) as [L|_]; [lra|]. replace (1 - 1) with 0 by ring. rewrite sqrt_0, Rmult_0_r.
  unfold cosine_step. rewrite Rabs_R0. destruct (Req_EM_T (q / rrrc c) 0) as [Z|_]; [rewrite Z in Q; lra|].
  replace (delta_dist_rrc d * 0 / rrrc c) with 0 by (field; assumption).
  assert (Nq : q / rrrc c <> 0) by (intros Z; rewrite Z in Q; lra).
  replace (0 / (q / rrrc c)) with 0 by (unfold Rdiv; ring). rewrite Rmult_0_r. replace (0 / rrrc c) with 0 by (field; assumption).
  replace (Rmin 0 0) with 0 by (unfold Rmin; now destruct (Rle_dec _ _)). rewrite Rmult_0_r.
  destruct (Req_EM_T 0 0) as [_|]; [|lra].
  destruct (Req_EM_T p q) as [->|Npq].
  - destruct (Req_EM_T _ _); [reflexivity|congruence].
  - destruct (Req_EM_T (p / rrrc c) (q / rrrc c)) as [E|]; [|reflexivity].
    exfalso. apply Npq. apply (f_equal (fun t => t * rrrc c)) in E. unfold Rdiv in E. rewrite !Rmult_assoc, Rinv_l, !Rmult_1_r in E; assumption.
Qed.
Print Assumptions C36_no_step.

(** A contour that goes from below the terrain to above it (or the other way round) is never left
    without an intersection. *)
Theorem C36_crossing_found :
  forall to_geodetic to_geocentric (d : Dem) (r rdot : R) (arp v : Vec) (s : Sampling) (i j : nat) (p q : Vec),
  dem_sampling to_geodetic to_geocentric d r rdot arp v = Ok s -> (Z.of_nat i < points s)%Z -> (Z.of_nat j < points s)%Z ->
  sample_at s (INR i) = Some p -> sample_at s (INR j) = Some q -> 0 < delta_hd_lim d ->
  height_above to_geodetic (d_terrain d) p < - delta_hd_lim d -> delta_hd_lim d < height_above to_geodetic (d_terrain d) q ->
  exists x xs, dem_intersection to_geodetic to_geocentric d r rdot arp v = Ok (x :: xs).
Proof.
  intros tg tc d r rdot arp v s i j p q H Hi Hj Pi Pj L0 Below Above. unfold dem_intersection. rewrite H. cbn [bind].
  set (pts := sample_heights tg (d_terrain d) s). set (lim := delta_hd_lim d) in *.
  assert (Nth : forall n w, (Z.of_nat n < points s)%Z -> sample_at s (INR n) = Some w -> nth_error pts n = Some (Some w, Some (height_above tg (d_terrain d) w))).
  { intros n w Hn Hw. unfold pts, sample_heights. rewrite nth_error_map.
    assert (E : nth_error (seq 0 (Z.to_nat (points s))) n = Some n).
    { rewrite nth_error_nth' with (d := 0%nat) by (rewrite seq_length; lia). rewrite seq_nth by lia. reflexivity. }
    rewrite E. cbn. now rewrite Hw. }
  pose proof (Nth i p Hi Pi) as Ni. pose proof (Nth j q Hj Pj) as Nj.
  set (a := height_above tg (d_terrain d) p) in *. set (b := height_above tg (d_terrain d) q) in *.
  assert (Ia : indicator lim (Some a) = (-1)%Z).
  { unfold indicator. destruct (Rlt_dec (Rabs a) lim) as [F|F]; [unfold Rabs in F; destruct (Rcase_abs a); lra|]. destruct (Rlt_dec lim a); [lra|reflexivity]. }
  assert (Ib : indicator lim (Some b) = 1%Z).
  { unfold indicator. destruct (Rlt_dec (Rabs b) lim) as [F|F]; [unfold Rabs in F; destruct (Rcase_abs b); lra|]. destruct (Rlt_dec lim b); [reflexivity|lra]. }
  assert (D : dem_scan lim (sample_at s) 0 None pts <> []).
  { apply scan_nonempty. destruct (Nat.lt_trichotomy i j) as [O|[O|O]].
    - exists (S i), (Some a), (S j), (Some b). split; [lia|]. rewrite Ni. split; [reflexivity|]. cbn [Nat.pred]. rewrite nth_error_map, Nj.
      split; [reflexivity|]. rewrite Ia, Ib. reflexivity.
    - exfalso. assert (Eq : p = q) by (subst j; congruence). unfold b in Above. rewrite <- Eq in Above. fold a in Above. lra.
    - exists (S j), (Some b), (S i), (Some a). split; [lia|]. rewrite Nj. split; [reflexivity|]. cbn [Nat.pred]. rewrite nth_error_map, Ni.
      split; [reflexivity|]. rewrite Ia, Ib. reflexivity. }
  destruct (dem_scan lim (sample_at s) 0 None pts) as [|x xs]; [contradiction|eauto].
Qed.
Print Assumptions C36_crossing_found.

(** What is returned, in which order: the contour points at strictly increasing indices, each a
    sample within the threshold of the terrain or a point between two consecutive samples on
    opposite sides of it. *)
Theorem C36_returned :
  forall to_geodetic to_geocentric (d : Dem) (r rdot : R) (arp v : Vec) (s : Sampling),
  dem_sampling to_geodetic to_geocentric d r rdot arp v = Ok s -> 0 < delta_hd_lim d ->
  (forall n, (n < Z.to_nat (points s))%nat -> exists p, sample_at s (INR n) = Some p /\ height_above to_geodetic (d_terrain d) p <> delta_hd_lim d) ->
  exists ks : list R,
    dem_intersection to_geodetic to_geocentric d r rdot arp v = Ok (List.map (sample_at s) ks) /\
    StronglySorted Rlt ks /\
    forall k, In k ks -> (exists p, sample_at s k = Some p) /\
      ((exists n p, (n < Z.to_nat (points s))%nat /\ k = INR n /\ sample_at s k = Some p /\ Rabs (height_above to_geodetic (d_terrain d) p) < delta_hd_lim d) \/
       (exists n p q, (S n < Z.to_nat (points s))%nat /\ INR n < k < INR (S n) /\ sample_at s (INR n) = Some p /\ sample_at s (INR (S n)) = Some q /\
          let a := height_above to_geodetic (d_terrain d) p in let b := height_above to_geodetic (d_terrain d) q in
          a * b < 0 /\ a + (k - INR n) * (b - a) = 0)).
Proof.
  intros tg tc d r rdot arp v s H L0 Num. set (lim := delta_hd_lim d) in *. set (hs := List.map (sample_height tg (d_terrain d) s) (seq 0 (Z.to_nat (points s)))).
  exists (scan_indices lim 0 None hs). unfold dem_intersection. rewrite H. cbn [bind].
  assert (Num' : forall n, (n < Z.to_nat (points s))%nat -> exists p, sample_at s (INR n) = Some p) by (intros n Hn; destruct (Num n Hn) as (p & A & _); eauto).
  split; [f_equal; exact (scan_samples tg (d_terrain d) s lim Num')|].
  assert (Nl : forall h, In h hs -> h <> lim).
  { intros h Hh. apply in_map_iff in Hh. destruct Hh as (n & <- & Hn). apply in_seq in Hn. destruct (Num n) as (p & A & B); [lia|].
    unfold sample_height. rewrite A. exact B. }
  assert (Nh : forall n h, nth_error hs n = Some h -> exists p, (n < Z.to_nat (points s))%nat /\ sample_at s (INR n) = Some p /\ h = height_above tg (d_terrain d) p).
  { intros n h Hn. assert (Ln : (n < List.length hs)%nat) by (apply nth_error_Some; congruence).
    unfold hs in Ln. rewrite map_length, seq_length in Ln. destruct (Num n Ln) as (p & A & _). exists p. split; [exact Ln|]. split; [exact A|].
    unfold hs in Hn. rewrite nth_error_map in Hn.
    assert (E : nth_error (seq 0 (Z.to_nat (points s))) n = Some n).
    { rewrite nth_error_nth' with (d := 0%nat) by (rewrite seq_length; lia). rewrite seq_nth by lia. reflexivity. }
    rewrite E in Hn. cbn in Hn. injection Hn as <-. unfold sample_height. now rewrite A. }
  split; [apply (scan_sorted lim L0 hs 0 None Nl); discriminate|].
  intros k Hk. apply scan_members in Hk. destruct Hk as [(i & h & A & B & C)|(i & a & h & A & B & C & D)].
  - rewrite Nat.add_0_l in C. destruct (Nh i h A) as (p & Li & P & E). subst k. split; [eauto|]. left. exists i, p. rewrite E in B. auto.
  - rewrite Nat.add_0_l in D. destruct i as [|i]; [discriminate|].
    destruct (Nh _ _ A) as (q & Li & Q & E). destruct (Nh _ _ B) as (p & Lp & P & F).
    assert (Ia : In a hs) by (eapply nth_error_In; exact B). assert (Ih : In h hs) by (eapply nth_error_In; exact A).
    destruct (opposite_fraction lim a h L0 (Nl a Ia) (Nl h Ih) C) as [Op Fr].
    assert (Dk : k = INR i + a / (a - h)) by (rewrite D, S_INR; ring).
    split; [rewrite Dk; apply sample_between; [lra|eauto|eauto]|].
    right. exists i, p, q. rewrite <- E, <- F. split; [exact Li|]. split; [rewrite S_INR; lra|]. split; [exact P|]. split; [exact Q|].
    split; [exact Op|]. rewrite Dk. field. nra.
Qed.
Print Assumptions C36_returned.

(** A terrain without a summary for the scene centre, or without an intersection, ends in an
    attribute or index error. *)
Theorem C36_no_summary :
  forall to_geodetic to_geocentric (m : Sicd) (i : Image) (t : Terrain),
  describe_region t (to_geodetic (scp_ecf (converter m))) = None ->
  sicd_image_to_world to_geodetic to_geocentric m i (Some t) = Err AttributeError.
Proof. intros tg tc m i t H. unfold sicd_image_to_world, make_dem. rewrite H. reflexivity. Qed.
Print Assumptions C36_no_summary.

Theorem C36_no_intersection :
  forall to_geodetic to_geocentric (m : Sicd) (i : Image) (t : Terrain) (d : Dem),
  make_dem to_geodetic (scp_ecf (converter m)) (side_of_track m) t = Ok d ->
  (let c := precise_rrdot (projection m) (grid_location m i) in
   dem_intersection to_geodetic to_geocentric d (r_coa c) (rdot_coa c) (arp_coa c) (varp_coa c) = Ok []) ->
  sicd_image_to_world to_geodetic to_geocentric m i (Some t) = Err IndexError.
Proof. intros tg tc m i t d D H. unfold sicd_image_to_world. rewrite D. cbn [bind]. cbv zeta in H. rewrite H. reflexivity. Qed.
Print Assumptions C36_no_intersection.

(** A sample exactly at the threshold above the terrain counts as below it. *)
Theorem C36_threshold_refuted :
  forall lim, 0 < lim -> indicator lim (Some lim) = (-1)%Z /\ indicator lim (Some (- lim)) = (-1)%Z.
Proof.
  intros lim L. unfold indicator. rewrite Rabs_Ropp, (Rabs_pos_eq lim) by lra.
  destruct (Rlt_dec lim lim); [lra|]. destruct (Rlt_dec lim (- lim)); [lra|]. auto.
Qed.
Print Assumptions C36_threshold_refuted.

(** Then a point is returned between two samples that are both above the terrain, and it is not
    even between them: the extrapolation leaves the interval. *)
Theorem C36_threshold_extrapolates :
  scan_indices 1 0 None [2; 1] = [2].
Proof.
  cbn [scan_indices]. replace (indicator 1 (Some 1)) with (-1)%Z by (symmetry; apply C36_threshold_refuted; lra).
  assert (E : indicator 1 (Some 2) = 1%Z).
  { unfold indicator. rewrite Rabs_pos_eq by lra. destruct (Rlt_dec 2 1); [lra|]. destruct (Rlt_dec 1 2); [reflexivity|lra]. }
  rewrite E. cbn. f_equal. field.
Qed.
Print Assumptions C36_threshold_extrapolates.

(** A hill from 4 to 3 metres below an antenna at height [a], at a constant 3.5, seen on the flat
    earth. *)
Definition hill (a : R) : Terrain := mkTerrain (fun g => mkGeo (longitude g) (latitude g) (a - 7/2)) (fun _ => Some (a - 4, a - 3, 30)).
Lemma flat_contour a s : 0 < a -> 0 < s ->
  make_contour 5 0 (mkVec 0 0 a) (mkVec s 0 0) = Some (mkContour (mkVec 0 0 a) 5 (mkVec 0 0 (-1)) (mkVec 0 1 0)).
Proof.
  intros A S0.
  assert (N5 : vnorm (mkVec 0 0 a) = a) by (apply vnorm_of_sqr; [lra|unfold vdot; cbn; ring]).
  assert (N1 : vnorm (mkVec s 0 0) = s) by (apply vnorm_of_sqr; [lra|unfold vdot; cbn; ring]).
  unfold make_contour. rewrite N1. destruct (Req_EM_T s 0) as [F|_]; [lra|].
    replace (1 - -1 * 0 / s * (-1 * 0 / s)) with (1 * 1) by (field; lra). destruct (Rlt_dec (1 * 1) 0) as [F|_]; [lra|]. rewrite sqrt_square by lra.
    assert (U1 : normalised (mkVec s 0 0) = mkVec 1 0 0) by (unfold normalised; rewrite N1; apply vec_eq; cbn; field; lra).
    assert (U5 : normalised (mkVec 0 0 a) = mkVec 0 0 1) by (unfold normalised; rewrite N5; apply vec_eq; cbn; field; lra).
    rewrite U1, U5. replace (vcross (mkVec 0 0 1) (mkVec 1 0 0)) with (mkVec 0 1 0) by (apply vec_eq; cbn; ring).
    assert (Ny : vnorm (mkVec 0 1 0) = 1) by (apply vnorm_of_sqr; [lra|unfold vdot; cbn; ring]).
    rewrite Ny. destruct (Req_EM_T 1 0) as [F|_]; [lra|].
    assert (Uy : normalised (mkVec 0 1 0) = mkVec 0 1 0) by (apply normalised_of_unit; unfold vdot; cbn; ring). rewrite Uy.
    f_equal. f_equal; [apply vec_eq; cbn; field; lra|field; lra|apply vec_eq; cbn; ring].
Qed.
Definition flat_back (tc : Geodetic -> Vec) : Prop := forall y h, tc (mkGeo y (PI / 2) h) = mkVec 0 y h.
Lemma hill_sampling tg tc a s scp d : flat_on_line tg -> flat_back tc -> 0 < a -> 0 < s -> vx scp = 0 -> vy scp > 0 -> make_dem tg scp "L" (hill a) = Ok d ->
  dem_sampling tg tc d 5 0 (mkVec 0 0 a) (mkVec s 0 0)
  = Ok (mkSampling (mkContour (mkVec 0 0 a) 5 (mkVec 0 0 (-1)) (mkVec 0 1 0)) 1 (4/5) (3/5) (-6/5) 2).
Proof.
  intros T B A S0 Sx Sy [= <-]. unfold dem_sampling. cbn [d_scp d_side hae_max hae_min].
  rewrite (flat_hae_any tg tc a s scp (a - 3) 4 T), (flat_hae_any tg tc a s scp (a - 4) 3 T), !B by lra. cbn [bind].
  rewrite (flat_contour a s A S0). cbn [rrrc ctr u_rrx u_rry]. destruct (Req_EM_T 5 0) as [F|_]; [lra|].
  replace (vdot (vsub (mkVec 0 4 (a - 3)) (mkVec 0 0 a)) (mkVec 0 0 (-1)) / 5) with (3/5) by (unfold vdot; cbn; field).
  replace (vdot (vsub (mkVec 0 3 (a - 4)) (mkVec 0 0 a)) (mkVec 0 0 (-1)) / 5) with (4/5) by (unfold vdot; cbn; field).
  destruct (Rlt_dec _ 0) as [F|_]; [lra|].
  replace (1 - 4/5 * (4/5)) with (3/5 * (3/5)) by field. rewrite sqrt_square by lra.
  assert (E : cosine_step (mkDem scp "L" (hill a) (a - 4) (a - 3) (0.5 * 30) 10 0.001) (mkContour (mkVec 0 0 a) 5 (mkVec 0 0 (-1)) (mkVec 0 1 0)) (4/5) (look_of "L" * (3/5)) = -6/5).
  { unfold cosine_step. cbn [delta_dist_rrc delta_dist_dem rrrc]. destruct (Req_EM_T (4/5) 0) as [F|_]; [lra|].
    unfold look_of. cbn. rewrite (Rabs_pos_eq (1 * (3/5))) by lra. rewrite Rmin_left by lra. field. }
  rewrite E. destruct (Req_EM_T (-6/5) 0) as [F|_]; [lra|].
  f_equal. f_equal.
  assert (Fl : Rfloor ((3/5 - 4/5) / (-6/5)) = 0%Z).
  { pose proof (Rfloor_bounds ((3/5 - 4/5) / (-6/5))) as [B1 B2]. set (f := Rfloor _) in *.
    replace ((3/5 - 4/5) / (-6/5)) with (1/6) in B1, B2 by field.
    assert (f < 1)%Z by (apply lt_IZR; lra). assert (-1 < f)%Z by (apply lt_IZR; lra). lia. }
  rewrite Fl. reflexivity.
Qed.
Lemma hill_point a k y : 0 <= y -> -1 <= k <= 1 -> y * y = 1 - k * k ->
  contour_point (mkContour (mkVec 0 0 a) 5 (mkVec 0 0 (-1)) (mkVec 0 1 0)) 1 k = Some (mkVec 0 (5 * y) (a - 5 * k)).
Proof.
  intros Y K E. unfold contour_point. destruct (Rlt_dec _ 0) as [F|_]; [nra|]. rewrite <- E, sqrt_square by lra.
  f_equal. apply vec_eq; cbn; ring.
Qed.
Definition hill_samples (a : R) : Sampling := mkSampling (mkContour (mkVec 0 0 a) 5 (mkVec 0 0 (-1)) (mkVec 0 1 0)) 1 (4/5) (3/5) (-6/5) 2.
Lemma hill_sample_0 a : sample_at (hill_samples a) 0 = Some (mkVec 0 3 (a - 4)).
Proof. unfold hill_samples, sample_at. cbn [contour look_side start step]. rewrite (hill_point _ _ (3/5)) by lra. f_equal. apply vec_eq; cbn; field. Qed.
Lemma hill_sample_1 a : sample_at (hill_samples a) 1 = Some (mkVec 0 (5 * sqrt (84/100)) (a + 2)).
Proof.
  unfold hill_samples, sample_at. cbn [contour look_side start step].
  rewrite (hill_point _ _ (sqrt (84/100))); [|apply sqrt_pos|lra|rewrite sqrt_sqrt; lra]. f_equal. apply vec_eq; cbn; field.
Qed.
Lemma hill_found tg tc a s scp d : flat_on_line tg -> flat_back tc -> 0 < a -> 0 < s -> vx scp = 0 -> vy scp > 0 -> make_dem tg scp "L" (hill a) = Ok d ->
  dem_intersection tg tc d 5 0 (mkVec 0 0 a) (mkVec s 0 0) = Ok [Some (mkVec 0 (5 * sqrt (51/100)) (a - 7/2))].
Proof.
  intros T B A S0 Sx Sy M. unfold dem_intersection. rewrite (hill_sampling tg tc a s scp d T B A S0 Sx Sy M). injection M as <-. cbn [bind].
  fold (hill_samples a). pose proof (hill_sample_0 a) as P0. pose proof (hill_sample_1 a) as P1.
  set (smp := hill_samples a) in *.
  unfold sample_heights. change (Z.to_nat (points smp)) with 2%nat. cbn [seq List.map]. change (INR 0) with 0. change (INR 1) with 1. rewrite P0, P1.
  unfold height_above, hill. rewrite !T by reflexivity. unfold flat_geodetic. cbn [set_elevation elevation longitude latitude vz d_terrain delta_hd_lim].
  cbn [dem_scan].
  replace (a - 4 - (a - 7/2)) with (1 - 3/2) by lra. replace (a + 2 - (a - 7/2)) with (7 - 3/2) by lra.
  assert (I0 : indicator 0.001 (Some (1 - 3/2)) = (-1)%Z).
  { unfold indicator. destruct (Rlt_dec (Rabs _) _) as [F|_]; [unfold Rabs in F; destruct (Rcase_abs _); lra|]. destruct (Rlt_dec _ _); [lra|reflexivity]. }
  assert (I1 : indicator 0.001 (Some (7 - 3/2)) = 1%Z).
  { unfold indicator. destruct (Rlt_dec (Rabs _) _) as [F|_]; [unfold Rabs in F; destruct (Rcase_abs _); lra|]. destruct (Rlt_dec _ _); [reflexivity|lra]. }
  rewrite I0, I1. cbn [Z.eqb Z.mul Pos.mul app INR].
  do 2 f_equal. unfold smp, hill_samples, sample_at. cbn [contour look_side start step].
  rewrite (hill_point _ _ (sqrt (51/100))); [change (Pos.eqb 1 1) with true; cbn [app]; f_equal; f_equal; apply vec_eq; cbn [vx vy vz]; field|apply sqrt_pos|lra|]. rewrite sqrt_sqrt by lra. field.
Qed.
Example C36_non_vacuous :
  exists d p, make_dem flat_geodetic (mkVec 0 9 0) "L" (hill 5) = Ok d /\
  dem_intersection flat_geodetic flat_geocentric d 5 0 (mkVec 0 0 5) (mkVec 1 0 0) = Ok [Some p] /\ vx p = 0 /\ vz p = 3/2 /\ 0 < vy p.
Proof.
  assert (R51 : 0 < sqrt (51/100)) by (apply sqrt_lt_R0; lra).
  eexists. eexists. split; [reflexivity|]. split; [apply (hill_found _ _ 5 1 (mkVec 0 9 0)); first [exact flat_is_flat | intros y h; reflexivity | cbn; lra | reflexivity]|]. cbn. lra.
Qed.
(** The samples of that contour meet what the theorems ask for: the steps go down, the first sample is
    below the terrain and the second above it. *)
Example C36_samples_non_vacuous :
  exists d s p q, make_dem flat_geodetic (mkVec 0 9 0) "L" (hill 5) = Ok d /\
  dem_sampling flat_geodetic flat_geocentric d 5 0 (mkVec 0 0 5) (mkVec 1 0 0) = Ok s /\
  step s < 0 /\ top s <= start s /\ 0 < rrrc (contour s) /\ 0 <= start s /\ 0 < delta_dist_dem d /\ 0 < delta_dist_rrc d /\ 0 < delta_hd_lim d /\
  sample_at s (INR 0) = Some p /\ sample_at s (INR 1) = Some q /\ (Z.of_nat 1 < points s)%Z /\
  height_above flat_geodetic (d_terrain d) p < - delta_hd_lim d /\ delta_hd_lim d < height_above flat_geodetic (d_terrain d) q /\
  (forall n, (n < Z.to_nat (points s))%nat -> exists p, sample_at s (INR n) = Some p /\ height_above flat_geodetic (d_terrain d) p <> delta_hd_lim d).
Proof.
  eexists. exists (hill_samples 5), (mkVec 0 3 (5 - 4)), (mkVec 0 (5 * sqrt (84/100)) (5 + 2)). split; [reflexivity|].
  split; [apply (hill_sampling _ _ 5 1 (mkVec 0 9 0)); first [exact flat_is_flat | intros y h; reflexivity | cbn; lra | reflexivity]|].
  cbn [hill_samples step top start contour rrrc points d_terrain delta_hd_lim delta_dist_dem delta_dist_rrc].
  pose proof (hill_sample_0 5) as P0. pose proof (hill_sample_1 5) as P1.
  repeat (split; [lra || lia || (unfold height_above; cbn; lra) || assumption|]).
  intros n H. change (n < 2)%nat in H. assert (n = 0 \/ n = 1)%nat as [->| ->] by lia.
  - exists (mkVec 0 3 (5 - 4)). split; [exact P0|]. unfold height_above. cbn. lra.
  - exists (mkVec 0 (5 * sqrt (84/100)) (5 + 2)). split; [exact P1|]. unfold height_above. cbn. lra.
Qed.
(** A conversion that puts the lowest height straight below the antenna leaves no step. *)
Definition sunk_geocentric (g : Geodetic) : Vec := mkVec 0 (longitude g) (if Req_EM_T (elevation g) (5 - 4) then 0 else elevation g).
Example C36_no_step_non_vacuous :
  exists d, make_dem flat_geodetic (mkVec 0 9 0) "L" (hill 5) = Ok d /\
  dem_sampling flat_geodetic sunk_geocentric d 5 0 (mkVec 0 0 5) (mkVec 1 0 0) = Err OtherError.
Proof.
  eexists. split; [reflexivity|]. pose proof (flat_contour 5 1 ltac:(lra) ltac:(lra)) as C.
  rewrite (C36_no_step _ _ _ _ _ _ _ _ (mkVec 0 4 2) (mkVec 0 3 0) C).
  - destruct (Req_EM_T _ _) as [F|_]; [|reflexivity]. exfalso. unfold vdot in F. cbn in F. lra.
  - cbn. lra.
  - cbn [d_scp d_side hae_max]. rewrite (flat_hae_any _ sunk_geocentric 5 1 (mkVec 0 9 0) (5 - 3) 4 flat_is_flat) by (cbn; lra).
    unfold sunk_geocentric. cbn [longitude elevation]. destruct (Req_EM_T (5 - 3) (5 - 4)) as [F|_]; [lra|]. do 2 f_equal. apply vec_eq; cbn; lra.
  - cbn [d_scp d_side hae_min]. rewrite (flat_hae_any _ sunk_geocentric 5 1 (mkVec 0 9 0) (5 - 4) 3 flat_is_flat) by (cbn; lra).
    unfold sunk_geocentric. cbn [longitude elevation]. destruct (Req_EM_T (5 - 4) (5 - 4)) as [_|F]; [|lra]. reflexivity.
  - left. unfold vdot. cbn. lra.
Qed.

(** ** C37: from the ground to the image *)
Theorem C37_terminates :
  forall to_geodetic (m : Sicd) (scene : Vec) (xy : R * R) (k : nat),
  scene_to_grid to_geodetic m scene scene 9 1 = Ok (xy, k) -> (1 <= k <= 10)%nat.
Proof. intros tg m scene xy k H. apply scene_to_grid_spec in H. lia. Qed.
Print Assumptions C37_terminates.

(** Stopping before the limit means that the pixel maps back to within a centimetre (or that the
    projection of the pixel is not a number). *)
Theorem C37_accurate :
  forall to_geodetic to_geocentric (m : Sicd) (w : Geodetic) (xy : R * R) (k : nat),
  row_ss (converter m) <> 0 -> col_ss (converter m) <> 0 ->
  scene_to_grid to_geodetic m (to_geocentric w) (to_geocentric w) 9 1 = Ok (xy, k) -> (k < 10)%nat ->
  exists i, sicd_world_to_image to_geodetic to_geocentric m w = Ok i /\
  (sicd_image_to_world to_geodetic to_geocentric m i None = Ok None \/
   exists p, sicd_image_to_world to_geodetic to_geocentric m i None = Ok (Some (to_geodetic p)) /\ distance (to_geocentric w) p <= 0.01).
Proof.
  intros tg tc m w xy k A B H K. exists (to_pixel m xy). split.
  - unfold sicd_world_to_image. rewrite H. reflexivity.
  - apply scene_to_grid_spec in H. destruct H as [_ H]. unfold sicd_image_to_world. rewrite grid_of_pixel by assumption.
    unfold ground_of in H. destruct H as [G|(p & G & D)]; rewrite G; cbn [bind]; [now left|]. right. exists p. split; [reflexivity|]. apply D. lia.
Qed.
Print Assumptions C37_accurate.

(** A scene point more than a centimetre off the ground plane of the scene centre never converges,
    whatever the geometry: all ten iterations run (unless a projection is not a number). *)
Theorem C37_off_plane_never_converges :
  forall to_geodetic (m : Sicd) (scene : Vec) (xy : R * R) (k : nat),
  let plane := default_surface to_geodetic m in
  u_gpn plane <> vzero -> 0.01 < Rabs (height_over (ref_ecf plane) (u_gpn plane) scene) ->
  scene_to_grid to_geodetic m scene scene 9 1 = Ok (xy, k) ->
  k = 10%nat \/ ground_of to_geodetic m xy = Ok None.
Proof.
  intros tg m scene xy k plane N Hh H. apply scene_to_grid_spec in H. destruct H as [K [G|(p & G & D)]]; [now right|].
  left. destruct (Nat.eq_dec k 10) as [|Nk]; [assumption|exfalso].
  assert (D' : distance scene p <= 0.01) by (apply D; lia).
  unfold ground_of in G. apply ground_on_plane in G; [|exact N].
  pose proof (distance_at_least_height tg m N scene p G). fold plane in H. lra.
Qed.
Print Assumptions C37_off_plane_never_converges.

(** The grid location of a ground point is that of the point of the image plane which is reached
    along the slant plane normal, and nothing else. *)
Theorem C37_projects_along_normal :
  forall (m : Sicd) (g : Vec), let c := converter m in
  unit (u_row c) -> unit (u_col c) -> not_parallel (u_row c) (u_col c) -> vdot (u_spn m) (uvect_ipn c) <> 0 ->
  exists t, xrowycol_to_ipp c (project_to_grid m g) = vadd g (vscale t (u_spn m)) /\
  forall t', on_plane (scp_ecf c) (uvect_ipn c) (vadd g (vscale t' (u_spn m))) <-> t' = t.
Proof.
  intros m g c Ur Uc Np N. unfold project_to_grid. fold c. cbv zeta.
  set (t := vdot (vsub (scp_ecf c) g) (uvect_ipn c) / vdot (u_spn m) (uvect_ipn c)).
  assert (L : forall t', vdot (vsub (vadd g (vscale t' (u_spn m))) (scp_ecf c)) (uvect_ipn c) = (t' - t) * vdot (u_spn m) (uvect_ipn c)).
  { intros t'. unfold t. set (n := uvect_ipn c) in *.
    replace ((t' - vdot (vsub (scp_ecf c) g) n / vdot (u_spn m) n) * vdot (u_spn m) n)
      with (t' * vdot (u_spn m) n - vdot (vsub (scp_ecf c) g) n) by (field; exact N).
    unfold vdot, vsub, vadd, vscale. cbn. ring. }
  assert (O : forall t', on_plane (scp_ecf c) (uvect_ipn c) (vadd g (vscale t' (u_spn m))) <-> t' = t).
  { intros t'. rewrite on_plane_eq, L. split; [|intros ->; ring].
    intros E. apply Rmult_integral in E. destruct E; [lra|contradiction]. }
  exists t. split; [|exact O]. apply C32_plane_point_of_grid; try assumption. now apply O.
Qed.
Print Assumptions C37_projects_along_normal.

(** Worse, every iteration raises the projected point by the height of the scene point once more:
    the pixel returned after [k] iterations belongs to a point [k] times as high. *)
Theorem C37_height_is_multiplied :
  forall to_geodetic (m : Sicd) (scene : Vec) (xy : R * R) (k : nat),
  let plane := default_surface to_geodetic m in
  let height := height_over (ref_ecf plane) (u_gpn plane) in
  u_gpn plane <> vzero -> scene_to_grid to_geodetic m scene scene 9 1 = Ok (xy, k) ->
  exists g, xy = project_to_grid m g /\ height g = INR k * height scene.
Proof.
  intros tg m scene xy k plane height N H. pose proof (C37_terminates _ _ _ _ _ H) as K.
  apply scene_drift in H; [|exact N]. destruct H as (g & X & Hg). exists g. split; [exact X|].
  unfold height, plane. rewrite Hg. replace k with (S (k - 1)) at 2 by lia. rewrite S_INR. ring.
Qed.
Print Assumptions C37_height_is_multiplied.

(** A planar image grid in the ground plane of a flat earth; the scene centre is found at once. *)
Definition demo_sicd : Sicd :=
  let scp := mkVec 0 4 0 in
  mkSicd (mkConverter (mkImage 10 20) scp (mkVec 1 0 0) (mkVec 0 1 0) 2 (1/2) (mkImage 3 4))
         (mkProjectionSet (PLANE scp (mkVec 1 0 0) (mkVec 0 1 0)) [[0]] (mkPolyXYZ [0; 2] [0] [3]) vzero vzero 0)
         (mkVec 0 (3/5) (4/5)) "L" (Some (mkVec 0 0 1)).
Definition demo_geocentric (g : Geodetic) : Vec := mkVec (longitude g) (latitude g) (elevation g).
Definition demo_geodetic (p : Vec) : Geodetic := mkGeo (vx p) (vy p) (vz p).
Lemma demo_ground : ground_of demo_geodetic demo_sicd (0, 0) = Ok (Some (mkVec 0 4 0)).
Proof.
  assert (Z : normalised (mkVec 0 0 1) = mkVec 0 0 1) by (apply normalised_of_unit; unfold vdot; cbn; ring).
  unfold ground_of, default_surface, make_plane. cbn [demo_sicd uvect_gpn scp_ecf converter projection]. rewrite Z.
  unfold precise_rrdot, grid_specific_projection, varp_poly, poly2d, polyxyz. cbn [grid coa_time_poly arp_poly delta_arp delta_varp range_bias fst snd polyval_rows polyval x_polynomial y_polynomial z_polynomial polyxyz_deriv polyder scale_from INR r_coa rdot_coa arp_coa varp_coa].
  replace (vadd (mkVec (0 + (2 + 0 * (0 + 0 * 0)) * (0 + 0 * 0)) (0 + 0 * (0 + 0 * 0)) (3 + 0 * (0 + 0 * 0))) vzero) with (mkVec 0 0 3) by (apply vec_eq; cbn; ring).
  replace (vadd (mkVec (1 * 2 + 0 * (0 + 0 * 0)) (0 + 0 * (0 + 0 * 0)) (0 + 0 * (0 + 0 * 0))) vzero) with (mkVec 2 0 0) by (apply vec_eq; cbn; ring).
  replace (mkVec (0 + (2 + 0 * (0 + 0 * 0)) * (0 + 0 * 0)) (0 + 0 * (0 + 0 * 0)) (3 + 0 * (0 + 0 * 0))) with (mkVec 0 0 3) by (apply vec_eq; cbn; ring).
  replace (vsub (mkVec 0 0 3) (vadd (vadd (mkVec 0 4 0) (vscale 0 (mkVec 1 0 0))) (vscale 0 (mkVec 0 1 0)))) with (mkVec 0 (-4) 3) by (apply vec_eq; cbn; ring).
  assert (N5 : vnorm (mkVec 0 (-4) 3) = 5) by (apply vnorm_of_sqr; [lra|unfold vdot; cbn; ring]). rewrite N5.
  replace (vdot _ (mkVec 0 (-4) 3) / 5) with 0 by (unfold vdot; cbn; field). replace (5 + 0) with 5 by ring.
  assert (D : distance (mkVec 0 0 3) (mkVec 0 4 0) = 5) by (apply demo_distance; cbn; lra).
  apply C33_finds_every_solution; cbn [u_gpn ref_ecf].
  - intros F. injection F. lra.
  - intros k F. cbn in F. injection F. lra.
  - unfold side_of. cbn. lra.
  - rewrite height_over_eq, Z. unfold vdot. cbn. lra.
  - unfold on_plane. cbn. lra.
  - exact D.
  - unfold range_rate. rewrite D. cbn. field.
  - unfold side_of. cbn. lra.
Qed.
Lemma demo_grid : project_to_grid demo_sicd (mkVec 0 4 0) = (0, 0).
Proof.
  unfold project_to_grid, ipp_to_xrowycol. cbn [demo_sicd converter scp_ecf].
  replace (vsub (mkVec 0 4 0) (mkVec 0 4 0)) with vzero by (apply vec_eq; cbn; ring).
  replace (vdot vzero _) with 0 by (unfold vdot; cbn; ring).
  set (k := 0 / _). replace k with 0 by (unfold k, Rdiv; ring).
  f_equal; unfold vdot; cbn; ring.
Qed.
Example C37_non_vacuous :
  scene_to_grid demo_geodetic demo_sicd (mkVec 0 4 0) (mkVec 0 4 0) 9 1 = Ok ((0, 0), 1%nat) /\
  sicd_world_to_image demo_geodetic demo_geocentric demo_sicd (mkGeo 0 4 0) = Ok (mkImage 7 16).
Proof.
  assert (H : scene_to_grid demo_geodetic demo_sicd (mkVec 0 4 0) (mkVec 0 4 0) 9 1 = Ok ((0, 0), 1%nat)).
  { cbn [scene_to_grid]. rewrite demo_grid. pose proof demo_ground as G. unfold ground_of in G. rewrite G. replace (vsub (mkVec 0 4 0) (mkVec 0 4 0)) with vzero by (apply vec_eq; cbn; ring).
    replace (vnorm vzero) with 0 by (symmetry; apply vnorm_zero_iff; reflexivity). destruct (Rlt_dec _ _); [lra|reflexivity]. }
  split; [exact H|]. unfold sicd_world_to_image, demo_geocentric. cbn [longitude latitude elevation]. rewrite H. cbn [bind fst].
  unfold to_pixel, xrowycol_to_rowcol. cbn. f_equal. f_equal; field.
Qed.

(** ** C38: chips *)
Definition with_first_pixel (m : Sicd) (f : Image) : Sicd :=
  let c := converter m in
  mkSicd (mkConverter (scp_pixel c) (scp_ecf c) (u_row c) (u_col c) (row_ss c) (col_ss c) f)
         (projection m) (u_spn m) (side_of_track m) (uvect_gpn m).
(** The pixel (x, y) of the chip that starts at (x0, y0) of an image is the pixel (x + x0, y + y0)
    of the image. *)
Theorem C38_image_to_world :
  forall to_geodetic to_geocentric (m : Sicd) (x0 y0 x y : R) (em : option Terrain),
  let f := first_pixel (converter m) in
  sicd_image_to_world to_geodetic to_geocentric (with_first_pixel m (mkImage (ix f + x0) (iy f + y0))) (mkImage x y) em
  = sicd_image_to_world to_geodetic to_geocentric m (mkImage (x + x0) (y + y0)) em.
Proof.
  intros tg tc m x0 y0 x y em f.
  assert (G : grid_location (with_first_pixel m (mkImage (ix f + x0) (iy f + y0))) (mkImage x y) = grid_location m (mkImage (x + x0) (y + y0))).
  { unfold grid_location, rowcol_to_xrowycol, with_first_pixel. cbn. fold f. f_equal; ring. }
  unfold sicd_image_to_world. rewrite G. reflexivity.
Qed.
Print Assumptions C38_image_to_world.

Theorem C38_world_to_image :
  forall to_geodetic to_geocentric (m : Sicd) (x0 y0 : R) (w : Geodetic),
  let f := first_pixel (converter m) in
  sicd_world_to_image to_geodetic to_geocentric (with_first_pixel m (mkImage (ix f + x0) (iy f + y0))) w
  = bind (sicd_world_to_image to_geodetic to_geocentric m w) (fun i => Ok (mkImage (ix i - x0) (iy i - y0))).
Proof.
  intros tg tc m x0 y0 w f. unfold sicd_world_to_image. set (m' := with_first_pixel m _).
  assert (S : forall more it g, scene_to_grid tg m' (tc w) g more it = scene_to_grid tg m (tc w) g more it).
  { induction more as [|more IH]; intros it g; cbn [scene_to_grid].
    - reflexivity.
    - change (project_to_grid m' g) with (project_to_grid m g). change (projection m') with (projection m). change (default_surface tg m') with (default_surface tg m).
      destruct (ground_intersection _ _ _ _ _) as [[p|]|e]; [|reflexivity|reflexivity]. now rewrite IH. }
  rewrite S. destruct (scene_to_grid tg m (tc w) (tc w) 9 1) as [[xy k]|e]; [|reflexivity]. cbn [bind fst]. f_equal.
  unfold to_pixel, xrowycol_to_rowcol, m', with_first_pixel. cbn. fold f. f_equal; ring.
Qed.
Print Assumptions C38_world_to_image.

Example C38_non_vacuous :
  first_pixel (converter (with_first_pixel demo_sicd (mkImage 8 9))) = mkImage 8 9 /\
  sicd_world_to_image demo_geodetic demo_geocentric (with_first_pixel demo_sicd (mkImage (3 + 5) (4 + 6))) (mkGeo 0 4 0) = Ok (mkImage (7 - 5) (16 - 6)).
Proof.
  split; [reflexivity|]. rewrite (C38_world_to_image demo_geodetic demo_geocentric demo_sicd 5 6).
  destruct C37_non_vacuous as [_ ->]. reflexivity.
Qed.

(** ** C68: slant plane and ground plane normals *)
Theorem C68_slant_plane_normal :
  forall (scp arp varp : Vec) (side : string), vcross varp (vsub scp arp) <> vzero ->
  let u := compute_u_spn scp arp varp side in
  unit u /\ perpendicular u varp /\ perpendicular u (vsub scp arp) /\
  forall up, (side = "R"%string -> vdot (vsub scp arp) (vcross up varp) < 0) ->
             (side <> "R"%string -> 0 < vdot (vsub scp arp) (vcross up varp)) -> 0 < vdot u up.
Proof.
  intros scp arp varp side N u. set (d := vsub scp arp) in *. set (n := vcross varp d) in *.
  assert (Nn : (if String.eqb side "R" then vscale (-1) n else n) <> vzero).
  { destruct (String.eqb side "R"); [|exact N]. intros E. apply N. assert (A : vscale (-1) (vscale (-1) n) = vzero) by (rewrite E; apply vec_eq; cbn; ring). rewrite <- A. apply vec_eq; cbn [vscale vx vy vz]; ring. }
  split; [apply unit_eq, normalised_unit; exact Nn|].
  assert (P : forall w, vdot n w = 0 -> perpendicular u w).
  { intros w Hw. unfold u, compute_u_spn. fold d n. change (perpendicular ?a ?b) with (vdot a b = 0).
    rewrite vdot_comm, normalised_dot, vdot_comm. destruct (String.eqb side "R"); [rewrite vdot_scale_l|]; rewrite Hw; unfold Rdiv; ring. }
  split; [apply P, vdot_cross_l|]. split; [apply P, vdot_cross_r|].
  intros up R L. unfold u, compute_u_spn. fold d n. rewrite vdot_comm, normalised_dot. apply Rdiv_lt_0_compat; [|now apply vnorm_pos_iff].
  assert (T : vdot up n = vdot d (vcross up varp)) by (unfold n, vdot; cbn; ring).
  destruct (String.eqb side "R") eqn:E.
  - apply String.eqb_eq in E. rewrite vdot_scale_r, T. specialize (R E). lra.
  - apply String.eqb_neq in E. rewrite T. auto.
Qed.
Print Assumptions C68_slant_plane_normal.

Theorem C68_ground_plane_normal :
  forall (scp urow ucol : Vec), not_parallel urow ucol ->
  let u := compute_u_gpn scp urow ucol in
  unit u /\ perpendicular u urow /\ perpendicular u ucol /\ 0 <= vdot u scp.
Proof.
  intros scp urow ucol H u. apply not_parallel_cross in H. pose proof (normalised_unit _ H) as U.
  assert (P1 : vdot (normalised (vcross urow ucol)) urow = 0) by (unfold normalised; rewrite vdot_scale_l, vdot_cross_l; ring).
  assert (P2 : vdot (normalised (vcross urow ucol)) ucol = 0) by (unfold normalised; rewrite vdot_scale_l, vdot_cross_r; ring).
  unfold u, compute_u_gpn. change (perpendicular ?a ?b) with (vdot a b = 0). rewrite unit_eq.
  destruct (Rlt_dec _ 0) as [L|L].
  - rewrite !vdot_scale_l, vdot_scale_r, U, P1, P2. repeat split; lra.
  - rewrite U, P1, P2. repeat split; lra.
Qed.
Print Assumptions C68_ground_plane_normal.

Example C68_non_vacuous :
  not_parallel (mkVec 1 0 0) (mkVec 0 1 0) /\ vcross (mkVec 1 0 0) (vsub (mkVec 0 4 0) (mkVec 0 0 3)) = mkVec 0 3 4 /\
  0 < vdot (vsub (mkVec 0 4 0) (mkVec 0 0 3)) (vcross (mkVec 0 0 1) (mkVec 1 0 0)).
Proof.
  split; [unfold not_parallel; cbn; right; right; lra|]. split; [apply vec_eq; cbn; ring|]. unfold vdot. cbn. lra.
Qed.
