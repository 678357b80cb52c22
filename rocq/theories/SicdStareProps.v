(** Property theorems for finding pixels of SICD images in the slant plane and in the ground plane: C106. *)
Require Import ZArith Reals String List Lra Lia Bool.
Require Import Verif.Base Verif.BaseFacts Verif.Vec Verif.VecFacts Verif.SensorBase Verif.PolySpec Verif.SicdModel Verif.SicdSpec Verif.SicdProofs
  Verif.SicdGroundProofs Verif.SicdProps Verif.SicdSurfaceProps Verif.SarMetaModel Verif.SarMetaSpec Verif.SarMetaProofs Verif.SarMetaProps
  Verif.SicdMetaSpec Verif.SicdMetaProps Verif.SicdFindSpec Verif.SicdFindProps Verif.SicdStareSpec
  Verif.GeodesyModel Verif.GeodesyProofs Verif.GeodesyProps.
Import ListNotations.
Local Open Scope R_scope.

Lemma unit_dot a : unit a <-> vdot a a = 1.
Proof. unfold unit, vdot. split; intros E; lra. Qed.
Lemma perp_dot a b : perpendicular a b <-> vdot a b = 0.
Proof. unfold perpendicular, vdot. tauto. Qed.

(** *** The ground point of a grid location of a planar image *)

Lemma planar_grounds tg d m v xy q : planar d -> usable_sicd d -> sicd_build d = Some (Complete m) -> (forall t, velocity_at (trajectory d) t (v t)) ->
  let t := coa_instant d xy in let n := surface_normal tg d in let a := trajectory d t in
  let ipp := plane_point (scp_position d) (row_uvect d) (col_uvect d) xy in
  side_of n a (v t) (scp_position d) <> 0 -> 0 <= height_over (scp_position d) n a < distance a ipp ->
  on_plane (scp_position d) n q -> distance a q = distance a ipp -> vdot (v t) (vsub a q) = vdot (v t) (vsub a ipp) ->
  0 <= side_of n a (v t) q * side_of n a (v t) (scp_position d) ->
  ground_of tg m xy = Ok (Some q).
Proof.
  intros (G1 & G2) (Pm & _) B Hv t n a ipp S Hh O D Rr Sd.
  destruct (built d _ Pm B) as [(c & F & _)|(m' & F & E1 & E2 & E3 & E4 & E5)]; [discriminate|]. injection F as <-.
  unfold ground_of. rewrite E3. specialize (E5 v Hv xy). cbv zeta in E5. fold t a in E5. set (c := precise_rrdot (projection m) xy) in *.
  destruct E5 as (A & V & _ & _ & M). destruct (side_apart _ _ _ _ S) as (N1 & N2 & N3). pose proof (vnorm_pos_iff _ N3) as P. fold n.
  specialize (M G2 N1 N2). unfold measured in M. cbv zeta in M. fold t ipp a in M.
  assert (X : r_coa c = distance a ipp /\ rdot_coa c = range_rate a (v t) ipp) by (destruct (grid_type d); try contradiction; exact M).
  destruct X as (-> & ->). rewrite A, V.
  assert (K : 0 < / vnorm n) by (now apply Rinv_0_lt_compat).
  assert (N4 : normalised n <> vzero) by (now apply normalised_not_zero).
  assert (S' : side_of (normalised n) a (v t) (scp_position d) <> 0).
  { rewrite normalised_scale, side_scaled. intros E. apply Rmult_integral in E. destruct E; [lra|contradiction]. }
  apply (C33_finds_every_solution (mkPlane (scp_position d) (normalised n))); cbn [ref_ecf u_gpn]; auto.
  - rewrite normalised_scale. apply moves_scaled; [lra|]. eapply side_moves; exact S.
  - now rewrite height_of_normalised.
  - apply on_plane_eq. now apply on_plane_normalised.
  - rewrite !range_rate_eq, Rr. rewrite <- !distance_eq, D. reflexivity.
  - rewrite normalised_scale, !side_scaled.
    set (x := side_of n a (v t) q) in *. set (y := side_of n a (v t) (scp_position d)) in *.
    replace (/ vnorm n * x * (/ vnorm n * y)) with (/ vnorm n * / vnorm n * (x * y)) by ring.
    apply Rmult_le_pos; [nra|exact Sd].
Qed.

(** *** Points to the side of the track *)

(** The direction in the ground plane at right angles to the track, towards the scene centre. *)
Lemma sideways n a v p : unit n -> side_of n a v p <> 0 ->
  exists e k, unit e /\ vdot e n = 0 /\ vdot e v = 0 /\ 0 < Rabs k /\ Rabs k = vnorm (vcross v n) /\ 0 < vdot (vsub p a) e /\
  forall q, side_of n a v q = k * vdot (vsub q a) e.
Proof.
  intros U S. set (w := vcross v n).
  assert (Sq : forall q, side_of n a v q = - vdot (vsub q a) w) by (intros q; unfold side_of, w, vdot; cbn; ring).
  assert (W : w <> vzero) by (intros E; apply S; rewrite Sq, E; unfold vdot; cbn; ring).
  pose proof (vnorm_pos_iff _ W) as P. pose proof (vnorm_sqr w) as Q.
  assert (X : forall k, k * k = 1 -> 0 < k * - side_of n a v p -> exists e k, unit e /\ vdot e n = 0 /\ vdot e v = 0 /\ 0 < Rabs k /\ Rabs k = vnorm w /\ 0 < vdot (vsub p a) e /\
    forall q, side_of n a v q = k * vdot (vsub q a) e).
  { intros s S1 S2. exists (vscale (s * / vnorm w) w), (- s * vnorm w).
    assert (A : Rabs (- s * vnorm w) = vnorm w).
    { rewrite Rabs_mult, (Rabs_right (vnorm w)) by lra. assert (R1 : Rabs (- s) = 1); [|rewrite R1; ring].
      assert (s = 1 \/ s = -1) as [-> | ->]; [|rewrite Rabs_left; lra|rewrite Rabs_right; lra].
      assert (Z : (s - 1) * (s + 1) = 0) by (ring_simplify; lra). apply Rmult_integral in Z. destruct Z; lra. }
    split; [apply unit_dot; rewrite vdot_scale_l, vdot_scale_r, <- Q; replace (s * / vnorm w * (s * / vnorm w * (vnorm w * vnorm w))) with (s * s) by (field; lra); exact S1|].
    split; [rewrite vdot_scale_l; unfold w; rewrite vdot_cross_r; ring|]. split; [rewrite vdot_scale_l; unfold w; rewrite vdot_cross_l; ring|].
    split; [rewrite A; exact P|]. split; [exact A|]. split.
    - rewrite vdot_scale_r. rewrite Sq in S2. replace (s * / vnorm w * vdot (vsub p a) w) with ((s * - - vdot (vsub p a) w) * / vnorm w) by ring.
      apply Rmult_lt_0_compat; [exact S2|]. now apply Rinv_0_lt_compat.
    - intros q. rewrite Sq, vdot_scale_r. replace (- s * vnorm w * (s * / vnorm w * vdot (vsub q a) w)) with (- (s * s) * vdot (vsub q a) w) by (field; lra).
      rewrite S1. ring. }
  destruct (Rlt_dec 0 (side_of n a v p)) as [H|H]; [apply (X (-1)); lra|apply (X 1); lra].
Qed.

(** Two directions at right angles account for at most the whole length. *)
Lemma bessel x e n : unit e -> unit n -> vdot e n = 0 -> vdot x e * vdot x e + vdot x n * vdot x n <= vdot x x.
Proof.
  intros E N Z. apply (proj1 (unit_dot _)) in E. apply (proj1 (unit_dot _)) in N. pose proof (vdot_pos (vsub x (vadd (vscale (vdot x e) e) (vscale (vdot x n) n)))) as P.
  rewrite !vdot_sub_l, !vdot_sub_r, !vdot_add_l, !vdot_add_r, !vdot_scale_l, !vdot_scale_r, E, N, (vdot_comm e x), (vdot_comm n x), (vdot_comm n e), Z in P. lra.
Qed.

Lemma dot_moved x y k : vdot (vadd x (vscale k y)) (vadd x (vscale k y)) = vdot x x + 2 * k * vdot x y + k * k * vdot y y.
Proof. unfold vdot. cbn. ring. Qed.
Lemma dot_moved_sub x y k : vdot (vsub x (vscale k y)) (vsub x (vscale k y)) = vdot x x - 2 * k * vdot x y + k * k * vdot y y.
Proof. unfold vdot. cbn. ring. Qed.

(** *** Staring images: how far locating moves ground points *)

Section Stare.
Context (scp n s a v e scene : Vec).
Hypothesis Un : unit n.
Hypothesis Us : unit s.
Hypothesis Ue : unit e.
Hypothesis En : vdot e n = 0.
Hypothesis Ev : vdot e v = 0.
Hypothesis Sv : vdot s v = 0.
Hypothesis Sa : vdot (vsub scp a) s = 0.

Let b (g : Vec) : R := vdot (vsub g a) e.
Let o (g : Vec) : R := vdot (vsub g scp) s.
(** The foot of a ground point in the slant plane, and the ground point with its range and range rate. *)
Definition slant_foot (g : Vec) : Vec := vsub g (vscale (o g) s).
Definition back (g : Vec) : Vec := vadd g (vscale (sqrt (b g * b g - o g * o g) - b g) e).

Lemma e_dot : vdot e e = 1. Proof. now apply unit_dot. Qed.
Lemma s_dot : vdot s s = 1. Proof. now apply unit_dot. Qed.

Lemma foot_range g : vdot (vsub (slant_foot g) a) (vsub (slant_foot g) a) = vdot (vsub g a) (vsub g a) - o g * o g.
Proof.
  assert (E : vsub (slant_foot g) a = vsub (vsub g a) (vscale (o g) s)) by (unfold slant_foot; apply vec_eq; cbn; ring).
  assert (O : vdot (vsub g a) s = o g).
  { unfold o. replace (vsub g a) with (vadd (vsub g scp) (vsub scp a)) by (apply vec_eq; cbn; ring). rewrite vdot_add_l, Sa. ring. }
  rewrite E, (dot_moved_sub (vsub g a) s), s_dot, O. ring.
Qed.
Lemma foot_rate g : vdot v (vsub a (slant_foot g)) = vdot v (vsub a g).
Proof.
  replace (vsub a (slant_foot g)) with (vadd (vsub a g) (vscale (o g) s)) by (unfold slant_foot; apply vec_eq; cbn; ring).
  rewrite vdot_add_r, vdot_scale_r, (vdot_comm v s), Sv. ring.
Qed.
Lemma back_side g : b (back g) = sqrt (b g * b g - o g * o g).
Proof.
  unfold back. set (q := sqrt (b g * b g - o g * o g)). clearbody q. change (vdot (vsub (vadd g (vscale (q - b g) e)) a) e = q).
  replace (vsub (vadd g (vscale (q - b g) e)) a) with (vadd (vsub g a) (vscale (q - b g) e)) by (apply vec_eq; cbn; ring).
  rewrite vdot_add_l, vdot_scale_l, e_dot. fold (b g). ring.
Qed.
Lemma back_range g : o g * o g <= b g * b g -> vdot (vsub (back g) a) (vsub (back g) a) = vdot (vsub g a) (vsub g a) - o g * o g.
Proof.
  intros H. set (q := sqrt (b g * b g - o g * o g)). assert (Q : q * q = b g * b g - o g * o g) by (apply sqrt_sqrt; lra).
  assert (E : vsub (back g) a = vadd (vsub g a) (vscale (q - b g) e)) by (unfold back; fold q; apply vec_eq; cbn; ring).
  rewrite E, dot_moved, e_dot. fold (b g).
  replace (vdot (vsub g a) (vsub g a) + 2 * (q - b g) * b g + (q - b g) * (q - b g) * 1) with (vdot (vsub g a) (vsub g a) + (q * q - b g * b g)) by ring.
  rewrite Q. ring.
Qed.
Lemma back_rate g : vdot v (vsub a (back g)) = vdot v (vsub a g).
Proof.
  set (q := sqrt (b g * b g - o g * o g) - b g). replace (vsub a (back g)) with (vsub (vsub a g) (vscale q e)) by (unfold back; fold q; apply vec_eq; cbn; ring).
  rewrite vdot_sub_r, vdot_scale_r, (vdot_comm v e), Ev. ring.
Qed.
Lemma back_plane g : vdot (vsub g scp) n = 0 -> vdot (vsub (back g) scp) n = 0.
Proof.
  intros H. set (q := sqrt (b g * b g - o g * o g) - b g). replace (vsub (back g) scp) with (vadd (vsub g scp) (vscale q e)) by (unfold back; fold q; apply vec_eq; cbn; ring).
  rewrite vdot_add_l, vdot_scale_l, En, H. ring.
Qed.
(** The antenna is lower than the range of a ground point farther to the side than off the slant plane. *)
Lemma foot_above g : vdot (vsub g scp) n = 0 -> o g * o g < b g * b g -> 0 <= vdot (vsub a scp) n -> vdot (vsub a scp) n < distance a (slant_foot g).
Proof.
  intros P H A. pose proof (bessel (vsub g a) e n Ue Un En) as Be. fold (b g) in Be.
  assert (Hn : vdot (vsub g a) n = - vdot (vsub a scp) n).
  { replace (vsub g a) with (vsub (vsub g scp) (vsub a scp)) by (apply vec_eq; cbn; ring). rewrite vdot_sub_l, P. ring. }
  rewrite Hn in Be. rewrite distance_eq. unfold vnorm. apply Rsqr_incrst_0; [|exact A|apply sqrt_pos]. unfold Rsqr.
  rewrite sqrt_sqrt by apply vdot_pos.
  replace (vdot (vsub a (slant_foot g)) (vsub a (slant_foot g))) with (vdot (vsub (slant_foot g) a) (vsub (slant_foot g) a)) by (unfold vdot; cbn; ring).
  rewrite foot_range. lra.
Qed.
Lemma same_distance g : o g * o g <= b g * b g -> distance a (back g) = distance a (slant_foot g).
Proof.
  intros H. rewrite !distance_eq. unfold vnorm. f_equal.
  replace (vdot (vsub a (back g)) (vsub a (back g))) with (vdot (vsub (back g) a) (vsub (back g) a)) by (unfold vdot; cbn; ring).
  replace (vdot (vsub a (slant_foot g)) (vsub a (slant_foot g))) with (vdot (vsub (slant_foot g) a) (vsub (slant_foot g) a)) by (unfold vdot; cbn; ring).
  rewrite back_range, foot_range by assumption. reflexivity.
Qed.

(** The points that the search visits: on the line from the scene point away from the track. *)
Hypothesis Hs : 10 * Rabs (o scene) <= b scene.
Hypothesis Bs : 0 < b scene.
Definition visited (g : Vec) : Prop := exists t, 0 <= t <= Rabs (o scene) / 5 /\ g = vadd scene (vscale t e).

Lemma visited_parts t : 0 <= t <= Rabs (o scene) / 5 -> let g := vadd scene (vscale t e) in
  b g = b scene + t /\ o g = o scene + t * vdot e s /\ Rabs (o g) <= 1.2 * Rabs (o scene) /\ Rabs (o g) <= 0.12 * b g /\ 0 < b g.
Proof.
  intros T g. assert (B : b g = b scene + t).
  { unfold b, g. replace (vsub (vadd scene (vscale t e)) a) with (vadd (vsub scene a) (vscale t e)) by (apply vec_eq; cbn; ring). rewrite vdot_add_l, vdot_scale_l, e_dot. ring. }
  assert (O : o g = o scene + t * vdot e s).
  { unfold o, g. replace (vsub (vadd scene (vscale t e)) scp) with (vadd (vsub scene scp) (vscale t e)) by (apply vec_eq; cbn; ring). rewrite vdot_add_l, vdot_scale_l. ring. }
  assert (C : Rabs (vdot e s) <= 1).
  { assert (Q : vdot e s * vdot e s <= 1).
    { pose proof (lagrange e s) as Lg. rewrite e_dot, s_dot in Lg. pose proof (vdot_pos (vcross e s)). lra. }
    apply Rabs_le. nra. }
  assert (A : Rabs (o g) <= 1.2 * Rabs (o scene)).
  { rewrite O. eapply Rle_trans; [apply Rabs_triang|]. rewrite Rabs_mult, (Rabs_right t) by lra. nra. }
  pose proof (Rabs_pos (o scene)). repeat split; auto; lra.
Qed.

(** What is left of [g] after [back]: the difference of two nearly equal lengths. *)
Lemma short_by x y : 0 < x -> Rabs y <= 0.12 * x -> let q := sqrt (x * x - y * y) in
  0.99 * x <= q <= x /\ x - q = y * y / (x + q) /\ q * q = x * x - y * y.
Proof.
  intros X Y q. assert (Y2 : y * y <= 0.0144 * (x * x)).
  { rewrite <- (Rabs_right (y * y)) by nra. rewrite Rabs_mult. pose proof (Rabs_pos y). nra. }
  assert (Q : q * q = x * x - y * y) by (apply sqrt_sqrt; nra). assert (Q0 : 0 <= q) by apply sqrt_pos.
  assert (B : 0.99 * x <= q <= x) by (split; nra). split; [exact B|]. split; [|exact Q].
  apply (Rmult_eq_reg_r (x + q)); [|lra]. replace (y * y / (x + q) * (x + q)) with (y * y) by (field; lra). lra.
Qed.

Lemma back_stays g : visited g -> visited (vadd g (vsub scene (back g))).
Proof.
  intros (t & T & ->). destruct (visited_parts t T) as (B & O & O1 & O2 & B0). set (g := vadd scene (vscale t e)) in *.
  destruct (short_by (b g) (o g) B0 O2) as (Q1 & Q2 & _). set (q := sqrt (b g * b g - o g * o g)) in *.
  exists (b g - q). split; [|unfold back; fold q; apply vec_eq; cbn; ring].
  split; [lra|]. rewrite Q2. pose proof (Rabs_pos (o scene)). pose proof (Rabs_pos (o g)).
  apply (Rmult_le_reg_r (b g + q)); [lra|]. replace (o g * o g / (b g + q) * (b g + q)) with (o g * o g) by (field; lra).
  rewrite <- (Rabs_right (o g * o g)) by nra. rewrite Rabs_mult.
  apply Rle_trans with (1.2 * Rabs (o scene) * (0.12 * b g)); [apply Rmult_le_compat; lra|]. nra.
Qed.

Lemma back_translates : nearly_translates visited back (1 / 7).
Proof.
  intros g g' (t & T & ->) (t' & T' & ->).
  destruct (visited_parts t T) as (B & O & _ & O2 & B0). destruct (visited_parts t' T') as (B' & O' & _ & O2' & B0').
  set (g := vadd scene (vscale t e)) in *. set (g' := vadd scene (vscale t' e)) in *.
  destruct (short_by (b g) (o g) B0 O2) as (Q1 & Q2 & Q3). destruct (short_by (b g') (o g') B0' O2') as (Q1' & Q2' & Q3').
  set (q := sqrt (b g * b g - o g * o g)) in *. set (q' := sqrt (b g' * b g' - o g' * o g')) in *.
  assert (N : forall k, vnorm (vscale k e) = Rabs k).
  { intros k. unfold vnorm. rewrite vdot_scale_l, vdot_scale_r, e_dot. replace (k * (k * 1)) with (k * k) by ring. apply sqrt_Rsqr_abs. }
  assert (D1 : distance (vsub g (back g)) (vsub g' (back g')) = Rabs ((b g - q) - (b g' - q'))).
  { rewrite distance_eq, <- N. f_equal. unfold back. fold q q'. apply vec_eq; cbn; ring. }
  assert (D2 : distance g g' = Rabs (t - t')) by (rewrite distance_eq, <- N; f_equal; unfold g, g'; apply vec_eq; cbn; ring).
  rewrite D1, D2. set (c := vdot e s) in *.
  assert (C : Rabs c <= 1).
  { assert (Q : c * c <= 1).
    { pose proof (lagrange e s) as Lg. rewrite e_dot, s_dot in Lg. pose proof (vdot_pos (vcross e s)). fold c in Lg. lra. }
    apply Rabs_le. nra. }
  (* the difference is (t - t') times a small factor *)
  set (k := (c * (o g + o g') - (b g - q) - (b g' - q')) / (q + q')).
  assert (K : (b g - q) - (b g' - q') = (t - t') * k).
  { unfold k. apply (Rmult_eq_reg_r (q + q')); [|lra]. replace ((t - t') * ((c * (o g + o g') - (b g - q) - (b g' - q')) / (q + q')) * (q + q')) with ((t - t') * (c * (o g + o g') - (b g - q) - (b g' - q'))) by (field; lra).
    replace ((b g - q - (b g' - q')) * (q + q')) with ((b g - b g') * (q + q') - (q * q - q' * q')) by ring. rewrite Q3, Q3', B, B', O, O'. ring. }
  rewrite K, Rabs_mult, Rmult_comm. apply Rmult_le_compat_r; [apply Rabs_pos|].
  unfold k, Rdiv. rewrite Rabs_mult, (Rabs_right (/ (q + q'))) by (apply Rle_ge, Rlt_le, Rinv_0_lt_compat; lra).
  apply (Rmult_le_reg_r (q + q')); [lra|]. rewrite Rmult_assoc, Rinv_l by lra. rewrite Rmult_1_r.
  assert (E1 : Rabs (c * (o g + o g')) <= 0.12 * (b g + b g')).
  { rewrite Rabs_mult. apply Rle_trans with (1 * Rabs (o g + o g')); [apply Rmult_le_compat_r; [apply Rabs_pos|exact C]|].
    pose proof (Rabs_triang (o g) (o g')). lra. }
  assert (E2 : forall x y z, 0 < x -> Rabs y <= 0.12 * x -> 0.99 * x <= z -> y * y / (x + z) <= 0.0144 * x / 1.99).
  { intros x y z X Y Z. assert (Y2 : y * y <= 0.0144 * (x * x)).
    { rewrite <- (Rabs_right (y * y)) by nra. rewrite Rabs_mult. pose proof (Rabs_pos y). nra. }
    apply (Rmult_le_reg_r (x + z)); [lra|]. replace (y * y / (x + z) * (x + z)) with (y * y) by (field; lra). nra. }
  pose proof (E2 _ _ q B0 O2 (proj1 Q1)) as E3. pose proof (E2 _ _ q' B0' O2' (proj1 Q1')) as E4. rewrite <- Q2 in E3. rewrite <- Q2' in E4.
  pose proof (Rle_abs (c * (o g + o g'))) as A1. pose proof (Rle_abs (- (c * (o g + o g')))) as A2. rewrite Rabs_Ropp in A2. apply Rabs_le. lra.
Qed.

(** The error at the start. *)
Lemma first_error : distance scene (back scene) <= o scene * o scene / b scene.
Proof.
  assert (S0 : Rabs (o scene) <= 0.12 * b scene) by (pose proof (Rabs_pos (o scene)); lra).
  destruct (short_by (b scene) (o scene) Bs S0) as (Q1 & Q2 & Q3). set (q := sqrt (b scene * b scene - o scene * o scene)) in *.
  assert (E : distance scene (back scene) = b scene - q).
  { rewrite distance_eq. replace (vsub scene (back scene)) with (vscale (b scene - q) e) by (unfold back; fold q; apply vec_eq; cbn; ring).
    unfold vnorm. rewrite vdot_scale_l, vdot_scale_r, e_dot. replace ((b scene - q) * ((b scene - q) * 1)) with ((b scene - q) * (b scene - q)) by ring. apply sqrt_square. lra. }
  rewrite E, Q2. apply Rmult_le_compat_l; [nra|]. apply Rinv_le_contravar; lra.
Qed.
End Stare.
(** *** Documents *)

Lemma height_dot ref n p : height_over ref n p = vdot (vsub p ref) (normalised n).
Proof.
  unfold height_over, normalised, vnorm, vdot. cbn. unfold Rdiv.
  replace (vx n * (vx n * 1) + vy n * (vy n * 1) + vz n * (vz n * 1)) with (vx n * vx n + vy n * vy n + vz n * vz n) by ring. ring.
Qed.
Lemma normalised_unit n : n <> vzero -> unit (normalised n).
Proof.
  intros N. pose proof (vnorm_pos_iff _ N) as P. apply unit_dot. unfold normalised. rewrite vdot_scale_l, vdot_scale_r, <- (vnorm_sqr n). field. lra.
Qed.
Lemma normalised_dot n x : n <> vzero -> vdot x n = 0 -> vdot x (normalised n) = 0.
Proof. intros _ E. unfold normalised. rewrite vdot_scale_r, E. ring. Qed.

(** The place of a pixel under a ground point is its foot in the slant plane. *)
Lemma place_is_foot scp n g p k : n <> vzero -> vdot (vsub p scp) n = 0 -> p = raised g n k -> p = slant_foot scp (normalised n) g.
Proof.
  intros N O E. pose proof (vnorm_pos_iff _ N) as P. pose proof (vnorm_sqr n) as Q.
  assert (R : p = vadd g (vscale k n)) by (rewrite E; unfold raised; apply vec_eq; cbn; ring).
  assert (K : k = - (vdot (vsub g scp) n / (vnorm n * vnorm n))).
  { rewrite R in O. replace (vsub (vadd g (vscale k n)) scp) with (vadd (vsub g scp) (vscale k n)) in O by (apply vec_eq; cbn; ring).
    rewrite vdot_add_l, vdot_scale_l, <- Q in O. apply (Rmult_eq_reg_r (vnorm n * vnorm n)); [|nra].
    replace (- (vdot (vsub g scp) n / (vnorm n * vnorm n)) * (vnorm n * vnorm n)) with (- vdot (vsub g scp) n) by (field; lra). lra. }
  rewrite R. unfold slant_foot, normalised. rewrite vdot_scale_r, K. apply vec_eq; cbn; field; lra.
Qed.

Section Document.
Context (tg : Vec -> Geodetic) (tc : Geodetic -> Vec) (d : SicdMeta) (m : Sicd) (v : R -> Vec) (t : R).
Hypothesis Us : usable_sicd d.
Hypothesis Bd : sicd_build d = Some (Complete m).
Hypothesis Hv : forall t, velocity_at (trajectory d) t (v t).
Hypothesis St : staring d v t.
Let a := trajectory d t.
Let n := surface_normal tg d.
Let scp := scp_position d.
Let s := normalised (slant_normal d).
Hypothesis Sd : side_of n a (v t) scp <> 0.
Hypothesis Ab : 0 <= height_over scp n a.

Lemma slant_not_zero : slant_normal d <> vzero.
Proof. destruct Us as (_ & _ & _ & _ & _ & _ & N). intros E. apply N. rewrite E. unfold vdot, vzero. cbn. ring. Qed.
Lemma normal_unit : unit n.
Proof.
  destruct St as ((G1 & _) & _). unfold n, surface_normal. destruct (grid_type d); try contradiction; apply unit_dot; apply (up_unit (tg (scp_position d))).
Qed.
Lemma slant_across : vdot s (v t) = 0 /\ vdot (vsub scp a) s = 0.
Proof.
  destruct St as (_ & _ & A & V & _). unfold s, a, scp. rewrite <- A, <- V. split.
  - rewrite vdot_comm. apply normalised_dot; [apply slant_not_zero|]. unfold slant_normal. rewrite vdot_comm. apply vdot_cross_l.
  - apply normalised_dot; [apply slant_not_zero|]. unfold slant_normal. rewrite vdot_comm. apply vdot_cross_r.
Qed.
Lemma place_in_slant_plane xy : vdot (vsub (plane_point scp (row_uvect d) (col_uvect d) xy) scp) (slant_normal d) = 0.
Proof.
  destruct St as (_ & _ & _ & _ & P1 & P2). apply (proj1 (perp_dot _ _)) in P1. apply (proj1 (perp_dot _ _)) in P2.
  replace (vsub (plane_point scp (row_uvect d) (col_uvect d) xy) scp) with (vadd (vscale (fst xy) (row_uvect d)) (vscale (snd xy) (col_uvect d))) by (unfold plane_point; apply vec_eq; cbn; ring).
  rewrite vdot_add_l, !vdot_scale_l, P1, P2. ring.
Qed.
Lemma grid_foot g : plane_point scp (row_uvect d) (col_uvect d) (project_to_grid m g) = slant_foot scp s g.
Proof.
  destruct (sicd_projects d m Us Bd) as (Rs & Cs & GL & Pr). set (i := to_pixel m (project_to_grid m g)).
  assert (E : project_to_grid m g = grid_metres d (ix i) (iy i)) by (rewrite <- GL; symmetry; now apply grid_of_pixel).
  destruct (proj2 (Pr g i) E) as (k & K). rewrite E. apply (place_is_foot _ _ _ _ k); [apply slant_not_zero|apply place_in_slant_plane|]. exact K.
Qed.

Context (e : Vec) (k : R).
Hypothesis Ue : unit e.
Hypothesis En : vdot e n = 0.
Hypothesis Ev : vdot e (v t) = 0.
Hypothesis K0 : 0 < Rabs k.
Hypothesis Kq : forall q, side_of n a (v t) q = k * vdot (vsub q a) e.
Hypothesis Fr : 0 < vdot (vsub scp a) e.

Lemma stare_grounds g : on_plane scp n g -> let b := vdot (vsub g a) e in let o := vdot (vsub g scp) s in 0 < b -> o * o < b * b ->
  ground_of tg m (project_to_grid m g) = Ok (Some (back scp s a e g)).
Proof.
  intros O b o B0 H. destruct slant_across as (Sv & Sa). pose proof (normalised_unit _ slant_not_zero) as U1. fold s in U1. pose proof normal_unit as Un. pose proof St as (Pl & Co & _).
  assert (N0 : n <> vzero) by (intros E; pose proof Un as U; rewrite E in U; unfold unit in U; cbn in U; lra).
  assert (Nn : normalised n = n) by (apply normalised_of_unit; apply unit_dot; exact Un).
  pose proof (on_plane_eq scp n g) as OE. apply OE in O. clear OE.
  pose proof (planar_grounds tg d m v (project_to_grid m g) (back scp s a e g) Pl Us Bd Hv) as X. cbv zeta in X. rewrite Co in X. fold n a scp in X. rewrite grid_foot in X.
  apply X.
  - exact Sd.
  - split; [exact Ab|]. rewrite height_dot, Nn in *. apply (foot_above scp n s a e); assumption.
  - apply on_plane_eq. apply back_plane; assumption.
  - apply (same_distance scp s a e); try assumption. fold b o. lra.
  - rewrite (back_rate scp s a (v t) e), (foot_rate scp s a (v t)); auto.
  - rewrite !Kq, (back_side scp s a e) by assumption. fold b o.
    replace (k * sqrt (b * b - o * o) * (k * vdot (vsub scp a) e)) with (k * k * (sqrt (b * b - o * o) * vdot (vsub scp a) e)) by ring.
    apply Rmult_le_pos; [nra|]. apply Rmult_le_pos; [apply sqrt_pos|lra].
Qed.

(** A scene point ten times farther to the side of the track than off the slant plane. *)
Context (scene : Vec).
Let off := vdot (vsub scene scp) s.
Let aside := vdot (vsub scene a) e.
Hypothesis Os : on_plane scp n scene.
Hypothesis As : 0 < aside.
Hypothesis Hs : 10 * Rabs off <= aside.

Lemma visited_grounds g : visited scp s e scene g ->
  ground_of tg m (project_to_grid m g) = Ok (Some (back scp s a e g)).
Proof.
  intros (x & X & ->). pose proof (normalised_unit _ slant_not_zero) as U1.
  destruct (visited_parts scp s a e scene U1 Ue Hs As x X) as (B & _ & _ & O2 & B0). cbv zeta in *.
  apply stare_grounds; [|exact B0|].
  - apply (proj1 (on_plane_eq _ _ _)) in Os. apply on_plane_eq.
    replace (vsub (vadd scene (vscale x e)) scp) with (vadd (vsub scene scp) (vscale x e)) by (apply vec_eq; cbn; ring). rewrite vdot_add_l, vdot_scale_l, En, Os. ring.
  - set (o := vdot (vsub (vadd scene (vscale x e)) scp) s) in *. set (b := vdot (vsub (vadd scene (vscale x e)) a) e) in *.
    rewrite <- (Rabs_right (o * o)) by nra. rewrite Rabs_mult. pose proof (Rabs_pos o). nra.
Qed.

Lemma stare_finds w : tc w = scene -> exists i g, sicd_world_to_image tg tc m w = Ok i /\ visited scp s e scene g /\
  grid_location m i = project_to_grid m g /\ sicd_image_to_world tg tc m i None = Ok (Some (tg (back scp s a e g))) /\
  distance scene (back scp s a e g) <= off * off / aside /\
  (distance scene (back scp s a e g) <= 0.01 \/ distance scene (back scp s a e g) <= (1 / 7) ^ 9 * (off * off / aside)) /\
  forall x, visited scp s e scene x -> back scp s a e x = scene -> distance g x <= distance scene (back scp s a e g) / (1 - 1 / 7).
Proof.
  intros W. pose proof (normalised_unit _ slant_not_zero) as U1.
  destruct (sicd_projects d m Us Bd) as (Rs & Cs & _).
  assert (D0 : visited scp s e scene scene).
  { exists 0. split; [pose proof (Rabs_pos off); fold off; lra|]. apply vec_eq; cbn; ring. }
  destruct (C91_converges tg tc m w (visited scp s e scene) (back scp s a e) (1 / 7) Rs Cs) as (i & j & g & I & J & Dg & Gi & Li & B & T & _ & X).
  - lra.
  - rewrite W. exact D0.
  - apply visited_grounds.
  - rewrite W. intros g. apply back_stays; assumption.
  - apply back_translates; assumption.
  - rewrite W in *. exists i, g. pose proof (first_error scp s a e scene Ue Hs As) as E. fold off aside in E.
    assert (Z : 0 <= off * off / aside) by (apply Rmult_le_pos; [nra|apply Rlt_le, Rinv_0_lt_compat, As]).
    split; [exact I|]. split; [exact Dg|]. split; [exact Gi|]. split; [exact Li|]. split; [|split; [|exact X]].
    + eapply Rle_trans; [exact B|]. eapply Rle_trans; [|exact E]. rewrite <- (Rmult_1_l (distance scene (back scp s a e scene))) at 2.
      apply Rmult_le_compat_r; [apply distance_pos|]. assert (Q : (1 / 7) ^ (j - 1) <= 1 ^ (j - 1)) by (apply pow_incr; lra). rewrite pow1 in Q. exact Q.
    + destruct (Nat.lt_ge_cases j 10) as [L|L]; [left; now apply T|]. right. assert (j = 10%nat) as -> by lia.
      eapply Rle_trans; [exact B|]. apply Rmult_le_compat_l; [apply pow_le; lra|exact E].
Qed.
End Document.

(** *** The search *)

Lemma aside_is n a v p q e k : vnorm (vcross v n) = Rabs k -> (forall q, side_of n a v q = k * vdot (vsub q a) e) -> 0 < Rabs k ->
  0 < vdot (vsub p a) e -> 0 < side_of n a v q * side_of n a v p -> 0 < vdot (vsub q a) e /\ off_track n a v q = vdot (vsub q a) e.
Proof.
  intros K Kq K0 P S. rewrite !Kq in S. set (x := vdot (vsub q a) e) in *. set (y := vdot (vsub p a) e) in *.
  assert (Kk : 0 < k * k) by (rewrite <- (Rabs_right (k * k)) by nra; rewrite Rabs_mult; nra).
  assert (X : 0 < x). { apply (Rmult_lt_reg_r (k * k * y)); [nra|]. rewrite Rmult_0_l. replace (x * (k * k * y)) with (k * x * (k * y)) by ring. exact S. }
  split; [exact X|]. unfold off_track. rewrite Kq, K. fold x. rewrite Rabs_mult, (Rabs_right x) by lra. field. lra.
Qed.

(** In a staring image every point of the ground plane that is ten times farther to the side of the
    track than off the slant plane is found within a centimetre, and no farther than off^2 / aside. *)
Theorem C106_found :
  forall to_geodetic to_geocentric (d : SicdMeta) (m : Sicd) (v : R -> Vec) (t : R) (w : Geodetic),
  usable_sicd d -> sicd_build d = Some (Complete m) -> (forall t, velocity_at (trajectory d) t (v t)) -> staring d v t ->
  let a := trajectory d t in let n := surface_normal to_geodetic d in let scp := scp_position d in let scene := to_geocentric w in
  let off := height_over scp (slant_normal d) scene in let aside := off_track n a (v t) scene in
  on_plane scp n scene -> 0 < side_of n a (v t) scene * side_of n a (v t) scp -> 0 <= height_over scp n a ->
  10 * Rabs off <= aside -> Rabs off <= 4000000 ->
  exists i p, sicd_world_to_image to_geodetic to_geocentric m w = Ok i /\
  sicd_image_to_world to_geodetic to_geocentric m i None = Ok (Some (to_geodetic p)) /\
  distance scene p <= 0.01 /\ distance scene p <= off * off / aside.
Proof.
  intros tg tc d m v t w U B Hv St a n scp scene off aside O S Ab H Far.
  assert (Sp : side_of n a (v t) scp <> 0) by (intros E; rewrite E in S; lra).
  assert (Un : unit n) by (eapply normal_unit; exact St).
  destruct (sideways n a (v t) scp Un Sp) as (e & k & Ue & En & Ev & K0 & K & P & Kq).
  destruct (aside_is n a (v t) scp scene e k (eq_sym K) Kq K0 P S) as (As & Ea). fold aside in Ea. unfold off in *. clear off. rewrite (height_dot scp (slant_normal d) scene) in *.
  rewrite Ea in *. clear Ea.
  destruct (stare_finds tg tc d m v t U B Hv St Sp Ab e k Ue En Ev Kq P scene O As H w eq_refl) as (i & g & I & _ & _ & L & D1 & D2 & _).
  exists i, (back scp (normalised (slant_normal d)) a e g). split; [exact I|]. split; [exact L|]. split; [|exact D1].
  destruct D2 as [D2|D2]; [exact D2|]. eapply Rle_trans; [exact D2|]. fold scp a. set (o := vdot (vsub scene scp) (normalised (slant_normal d))) in *. set (x := vdot (vsub scene a) e) in *.
  assert (Q : o * o / x <= 400000).
  { apply (Rmult_le_reg_r x); [exact As|]. replace (o * o / x * x) with (o * o) by (field; lra).
    rewrite <- (Rabs_right (o * o)) by nra. rewrite Rabs_mult. pose proof (Rabs_pos o). nra. }
  simpl. lra.
Qed.
Print Assumptions C106_found.

(** *** The round trip *)

(** Directions at right angles to two others are all parallel. *)
Lemma third_axis v s x : vdot x v = 0 -> vdot x s = 0 -> let w := vcross v s in vscale (vdot w w) x = vscale (vdot x w) w.
Proof.
  intros V S w.
  assert (I : vcross w (vcross x w) = vsub (vscale (vdot w w) x) (vscale (vdot x w) w)) by (apply vec_eq; unfold vdot; cbn; ring).
  assert (J : vcross x w = vsub (vscale (vdot x s) v) (vscale (vdot x v) s)) by (apply vec_eq; unfold w, vdot; cbn; ring).
  rewrite J, V, S in I. apply vec_eq; [apply (f_equal vx) in I|apply (f_equal vy) in I|apply (f_equal vz) in I]; cbn in *; lra.
Qed.

Lemma side_dot n a v p : side_of n a v p = - vdot (vsub p a) (vcross v n).
Proof. unfold side_of, vdot. cbn. ring. Qed.

(** The ground point whose foot in the slant plane is the place of the pixel: a little beyond the
    located point. *)
Lemma beyond scp s a v e q p : unit s -> unit e -> vdot e v = 0 -> vdot s v = 0 -> vdot (vsub scp a) s = 0 ->
  let o := vdot (vsub q scp) s in let b := vdot (vsub q a) e in
  0 < b -> 10 * Rabs o <= b ->
  vdot (vsub p scp) s = 0 -> vdot v (vsub a p) = vdot v (vsub a q) -> distance a p = distance a q ->
  0 < vdot (vsub scp a) e -> 0 < vdot (vsub p a) (vcross v s) * vdot (vsub scp a) (vcross v s) ->
  exists x, 0 <= x <= Rabs o / 5 /\ slant_foot scp s (vadd q (vscale x e)) = p.
Proof.
  intros Us Ue Ev Sv As o b B H Pp Pv Pd Es Sd. apply (proj1 (unit_dot _)) in Us. apply (proj1 (unit_dot _)) in Ue.
  set (w := vcross v s) in *. set (c := vdot e s). set (f := slant_foot scp s q).
  assert (Fq : q = vadd f (vscale o s)) by (unfold f, slant_foot; fold o; apply vec_eq; cbn; ring).
  assert (Ws : vdot w s = 0) by (unfold w; apply vdot_cross_r).
  assert (W0 : 0 < vdot w w).
  { destruct (Rle_lt_or_eq_dec _ _ (vdot_pos w)) as [|E]; [assumption|]. exfalso. symmetry in E. apply vdot_zero in E. rewrite E in Sd. unfold vdot in Sd. cbn in Sd. lra. }
  assert (E1 : vscale (vdot w w) (vsub e (vscale c s)) = vscale (vdot e w) w).
  { replace (vdot e w) with (vdot (vsub e (vscale c s)) w) by (rewrite vdot_sub_l, vdot_scale_l, (vdot_comm s w), Ws; ring).
    apply third_axis; rewrite vdot_sub_l, vdot_scale_l; [rewrite Ev, Sv; ring|rewrite Us; unfold c; ring]. }
  assert (Fs : vdot (vsub f scp) s = 0).
  { unfold f, slant_foot. fold o. replace (vsub (vsub q (vscale o s)) scp) with (vsub (vsub q scp) (vscale o s)) by (apply vec_eq; cbn; ring). rewrite vdot_sub_l, vdot_scale_l, Us. fold o. ring. }
  assert (Fv : vdot v (vsub a f) = vdot v (vsub a q)).
  { unfold f, slant_foot. replace (vsub a (vsub q (vscale (vdot (vsub q scp) s) s))) with (vadd (vsub a q) (vscale (vdot (vsub q scp) s) s)) by (apply vec_eq; cbn; ring).
    rewrite vdot_add_r, vdot_scale_r, (vdot_comm v s), Sv. ring. }
  assert (E2 : vscale (vdot w w) (vsub p f) = vscale (vdot (vsub p f) w) w).
  { apply third_axis.
    - replace (vsub p f) with (vsub (vsub a f) (vsub a p)) by (apply vec_eq; cbn; ring). rewrite vdot_sub_l, (vdot_comm (vsub a f)), (vdot_comm (vsub a p)). lra.
    - replace (vsub p f) with (vsub (vsub p scp) (vsub f scp)) by (apply vec_eq; cbn; ring). rewrite vdot_sub_l. lra. }
  set (W := vdot w w) in *. set (be := vdot e w / W). set (al := vdot (vsub p f) w / W). clearbody f.
  assert (E3 : e = vadd (vscale be w) (vscale c s)).
  { apply vec_eq; [apply (f_equal vx) in E1|apply (f_equal vy) in E1|apply (f_equal vz) in E1]; cbn in *; unfold be; apply (Rmult_eq_reg_l W); try lra; field_simplify; lra. }
  assert (E4 : p = vadd f (vscale al w)).
  { apply vec_eq; [apply (f_equal vx) in E2|apply (f_equal vy) in E2|apply (f_equal vz) in E2]; cbn in *; unfold al; apply (Rmult_eq_reg_l W); try lra; field_simplify; lra. }
  assert (Fa : vdot (vsub f a) s = 0).
  { replace (vsub f a) with (vadd (vsub f scp) (vsub scp a)) by (apply vec_eq; cbn; ring). rewrite vdot_add_l. lra. }
  set (la := vdot (vsub f a) w).
  assert (B1 : b = be * la + o * c).
  { unfold b. rewrite Fq. replace (vsub (vadd f (vscale o s)) a) with (vadd (vsub f a) (vscale o s)) by (apply vec_eq; cbn; ring).
    rewrite E3, !vdot_add_l, !vdot_add_r, !vdot_scale_l, !vdot_scale_r, Fa, Us, (vdot_comm s w), Ws. fold la. ring. }
  assert (B2 : vdot (vsub scp a) e = be * vdot (vsub scp a) w) by (rewrite E3 at 1; rewrite vdot_add_r, !vdot_scale_r, As; ring).
  assert (B3 : vdot (vsub p a) w = la + al * W).
  { rewrite E4. replace (vsub (vadd f (vscale al w)) a) with (vadd (vsub f a) (vscale al w)) by (apply vec_eq; cbn; ring). rewrite vdot_add_l, vdot_scale_l. reflexivity. }
  assert (B4 : be * be * W = 1 - c * c).
  { assert (X : vdot e e = be * be * W + c * c).
    { rewrite E3 at 1 2. rewrite !vdot_add_l, !vdot_add_r, !vdot_scale_l, !vdot_scale_r, Us, (vdot_comm s w), Ws. fold W. ring. }
    rewrite Ue in X. lra. }
  assert (B5 : 2 * al * la + al * al * W = o * o).
  { assert (D1 : vdot (vsub p a) (vsub p a) = vdot (vsub f a) (vsub f a) + 2 * al * la + al * al * W).
    { rewrite E4. replace (vsub (vadd f (vscale al w)) a) with (vadd (vsub f a) (vscale al w)) by (apply vec_eq; cbn; ring).
      rewrite !vdot_add_l, !vdot_add_r, !vdot_scale_l, !vdot_scale_r, (vdot_comm w (vsub f a)). fold la W. ring. }
    assert (D2 : vdot (vsub q a) (vsub q a) = vdot (vsub f a) (vsub f a) + o * o).
    { rewrite Fq. replace (vsub (vadd f (vscale o s)) a) with (vadd (vsub f a) (vscale o s)) by (apply vec_eq; cbn; ring).
      rewrite !vdot_add_l, !vdot_add_r, !vdot_scale_l, !vdot_scale_r, (vdot_comm s (vsub f a)), Fa, Us. ring. }
    assert (D3 : vdot (vsub p a) (vsub p a) = vdot (vsub q a) (vsub q a)).
    { replace (vdot (vsub p a) (vsub p a)) with (vdot (vsub a p) (vsub a p)) by (unfold vdot; cbn; ring).
      replace (vdot (vsub q a) (vsub q a)) with (vdot (vsub a q) (vsub a q)) by (unfold vdot; cbn; ring).
      rewrite <- !vnorm_sqr, <- !distance_eq, Pd. reflexivity. }
    lra. }
  assert (C1 : Rabs c <= 1).
  { assert (Q : c * c <= 1) by nra. apply Rabs_le. nra. }
  assert (O1 : o * c <= Rabs o).
  { eapply Rle_trans; [apply Rle_abs|]. rewrite Rabs_mult. pose proof (Rabs_pos o). nra. }
  rewrite B2 in Es. rewrite B3 in Sd. set (ls := vdot (vsub scp a) w) in *.
  assert (Bz : be <> 0) by (intros Z; rewrite Z in Es; lra).
  assert (P0 : 0 < be * (la + al * W)).
  { apply (Rmult_lt_reg_r (be * ls)); [exact Es|]. rewrite Rmult_0_l. replace (be * (la + al * W) * (be * ls)) with (be * be * ((la + al * W) * ls)) by ring.
    apply Rmult_lt_0_compat; [nra|exact Sd]. }
  set (x := al / be). set (S := be * la) in *. set (ka := be * be * W) in *.
  assert (Q1 : x * (2 * S + x * ka) = o * o) by (rewrite <- B5; unfold x, S, ka; field; exact Bz).
  assert (Q2 : 0 < S + x * ka) by (replace (S + x * ka) with (be * (la + al * W)) by (unfold x, S, ka; field; exact Bz); exact P0).
  assert (S0 : 9 * Rabs o <= S /\ 0 < S) by (split; lra).
  assert (Oo : o * o = Rabs o * Rabs o) by (rewrite <- Rabs_mult, Rabs_right by nra; reflexivity).
  pose proof (Rabs_pos o) as Op. exists x. split.
  - assert (X0 : 0 <= x). { destruct (Rle_or_lt 0 x) as [|N]; [assumption|]. exfalso. assert (x * (2 * S + x * ka) < 0) by nra. nra. }
    split; [exact X0|]. destruct (Rle_or_lt x (Rabs o / 5)) as [|N]; [assumption|]. exfalso.
    assert (Y : Rabs o / 5 * S < x * S) by (apply Rmult_lt_compat_r; lra). assert (Z : x * S <= x * (2 * S + x * ka)) by (apply Rmult_le_compat_l; lra). nra.
  - replace p with (vadd f (vscale x (vsub e (vscale c s)))).
    + rewrite Fq. unfold slant_foot. replace (vsub (vadd (vadd f (vscale o s)) (vscale x e)) scp) with (vadd (vadd (vsub f scp) (vscale o s)) (vscale x e)) by (apply vec_eq; cbn; ring).
      rewrite !vdot_add_l, !vdot_scale_l, Fs, Us. fold c. apply vec_eq; cbn; ring.
    + rewrite E4. replace (vsub e (vscale c s)) with (vscale be w) by (rewrite E3 at 1; apply vec_eq; cbn; ring). unfold x. apply vec_eq; cbn; field; exact Bz.
Qed.
(** What C83 says of planar images. *)
Lemma planar_located tg tc d m v i g : planar d -> usable_sicd d -> sicd_build d = Some (Complete m) -> (forall t, velocity_at (trajectory d) t (v t)) ->
  let t := coa_instant d (grid_metres d (ix i) (iy i)) in let n := surface_normal tg d in let a := trajectory d t in
  side_of n a (v t) (scp_position d) <> 0 -> sicd_image_to_world tg tc m i None = Ok (Some g) ->
  exists q, g = tg q /\ on_plane (scp_position d) n q /\ distance a q = distance a (sicd_place d i) /\ range_rate a (v t) q = range_rate a (v t) (sicd_place d i).
Proof.
  intros (G1 & G2) (Pm & _) B Hv t n a S L.
  destruct (C83_ground tg tc d (Complete m) i g v Pm B Hv S L) as (q & r & rd & E & M & O & D & Rr & _). exists q. split; [exact E|]. split; [exact O|].
  unfold measured in M. cbv zeta in M. fold t a (sicd_place d i) in M.
  assert (X : r = distance a (sicd_place d i) /\ rd = range_rate a (v t) (sicd_place d i)) by (destruct (grid_type d); try contradiction; exact M).
  destruct X as (<- & <-). split; [exact D|exact Rr].
Qed.

(** Places in the slant plane are no farther apart than the ground points above them. *)
Lemma foot_shrinks scp s g x : unit s -> distance (slant_foot scp s g) (slant_foot scp s x) <= distance g x.
Proof.
  intros Us. apply (proj1 (unit_dot _)) in Us. rewrite !distance_eq. apply Rsqr_incr_0_var; [|apply vnorm_pos]. unfold Rsqr. rewrite !vnorm_sqr.
  set (z := vsub g x). replace (vsub (slant_foot scp s g) (slant_foot scp s x)) with (vsub z (vscale (vdot z s) s)) by (unfold slant_foot, z; apply vec_eq; unfold vdot; cbn; ring).
  rewrite !vdot_sub_l, !vdot_sub_r, !vdot_scale_l, !vdot_scale_r, Us, (vdot_comm s z). nra.
Qed.

(** A pixel of a staring image that is on the scene centre's side of the track is found again: what
    is returned for its ground point is within 12 millimetres in the image plane. *)
Theorem C106_round_trip :
  forall to_geodetic to_geocentric (d : SicdMeta) (m : Sicd) (v : R -> Vec) (t : R) (i : Image) (g : Geodetic),
  usable_sicd d -> sicd_build d = Some (Complete m) -> (forall t, velocity_at (trajectory d) t (v t)) -> staring d v t ->
  (forall p, to_geocentric (to_geodetic p) = p) -> sicd_image_to_world to_geodetic to_geocentric m i None = Ok (Some g) ->
  let a := trajectory d t in let n := surface_normal to_geodetic d in let scp := scp_position d in let scene := to_geocentric g in
  let off := height_over scp (slant_normal d) scene in let aside := off_track n a (v t) scene in
  0 < side_of n a (v t) scene * side_of n a (v t) scp -> 0 <= height_over scp n a ->
  0 < side_of (slant_normal d) a (v t) (sicd_place d i) * side_of (slant_normal d) a (v t) scp ->
  10 * Rabs off <= aside -> Rabs off <= 4000000 ->
  exists j, sicd_world_to_image to_geodetic to_geocentric m g = Ok j /\ distance (sicd_place d j) (sicd_place d i) <= 0.012.
Proof.
  intros tg tc d m v t i g U B Hv St RT Lo a n scp scene off aside S Ab Ss H Far.
  assert (Sp : side_of n a (v t) scp <> 0) by (intros E; rewrite E in S; lra).
  assert (Un : unit n) by (eapply normal_unit; exact St).
  destruct (sideways n a (v t) scp Un Sp) as (e & k & Ue & En & Ev & K0 & K & P & Kq).
  destruct (aside_is n a (v t) scp scene e k (eq_sym K) Kq K0 P S) as (As & Ea). fold aside in Ea. unfold off in *. clear off. rewrite (height_dot scp (slant_normal d) scene) in *.
  rewrite Ea in *. clear Ea. pose proof St as (Pl & Co & _).
  pose proof (planar_located tg tc d m v i g Pl U B Hv) as X. cbv zeta in X. rewrite Co in X. destruct (X Sp Lo) as (q & -> & O & D & Rr). clear X.
  assert (Q : scene = q) by apply RT. rewrite <- Q in *. fold n a scp in O, D, Rr.
  destruct (stare_finds tg tc d m v t U B Hv St Sp Ab e k Ue En Ev Kq P scene O As H (tg q) (eq_trans (RT q) (eq_sym Q))) as (j & g & I & Vg & Gj & _ & _ & D2 & N).
  fold scp a in Vg, D2, N. set (s := normalised (slant_normal d)) in *. pose proof (slant_not_zero d U) as Nz. pose proof (normalised_unit _ Nz) as U1. fold s in U1.
  destruct (slant_across d v t U St) as (Sv & Sa). fold s scp a in Sv, Sa.
  exists j. split; [rewrite <- Q in I; exact I|].
  assert (Dq : distance scene (back scp s a e g) <= 0.01).
  { destruct D2 as [D2|D2]; [exact D2|]. eapply Rle_trans; [exact D2|]. set (o := vdot (vsub scene scp) s) in *. set (x := vdot (vsub scene a) e) in *.
    assert (Z : o * o / x <= 400000).
    { apply (Rmult_le_reg_r x); [exact As|]. replace (o * o / x * x) with (o * o) by (field; lra).
      rewrite <- (Rabs_right (o * o)) by nra. rewrite Rabs_mult. pose proof (Rabs_pos o). nra. }
    simpl. lra. }
  assert (Pi : vdot (vsub (sicd_place d i) scp) s = 0) by (apply normalised_dot; [exact Nz|]; eapply place_in_slant_plane; exact St).
  assert (A0 : 0 < distance a scene).
  { rewrite distance_eq. apply vnorm_pos_iff. intros Z. replace (vsub scene a) with (vscale (-1) (vsub a scene)) in As by (apply vec_eq; cbn; ring). rewrite Z in As. unfold vdot in As. cbn in As. lra. }
  assert (Rv : vdot (v t) (vsub a (sicd_place d i)) = vdot (v t) (vsub a scene)).
  { rewrite !range_rate_eq, <- !distance_eq, <- D in Rr. apply (Rmult_eq_reg_r (/ distance a scene)); [symmetry; exact Rr|apply Rinv_neq_0_compat; lra]. }
  assert (Sl : 0 < vdot (vsub (sicd_place d i) a) (vcross (v t) s) * vdot (vsub scp a) (vcross (v t) s)).
  { rewrite !side_dot in Ss. pose proof (vnorm_pos_iff _ Nz) as Pn. unfold s, normalised.
    replace (vcross (v t) (vscale (/ vnorm (slant_normal d)) (slant_normal d))) with (vscale (/ vnorm (slant_normal d)) (vcross (v t) (slant_normal d))) by (apply vec_eq; cbn; ring).
    rewrite !vdot_scale_r. pose proof (Rinv_0_lt_compat _ Pn). set (y := vdot (vsub (sicd_place d i) a) _) in *. set (z := vdot (vsub scp a) _) in *. set (r := / vnorm _) in *.
    replace (r * y * (r * z)) with (r * r * (- y * - z)) by ring. apply Rmult_lt_0_compat; [nra|exact Ss]. }
  destruct (beyond scp s a (v t) e scene (sicd_place d i) U1 Ue Ev Sv Sa As H Pi Rv (eq_sym D) P Sl) as (x & Xr & Xf).
  set (g0 := vadd scene (vscale x e)) in *. assert (V0 : visited scp s e scene g0) by (exists x; split; [exact Xr|reflexivity]).
  destruct (sicd_projects d m U B) as (Rs & Cs & GL & Pr).
  assert (Pg : forall y, plane_point scp (row_uvect d) (col_uvect d) (project_to_grid m y) = slant_foot scp s y) by (intros y; eapply grid_foot; eassumption).
  assert (Gi : project_to_grid m g0 = grid_metres d (ix i) (iy i)).
  { apply Pr. exists (- vdot (vsub g0 scp) s * / vnorm (slant_normal d)). rewrite <- Xf. unfold slant_foot, raised, s, normalised. apply vec_eq; cbn; ring. }
  assert (F0 : back scp s a e g0 = scene).
  { pose proof (visited_grounds tg d m v t U B Hv St Sp Ab e k Ue En Ev Kq P scene O As H g0 V0) as G. rewrite Gi, <- GL in G.
    unfold sicd_image_to_world in Lo. unfold ground_of in G. rewrite G in Lo. cbn in Lo. injection Lo as Lo. fold scp a s in Lo.
    rewrite <- (RT (back scp s a e g0)), Lo. apply RT. }
  pose proof (N g0 V0 F0) as Nx. unfold sicd_place at 1. fold scp. rewrite <- GL, Gj, Pg, <- Xf.
  eapply Rle_trans; [apply foot_shrinks; exact U1|]. eapply Rle_trans; [exact Nx|]. lra.
Qed.
Print Assumptions C106_round_trip.

(** *** Images in the ground plane *)

Lemma to_pixel_of_grid m i : row_ss (converter m) <> 0 -> col_ss (converter m) <> 0 -> to_pixel m (grid_location m i) = i.
Proof. intros Rs Cs. unfold to_pixel, grid_location, xrowycol_to_rowcol, rowcol_to_xrowycol. destruct i. cbn. f_equal; field; assumption. Qed.

Lemma above_plane n a v p q : unit n -> side_of n a v q <> 0 -> on_plane p n q -> 0 <= height_over p n a -> height_over p n a < distance a q.
Proof.
  intros U S O H. apply (proj1 (on_plane_eq _ _ _)) in O.
  destruct (sideways n a v q U S) as (e & k & Ue & En & _ & _ & _ & P & _).
  pose proof (bessel (vsub q a) e n Ue U En) as B. rewrite height_dot in *.
  replace (normalised n) with n in * by (symmetry; apply normalised_of_unit; now apply unit_dot).
  assert (Q : vdot (vsub q a) n = - vdot (vsub a p) n).
  { replace (vsub q a) with (vsub (vsub q p) (vsub a p)) by (apply vec_eq; cbn; ring). rewrite vdot_sub_l, O. ring. }
  rewrite Q in B. rewrite distance_sym, distance_eq. apply Rsqr_incrst_0; [|exact H|apply vnorm_pos]. unfold Rsqr. rewrite vnorm_sqr. nra.
Qed.

(** The pixels of an image in the ground plane are located at their places in it, and the search
    finds them at once, exactly. The times of measurement may differ from pixel to pixel. *)
Theorem C106_ground_plane :
  forall to_geodetic to_geocentric (d : SicdMeta) (m : Sicd) (v : R -> Vec) (i : Image),
  usable_sicd d -> sicd_build d = Some (Complete m) -> (forall t, velocity_at (trajectory d) t (v t)) -> in_ground_plane to_geodetic d ->
  let t := coa_instant d (grid_metres d (ix i) (iy i)) in
  let a := trajectory d t in let n := surface_normal to_geodetic d in let scp := scp_position d in let p := sicd_place d i in
  0 < side_of n a (v t) p * side_of n a (v t) scp -> 0 <= height_over scp n a ->
  sicd_image_to_world to_geodetic to_geocentric m i None = Ok (Some (to_geodetic p)) /\
  forall w, to_geocentric w = p -> sicd_world_to_image to_geodetic to_geocentric m w = Ok i.
Proof.
  intros tg tc d m v i U B Hv (Pl & P1 & P2) t a n scp p S Ab.
  apply (proj1 (perp_dot _ _)) in P1. apply (proj1 (perp_dot _ _)) in P2. fold n in P1, P2.
  assert (Sp : side_of n a (v t) scp <> 0) by (intros E; rewrite E in S; lra). assert (Si : side_of n a (v t) p <> 0) by (intros E; rewrite E in S; lra).
  assert (Un : unit n).
  { unfold n, surface_normal. destruct Pl as (G1 & _). destruct (grid_type d); try contradiction; apply unit_dot; apply (up_unit (tg (scp_position d))). }
  assert (O : on_plane scp n p).
  { apply on_plane_eq. replace (vsub p scp) with (vadd (vscale (fst (grid_metres d (ix i) (iy i))) (row_uvect d)) (vscale (snd (grid_metres d (ix i) (iy i))) (col_uvect d))) by (unfold p, scp, sicd_place, plane_point; apply vec_eq; cbn; ring).
    rewrite vdot_add_l, !vdot_scale_l, P1, P2. ring. }
  destruct (sicd_projects d m U B) as (Rs & Cs & GL & Pr).
  assert (G : ground_of tg m (grid_location m i) = Ok (Some p)).
  { rewrite GL. apply (planar_grounds tg d m v (grid_metres d (ix i) (iy i)) p); auto; fold t n a scp.
    - split; [exact Ab|]. apply (above_plane n a (v t)); assumption.
    - apply Rlt_le, S. }
  split; [unfold sicd_image_to_world; unfold ground_of in G; rewrite G; reflexivity|].
  intros w W. assert (Gp : project_to_grid m p = grid_location m i).
  { rewrite GL. apply Pr. exists 0. unfold raised. fold p. apply vec_eq; cbn; ring. }
  assert (Z : forall x, distance x x = 0) by (intros x; rewrite distance_eq; apply vnorm_zero_iff; apply vec_eq; cbn; ring).
  destruct (C91_converges tg tc m w (fun g => g = p) (fun g => g) 0 Rs Cs) as (j & k & g & I & _ & -> & Gj & _).
  - lra.
  - exact W.
  - intros g ->. rewrite Gp. exact G.
  - intros g ->. rewrite W. apply vec_eq; cbn; ring.
  - intros g g' -> ->. rewrite !Z. lra.
  - rewrite I. f_equal. rewrite Gp in Gj. rewrite <- (to_pixel_of_grid m j), <- (to_pixel_of_grid m i), Gj by assumption. reflexivity.
Qed.
Print Assumptions C106_ground_plane.

(** *** On the WGS 84 ellipsoid *)

Theorem C106_wgs84 :
  forall (d : SicdMeta) (m : Sicd) (v : R -> Vec) (t : R) (w : Geodetic),
  usable_sicd d -> sicd_build d = Some (Complete m) -> (forall t, velocity_at (trajectory d) t (v t)) -> staring d v t ->
  let a := trajectory d t in let n := surface_normal wgs84_geodetic d in let scp := scp_position d in let scene := wgs84_geocentric w in
  let off := height_over scp (slant_normal d) scene in let aside := off_track n a (v t) scene in
  on_plane scp n scene -> 0 < side_of n a (v t) scene * side_of n a (v t) scp -> 0 <= height_over scp n a ->
  10 * Rabs off <= aside -> Rabs off <= 4000000 ->
  exists i g, sicd_world_to_image wgs84_geodetic wgs84_geocentric m w = Ok i /\
  sicd_image_to_world wgs84_geodetic wgs84_geocentric m i None = Ok (Some g) /\
  distance scene (wgs84_geocentric g) <= 0.01 /\ distance scene (wgs84_geocentric g) <= off * off / aside.
Proof.
  intros d m v t w U B Hv St a n scp scene off aside O S Ab H Far.
  destruct (C106_found wgs84_geodetic wgs84_geocentric d m v t w U B Hv St O S Ab H Far) as (i & p & I & L & D1 & D2).
  exists i, (wgs84_geodetic p). rewrite (proj2 (C101_back p)). auto.
Qed.
Print Assumptions C106_wgs84.

(** An antenna that passes four kilometres to the side of the north pole at three kilometres' height. *)
Definition pole_doc (coa : Poly2) (row col : Vec) : SicdMeta :=
  mkSicdMeta (mkImageData 1000 2000 0 0) 500 700 (mkVec 0 0 polar_radius) row col 2 (1/2) coa
    (mkXyzPoly (mkPoly1 [mkCoef1 100 1] 1) (mkPoly1 [mkCoef1 (-4000) 0] 0) (mkPoly1 [mkCoef1 (polar_radius + 3000) 0] 0))
    GridPLANE AlgoOTHER None None None (mkVec 0 (-4000) (polar_radius + 3000)) (mkVec 100 0 0) "L".
Lemma pole_trajectory coa row col t : trajectory (pole_doc coa row col) t = mkVec (100 * t) (-4000) (polar_radius + 3000).
Proof. unfold trajectory, along, declared1, total. cbn. change (Pos.to_nat 1) with 1%nat. cbn. f_equal; ring. Qed.
Lemma pole_velocity coa row col t : velocity_at (trajectory (pole_doc coa row col)) t (mkVec 100 0 0).
Proof.
  eapply velocity_ext with (f := fun s => mkVec (100 * s) (-4000) (polar_radius + 3000)); [intros s; symmetry; apply pole_trajectory|]. split; [|split]; cbn.
  - pose proof (derivable_pt_lim_scal id 100 t 1 (derivable_pt_lim_id t)) as D. rewrite Rmult_1_r in D. exact D.
  - apply derivable_pt_lim_const.
  - apply derivable_pt_lim_const.
Qed.
Lemma pole_proper coa row col : proper2 coa -> proper_meta (pole_doc coa row col).
Proof.
  intros C. split; [exact C|]. split; [|split; discriminate].
  assert (Q : forall e k, (0 <= k)%Z -> proper1 (mkPoly1 [mkCoef1 e k] k)).
  { intros e k K. split; [exact K|]. split; [intros c [<-|[]]; cbn; lia|]. repeat constructor. intros []. }
  split; [apply Q; lia|]. split; apply Q; lia.
Qed.
Lemma pole_slant coa row col : slant_normal (pole_doc coa row col) = mkVec 0 300000 400000.
Proof. unfold slant_normal, pole_doc. cbn [arpvel scp_position arppos]. apply vec_eq; cbn; ring. Qed.
Lemma pole_surface coa row col : surface_normal wgs84_geodetic (pole_doc coa row col) = mkVec 0 0 1.
Proof. destruct north_pole as (Ng & _ & Nu). unfold surface_normal. cbn [grid_type pole_doc scp_position]. rewrite Ng. exact Nu. Qed.
Lemma pole_height coa row col t : height_over (mkVec 0 0 polar_radius) (mkVec 0 0 1) (trajectory (pole_doc coa row col) t) = 3000.
Proof.
  rewrite pole_trajectory, height_dot. replace (normalised (mkVec 0 0 1)) with (mkVec 0 0 1) by (symmetry; apply normalised_of_unit; unfold vdot; cbn; ring). unfold vdot. cbn. ring.
Qed.

(** The slant plane: the pixel 450 metres down range is located 550 metres from the pole; a search
    for that point starts 330 metres off the slant plane and 4550 metres to the side of the track. *)
Example C106_non_vacuous :
  let d := pole_doc (mkPoly2 [mkCoef2 0 0 0] 0 0) (mkVec 0 (4/5) (-3/5)) (mkVec 1 0 0) in
  let v := fun _ : R => mkVec 100 0 0 in let a := trajectory d 0 in let n := surface_normal wgs84_geodetic d in let scp := scp_position d in
  let scene := mkVec 0 550 polar_radius in let i := mkImage 700 725 in
  usable_sicd d /\ staring d v 0 /\ on_plane scp n scene /\ 0 < side_of n a (v 0) scene * side_of n a (v 0) scp /\
  0 < side_of (slant_normal d) a (v 0) (sicd_place d i) * side_of (slant_normal d) a (v 0) scp /\
  height_over scp n a = 3000 /\ height_over scp (slant_normal d) scene = 330 /\ off_track n a (v 0) scene = 4550 /\
  exists m, sicd_build d = Some (Complete m) /\
  sicd_image_to_world wgs84_geodetic wgs84_geocentric m i None = Ok (Some (wgs84_geodetic scene)) /\
  exists j, sicd_world_to_image wgs84_geodetic wgs84_geocentric m (wgs84_geodetic scene) = Ok j /\ distance (sicd_place d j) (sicd_place d i) <= 0.012.
Proof.
  intros d v a n scp scene i.
  assert (P2 : proper2 (mkPoly2 [mkCoef2 0 0 0] 0 0)) by (split; [cbn; lia|]; split; [cbn; lia|]; split; [intros c [<-|[]]; cbn; lia|]; repeat constructor; intros []).
  assert (U : usable_sicd d).
  { split; [apply pole_proper; exact P2|]. split; [unfold unit; cbn; lra|]. split; [unfold unit; cbn; lra|]. split; [right; left; cbn; lra|].
    split; [cbn; lra|]. split; [cbn; lra|]. unfold d. rewrite pole_slant. unfold vdot. cbn. lra. }
  assert (T0 : a = mkVec 0 (-4000) (polar_radius + 3000)) by (unfold a, d; rewrite pole_trajectory; f_equal; ring).
  assert (St : staring d v 0).
  { split; [split; discriminate|]. split; [intros xy; unfold coa_instant, declared2, total; cbn; ring|]. split; [symmetry; exact T0|]. split; [reflexivity|].
    split; apply perp_dot; unfold d at 2; rewrite pole_slant; unfold vdot; cbn; lra. }
  assert (N : n = mkVec 0 0 1) by apply pole_surface.
  assert (O : on_plane scp n scene) by (rewrite N; unfold on_plane; cbn; lra).
  assert (S : 0 < side_of n a (v 0) scene * side_of n a (v 0) scp) by (rewrite N, T0; unfold side_of; cbn; lra).
  assert (Pi : sicd_place d i = mkVec 0 360 (polar_radius - 270)) by (unfold sicd_place, plane_point, grid_metres; apply vec_eq; cbn; lra).
  assert (Ss : 0 < side_of (slant_normal d) a (v 0) (sicd_place d i) * side_of (slant_normal d) a (v 0) scp).
  { rewrite Pi, T0. unfold d at 1 2. rewrite pole_slant. unfold side_of. cbn. lra. }
  assert (Hh : height_over scp n a = 3000) by (rewrite N; apply pole_height).
  assert (Vn : forall x y, 0 <= y -> vdot x x = y * y -> vnorm x = y) by (intros x y Y E; unfold vnorm; rewrite E; now apply sqrt_square).
  assert (Of : height_over scp (slant_normal d) scene = 330).
  { rewrite height_dot. unfold d. rewrite pole_slant. unfold normalised. rewrite (Vn _ 500000) by (lra || (unfold vdot; cbn; ring)). unfold vdot. cbn. field. }
  assert (As : off_track n a (v 0) scene = 4550).
  { unfold off_track. rewrite N, T0. rewrite (Vn _ 100) by (lra || (unfold vdot; cbn; ring)). unfold side_of. cbn.
    match goal with |- Rabs ?x / 100 = _ => replace x with 455000 by ring end. rewrite Rabs_right by lra. lra. }
  repeat (split; [assumption|]).
  destruct (C83_usable d (proj1 U)) as [_ Y]. destruct Y as [m B]; [exact I|]. exists m. split; [exact B|].
  assert (L : sicd_image_to_world wgs84_geodetic wgs84_geocentric m i None = Ok (Some (wgs84_geodetic scene))).
  { destruct (sicd_projects d m U B) as (_ & _ & GL & _).
    assert (G : ground_of wgs84_geodetic m (grid_location m i) = Ok (Some scene)); [|unfold sicd_image_to_world; unfold ground_of in G; rewrite G; reflexivity].
    rewrite GL. pose proof (planar_grounds wgs84_geodetic d m v (grid_metres d (ix i) (iy i)) scene (proj1 St) U B (pole_velocity _ _ _)) as X. cbv zeta in X.
    rewrite (proj1 (proj2 St)) in X. change (plane_point _ _ _ _) with (sicd_place d i) in X. fold a n scp in X. rewrite Hh, Pi, T0, N in X.
    assert (D1 : distance (mkVec 0 (-4000) (polar_radius + 3000)) (mkVec 0 360 (polar_radius - 270)) = 5450) by (rewrite distance_eq; apply Vn; [lra|unfold vdot; cbn; ring]).
    assert (D2 : distance (mkVec 0 (-4000) (polar_radius + 3000)) scene = 5450) by (rewrite distance_eq; apply Vn; [lra|unfold scene, vdot; cbn; ring]).
    apply X.
    - unfold side_of. cbn. lra.
    - rewrite D1. lra.
    - rewrite <- N. exact O.
    - rewrite D1, D2. reflexivity.
    - unfold scene, vdot. cbn. ring.
    - unfold side_of. cbn. lra. }
  split; [exact L|].
  apply (C106_round_trip wgs84_geodetic wgs84_geocentric d m v 0 i (wgs84_geodetic scene) U B (pole_velocity _ _ _) St (fun p => proj2 (C101_back p)) L);
    rewrite ?(proj2 (C101_back scene)); fold a n scp; auto.
  - rewrite Hh. lra.
  - rewrite Of, As, Rabs_right by lra. lra.
  - rewrite Of, Rabs_right by lra. lra.
Qed.

(** The ground plane, with rows measured one after the other. *)
Example C106_ground_plane_non_vacuous :
  let d := pole_doc (mkPoly2 [mkCoef2 (1/1000) 1 0] 1 0) (mkVec 1 0 0) (mkVec 0 1 0) in let i := mkImage 500 640 in
  usable_sicd d /\ in_ground_plane wgs84_geodetic d /\ coa_instant d (grid_metres d (ix i) (iy i)) = 0.28 /\
  sicd_place d i = mkVec 280 (-100) polar_radius /\
  exists m, sicd_build d = Some (Complete m) /\
  sicd_image_to_world wgs84_geodetic wgs84_geocentric m i None = Ok (Some (wgs84_geodetic (mkVec 280 (-100) polar_radius))) /\
  sicd_world_to_image wgs84_geodetic wgs84_geocentric m (wgs84_geodetic (mkVec 280 (-100) polar_radius)) = Ok i.
Proof.
  intros d i.
  assert (P2 : proper2 (mkPoly2 [mkCoef2 (1/1000) 1 0] 1 0)) by (split; [cbn; lia|]; split; [cbn; lia|]; split; [intros c [<-|[]]; cbn; lia|]; repeat constructor; intros []).
  assert (U : usable_sicd d).
  { split; [apply pole_proper; exact P2|]. split; [unfold unit; cbn; lra|]. split; [unfold unit; cbn; lra|]. split; [right; right; cbn; lra|].
    split; [cbn; lra|]. split; [cbn; lra|]. unfold d. rewrite pole_slant. unfold vdot. cbn. lra. }
  assert (N : surface_normal wgs84_geodetic d = mkVec 0 0 1) by apply pole_surface.
  assert (Ip : in_ground_plane wgs84_geodetic d) by (split; [split; discriminate|]; rewrite N; split; apply perp_dot; unfold vdot; cbn; ring).
  assert (T : coa_instant d (grid_metres d (ix i) (iy i)) = 0.28).
  { unfold coa_instant, grid_metres, declared2, total. cbn. change (Pos.to_nat 1) with 1%nat. cbn. lra. }
  assert (Pi : sicd_place d i = mkVec 280 (-100) polar_radius) by (unfold sicd_place, plane_point, grid_metres; apply vec_eq; cbn; lra).
  repeat (split; [assumption|]).
  destruct (C83_usable d (proj1 U)) as [_ Y]. destruct Y as [m B]; [exact I|]. exists m. split; [exact B|].
  rewrite <- Pi. destruct (C106_ground_plane wgs84_geodetic wgs84_geocentric d m (fun _ => mkVec 100 0 0) i U B (pole_velocity _ _ _) Ip) as (L & W).
  - rewrite N, Pi. unfold d at 1 3. rewrite pole_trajectory. unfold side_of. cbn. lra.
  - rewrite N. unfold d at 2. change (scp_position d) with (mkVec 0 0 polar_radius). unfold d. rewrite pole_height. lra.
  - split; [exact L|]. apply W. apply C101_back.
Qed.
