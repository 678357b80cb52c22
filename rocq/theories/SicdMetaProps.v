(** Property theorems for SICD and SIDD models built from metadata: C83 and C84, and further
    theorems for C33 and C36. *)
Require Import ZArith Reals String List Lra Lia Bool.
Require Import Verif.Base Verif.BaseFacts Verif.Vec Verif.VecFacts Verif.SensorBase Verif.PolySpec Verif.SicdModel Verif.SicdSpec Verif.SicdProofs
  Verif.SicdGroundProofs Verif.SicdProps Verif.SicdSurfaceProps Verif.TransformModel Verif.SarMetaModel Verif.SarMetaSpec Verif.SarMetaProofs Verif.SarMetaProps
  Verif.SicdMetaSpec.
Import ListNotations.
Local Open Scope R_scope.

(** ** C33: the normals of ground planes *)

(** A plane's normal has unit length: along the one given, else away from the centre of the Earth,
    else away from the ellipsoid. *)
Theorem C33_normals :
  forall (to_geodetic : Vec -> Geodetic) (ref n : Vec) (type : NormalType),
  (n <> vzero -> let p := make_plane to_geodetic ref (Some n) type in
     ref_ecf p = ref /\ unit (u_gpn p) /\ exists k, 0 < k /\ u_gpn p = vscale k n) /\
  (ref <> vzero -> let p := make_plane to_geodetic ref None SPHERICAL_EARTH in
     ref_ecf p = ref /\ unit (u_gpn p) /\ exists k, 0 < k /\ u_gpn p = vscale k ref) /\
  make_plane to_geodetic ref None GEODETIC_EARTH = mkPlane ref (local_up (to_geodetic ref)) /\
  unit (local_up (to_geodetic ref)).
Proof.
  intros tg ref n type.
  assert (U : forall a, a <> vzero -> unit (normalised a) /\ exists k, 0 < k /\ normalised a = vscale k a).
  { intros a A. split; [apply unit_eq, normalised_unit, A|]. exists (/ vnorm a). split; [apply Rinv_0_lt_compat, vnorm_pos_iff, A|reflexivity]. }
  split; [|split; [|split]].
  - intros N p. split; [reflexivity|]. exact (U n N).
  - intros N p. split; [reflexivity|]. exact (U ref N).
  - reflexivity.
  - apply unit_eq. apply (up_unit (tg ref)).
Qed.
Print Assumptions C33_normals.

(** ** C36: further theorems *)

(** The scan uses the heights and the post spacing that the terrain reports at the scene centre. *)
Theorem C36_setup :
  forall (to_geodetic : Vec -> Geodetic) (scp : Vec) (side : string) (t : Terrain) (lowest highest spacing : R),
  describe_region t (to_geodetic scp) = Some (lowest, highest, spacing) ->
  exists d, make_dem to_geodetic scp side t = Ok d /\ d_scp d = scp /\ d_side d = side /\ d_terrain d = t /\
  hae_min d = lowest /\ hae_max d = highest /\ delta_dist_dem d = spacing / 2 /\ delta_dist_rrc d = 10 /\ delta_hd_lim d = 1 / 1000.
Proof.
  intros tg scp side t lo hi sp H. unfold make_dem. rewrite H. eexists. split; [reflexivity|]. cbn. repeat split; try reflexivity; lra.
Qed.
Print Assumptions C36_setup.

(** Points returned are to the right of the track for side "R" and to its left otherwise, as seen
    along the velocity with the antenna's position as up. *)
Lemma returned_sample tg s t lim p : In (Some p) (dem_scan lim (sample_at s) 0 None (sample_heights tg t s)) -> exists k, sample_at s k = Some p.
Proof.
  intros I. unfold sample_heights in I. revert I. generalize (@None (Z * option R)). generalize 0%nat at 1. generalize (seq 0 (Z.to_nat (points s))).
  induction l as [|n l IH]; intros n0 prev I; [contradiction|]. cbn [List.map dem_scan] in I.
  apply in_app_or in I. destruct I as [I|I].
  - destruct (Z.eqb _ 0); [|contradiction]. destruct I as [I|[]]. eauto.
  - apply in_app_or in I. destruct I as [I|I]; [|eapply IH; exact I].
    destruct prev as [[i0 h0]|]; [|contradiction]. destruct (Z.eqb _ (-1)); [|contradiction].
    destruct h0; [|destruct I as [I|[]]; discriminate]. destruct (sample_at s (INR n)); [|destruct I as [I|[]]; discriminate].
    destruct I as [I|[]]. eauto.
Qed.

Lemma left_of_track r rdot arp v c : make_contour r rdot arp v = Some c -> exists k, 0 <= k /\ vcross arp v = vscale k (u_rry c).
Proof.
  unfold make_contour. destruct (Req_EM_T (vnorm v) 0) as [|Nv]; [discriminate|]. destruct (Rlt_dec _ 0); [discriminate|].
  set (rry := vcross (normalised arp) (normalised v)). destruct (Req_EM_T (vnorm rry) 0) as [|Nr]; [discriminate|]. intros [= <-]. cbn [u_rry].
  destruct (Req_EM_T (vnorm arp) 0) as [A|A].
  { exfalso. apply Nr. apply vnorm_zero_iff. apply vnorm_zero_iff in A. unfold rry. rewrite A. unfold normalised, vcross, vscale, vzero. cbn. f_equal; ring. }
  exists (vnorm arp * vnorm v * vnorm rry). split.
  - pose proof (vnorm_pos arp). pose proof (vnorm_pos v). pose proof (vnorm_pos rry). repeat apply Rmult_le_pos; assumption.
  - transitivity (vscale (vnorm arp * vnorm v) rry).
    + unfold rry, normalised. apply vec_eq; cbn; field; auto.
    + unfold normalised. apply vec_eq; cbn; field; auto.
Qed.

Theorem C36_side :
  forall to_geodetic to_geocentric (d : Dem) (r rdot : R) (arp v : Vec) (ps : list (option Vec)) (p : Vec),
  0 <= r -> dem_intersection to_geodetic to_geocentric d r rdot arp v = Ok ps -> In (Some p) ps ->
  let left := vdot (vsub p arp) (vcross arp v) in
  (d_side d = "R"%string -> left <= 0) /\ (d_side d <> "R"%string -> 0 <= left).
Proof.
  intros tg tc d r rdot arp v ps p R0 H I left. unfold dem_intersection in H.
  destruct (dem_sampling tg tc d r rdot arp v) as [s|e] eqn:E; [|discriminate]. cbn [bind] in H. injection H as <-.
  apply dem_sampling_inv in E. destruct E as (C & Lk & _). apply returned_sample in I. destruct I as (k & K).
  unfold sample_at in K. destruct (left_of_track _ _ _ _ _ C) as (m & M & X).
  apply contour_frame in C. cbv zeta in C. destruct C as (_ & _ & _ & Yy & Xy & _ & Yu & _ & Ec & Er).
  unfold contour_point in K. destruct (Rlt_dec _ 0) as [|N]; [discriminate|]. injection K as <-.
  set (q := start s + k * step s) in *. set (n := rrrc (contour s)) in *.
  assert (L : left = m * (n * (look_side s * sqrt (1 - q * q)))).
  { unfold left. rewrite X, Ec. rewrite vdot_scale_r, vdot_sub_l, !vdot_add_l, !vdot_scale_l, !vdot_add_l, !vdot_scale_l.
    rewrite (vdot_comm (normalised v)), Yu, Yy, Xy. ring. }
  rewrite L, Lk. pose proof (sqrt_pos (1 - q * q)) as S. assert (P : 0 <= n) by (rewrite Er; apply Rmult_le_pos; [exact R0|apply sqrt_pos]).
  assert (A : 0 <= m * (n * sqrt (1 - q * q))) by (repeat apply Rmult_le_pos; assumption).
  unfold look_of. destruct (String.eqb_spec (d_side d) "R") as [F|F]; split; intros G; try contradiction; lra.
Qed.
Print Assumptions C36_side.

(** With an elevation model the answer is the first point found, nan if that is not a number. *)
Theorem C36_first_returned :
  forall to_geodetic to_geocentric (m : Sicd) (i : Image) (t : Terrain) (d : Dem) (p : option Vec) (ps : list (option Vec)),
  make_dem to_geodetic (scp_ecf (converter m)) (side_of_track m) t = Ok d ->
  (let c := precise_rrdot (projection m) (grid_location m i) in
   dem_intersection to_geodetic to_geocentric d (r_coa c) (rdot_coa c) (arp_coa c) (varp_coa c) = Ok (p :: ps)) ->
  sicd_image_to_world to_geodetic to_geocentric m i (Some t) = Ok (option_map to_geodetic p).
Proof.
  intros tg tc m i t d p ps D I. unfold sicd_image_to_world. cbv zeta in I. rewrite D. cbn [bind]. rewrite I. destruct p; reflexivity.
Qed.
Print Assumptions C36_first_returned.

(** ** C83: SICD models locate pixels by the metadata *)
Lemma native1 p : proper1 p -> exists c, poly1d_to_native p = Ok c /\ forall x, polyval c x = declared1 p x.
Proof.
  intros (O & I & D). destruct (C64_sum_of_powers p 0 O I D) as (c & E & _). exists c. split; [exact E|]. intros x.
  destruct (C64_sum_of_powers p x O I D) as (c' & E' & P). congruence.
Qed.
Lemma native2 p : proper2 p -> exists c, poly2d_to_native p = Ok c /\ forall x y, poly2d c x y = declared2 p x y.
Proof.
  intros (O1 & O2 & I & D). destruct (C64_sum_of_powers_2d p 0 0 O1 O2 I D) as (c & E & _). exists c. split; [exact E|]. intros x y.
  destruct (C64_sum_of_powers_2d p x y O1 O2 I D) as (c' & E' & P). congruence.
Qed.
Lemma native_xyz p : proper_xyz p -> exists c, xyzpoly_to_native p = Ok c /\ forall t, polyxyz c t = along p t.
Proof.
  intros (X & Y & Z).
  destruct (native1 _ X) as (x & Ex & Px). destruct (native1 _ Y) as (y & Ey & Py). destruct (native1 _ Z) as (z & Ez & Pz).
  exists (mkPolyXYZ x y z). unfold xyzpoly_to_native. rewrite Ex, Ey, Ez. split; [reflexivity|]. intros t. unfold polyxyz, along. cbn. now rewrite Px, Py, Pz.
Qed.
Lemma velocity_unique f t a b : velocity_at f t a -> velocity_at f t b -> a = b.
Proof. intros (A & B & C) (D & E & F). apply vec_eq; eapply uniqueness_limite; eassumption. Qed.
Lemma velocity_ext f g t a : (forall s, f s = g s) -> velocity_at f t a -> velocity_at g t a.
Proof.
  intros E (A & B & C). split; [|split].
  - eapply derivable_pt_lim_ext; [|exact A]. intros s. cbn. now rewrite E.
  - eapply derivable_pt_lim_ext; [|exact B]. intros s. cbn. now rewrite E.
  - eapply derivable_pt_lim_ext; [|exact C]. intros s. cbn. now rewrite E.
Qed.

Lemma measured_unique d v xy r rdot r' rdot' : v (coa_instant d xy) <> vzero ->
  measured d v xy r rdot -> measured d v xy r' rdot' -> r = r' /\ rdot = rdot'.
Proof.
  intros V. unfold measured. cbv zeta. destruct (grid_type d); [destruct (form_algo d)| | | |]; try contradiction.
  - intros (p & P & A & B) (p' & P' & A' & B'). assert (p = p') by congruence. subst p'. split; [congruence|]. eapply uniqueness_limite; eassumption.
  - intros (k & P & A & B) (k' & P' & A' & B'). assert (k = k') by congruence. subst k'. split; [congruence|].
    apply vnorm_pos_iff in V. set (n := vnorm (v (coa_instant d xy))) in *. rewrite <- B in B'.
    assert (X : - rdot' = - rdot) by (apply (Rmult_eq_reg_r (/ n)); [exact B'|apply Rinv_neq_0_compat; lra]). lra.
  - intros (p & P & A & B) (p' & P' & A' & B'). assert (p = p') by congruence. subst p'. split; [congruence|]. eapply uniqueness_limite; eassumption.
  - intros (A & B) (A' & B'). split; congruence.
  - intros (A & B) (A' & B'). split; congruence.
  - intros (A & B) (A' & B'). split; congruence.
Qed.

(** What the builder makes of the document, in terms of what the document declares. *)
Lemma built d b : proper_meta d -> sicd_build d = Some b ->
  (exists c, b = NoProjection c /\ grid_type d = RGAZIM /\ (form_algo d = AlgoRMA \/ form_algo d = AlgoOTHER)) \/
  exists m, b = Complete m /\ scp_ecf (converter m) = scp_position d /\ side_of_track m = side d /\
  (forall tg, default_surface tg m = mkPlane (scp_position d) (normalised (surface_normal tg d))) /\
  (forall i, grid_location m i = grid_metres d (ix i) (iy i)) /\
  forall v, (forall t, velocity_at (trajectory d) t (v t)) -> forall xy,
  let c := precise_rrdot (projection m) xy in let t := coa_instant d xy in
  arp_coa c = trajectory d t /\ varp_coa c = v t /\
  (trajectory d t <> scp_position d -> v t <> vzero -> r_coa c <> 0 -> measured d v xy (r_coa c) (rdot_coa c)) /\
  (grid_type d = RGZERO -> exists i, inca_meta d = Some i /\ 
     let ca := declared1 (time_ca i) (snd xy) in
     r_coa c = sqrt ((r_ca_scp i + fst xy) ^ 2 + declared2 (drate_sf i) (fst xy) (snd xy) * vnorm (v ca) ^ 2 * (t - ca) ^ 2)) /\
  (grid_type d <> RGZERO -> trajectory d t <> scp_position d -> v t <> vzero -> measured d v xy (r_coa c) (rdot_coa c)).
Proof.
  intros (T & A & PF & IN) B. unfold sicd_build, sicd_from_dataclass in B.
  destruct (native2 _ T) as (coa & Ec & Pc). destruct (native_xyz _ A) as (arp & Ea & Pa). rewrite Ec, Ea in B. cbn [bind] in B.
  assert (VP : forall v, (forall t, velocity_at (trajectory d) t (v t)) -> forall t, polyxyz (polyxyz_deriv arp) t = v t).
  { intros v Hv t. eapply velocity_unique; [apply polyxyz_velocity|]. eapply velocity_ext; [|apply Hv]. intros s. symmetry. apply Pa. }
  assert (GL : forall i, rowcol_to_xrowycol (sicd_converter d) (iy i + iy (first_pixel (sicd_converter d)), ix i + ix (first_pixel (sicd_converter d))) = grid_metres d (ix i) (iy i)) by reflexivity.
  assert (Add0 : forall a, vadd a vzero = a) by (intros; apply vec_eq; cbn; ring).
  assert (UP : forall tg, up_vector (tg (scp_position d)) = normalised (local_up (tg (scp_position d)))).
  { intros tg. symmetry. apply normalised_of_unit. apply (up_unit (tg (scp_position d))). }
  unfold projection_set in B. destruct (grid_type d) eqn:G; [destruct (form_algo d) eqn:F| | | |].
  - (* polar format *)
    destruct (pfa_meta d) as [p|] eqn:P; [|discriminate]. cbn [require bind] in B. destruct (PF p eq_refl) as (P1 & P2).
    destruct (native1 _ P1) as (po & Eo & Po). destruct (native1 _ P2) as (sf & Es & Ps). rewrite Eo, Es in B. cbn in B. injection B as <-. right.
    eexists. split; [reflexivity|]. split; [reflexivity|]. split; [reflexivity|]. split.
    { intros tg. unfold surface_normal. rewrite G, F, P. reflexivity. } split; [exact GL|].
    intros v Hv xy c t. set (ps := mkProjectionSet (PFA (scp_position d) po sf) coa arp vzero vzero 0) in *.
    assert (Et : t_coa c = t) by (unfold c, precise_rrdot, t, coa_instant; cbn; apply Pc).
    assert (X : trajectory d t <> scp_position d -> measured d v xy (r_coa c) (rdot_coa c)).
    { intros N1. destruct (C34_polar_format ps xy (scp_position d) po sf eq_refl) as (X & Y). cbv zeta in X, Y.
      change (precise_rrdot ps xy) with c in X, Y. rewrite Et in X, Y. change (arp_poly ps) with arp in X, Y. change (range_bias ps) with 0 in X.
      unfold measured. cbv zeta. rewrite G, F. exists p. split; [exact P|]. fold t. split.
      - rewrite X. rewrite !Pa, !Po, !Ps. unfold trajectory. ring.
      - eapply derivable_pt_lim_ext; [|apply Y; rewrite Pa; exact N1]. intros s. cbn. rewrite !Pa, !Po, !Ps. reflexivity. }
    split; [change (arp_coa c) with (vadd (polyxyz arp (t_coa c)) vzero); rewrite Et, Pa; apply Add0|].
    split; [change (varp_coa c) with (vadd (polyxyz (polyxyz_deriv arp) (t_coa c)) vzero); rewrite Et, (VP v Hv); apply Add0|].
    split; [intros N1 _ _; auto|]. split; [discriminate|]. intros _ N1 _. auto.
  - left. cbn in B. injection B as <-. eexists. split; [reflexivity|]. auto.
  - (* range azimuth compressed *)
    destruct (az_sf d) as [k|] eqn:P; [|discriminate]. cbn in B. injection B as <-. right.
    eexists. split; [reflexivity|]. split; [reflexivity|]. split; [reflexivity|]. split.
    { intros tg. unfold surface_normal, default_surface, make_plane. cbn. rewrite G, F. f_equal. apply UP. } split; [exact GL|].
    intros v Hv xy c t. set (ps := mkProjectionSet (RGAZCOMP (scp_position d) k) coa arp vzero vzero 0) in *.
    assert (Et : t_coa c = t) by (unfold c, precise_rrdot, t, coa_instant; cbn; apply Pc).
    assert (X : v t <> vzero -> measured d v xy (r_coa c) (rdot_coa c)).
    { intros N1. destruct (C34_compressed ps xy (scp_position d) k eq_refl) as (X & Y). cbv zeta in X, Y.
      change (precise_rrdot ps xy) with c in X, Y. rewrite Et in X, Y. change (arp_poly ps) with arp in X, Y. change (range_bias ps) with 0 in X. change (varp_poly ps) with (polyxyz_deriv arp) in Y. rewrite (VP v Hv) in Y.
      unfold measured. cbv zeta. rewrite G, F. exists k. split; [exact P|]. fold t. split.
      - rewrite X. rewrite !Pa. unfold trajectory. ring.
      - rewrite Y by exact N1. rewrite Pa. reflexivity. }
    split; [change (arp_coa c) with (vadd (polyxyz arp (t_coa c)) vzero); rewrite Et, Pa; apply Add0|].
    split; [change (varp_coa c) with (vadd (polyxyz (polyxyz_deriv arp) (t_coa c)) vzero); rewrite Et, (VP v Hv); apply Add0|].
    split; [intros _ N1 _; auto|]. split; [discriminate|]. intros _ _ N1. auto.
  - left. cbn in B. injection B as <-. eexists. split; [reflexivity|]. auto.
  - (* closest approach *)
    destruct (inca_meta d) as [i|] eqn:P; [|discriminate]. cbn [require bind] in B. destruct (IN i eq_refl) as (P1 & P2).
    destruct (native1 _ P1) as (tm & Eo & Po). destruct (native2 _ P2) as (sf & Es & Ps). rewrite Eo, Es in B. cbn in B. injection B as <-. right.
    eexists. split; [reflexivity|]. split; [reflexivity|]. split; [reflexivity|]. split.
    { intros tg. unfold surface_normal, default_surface, make_plane. cbn. rewrite G. f_equal. apply UP. } split; [exact GL|].
    intros v Hv xy c t. set (ps := mkProjectionSet (INCA (r_ca_scp i) tm sf) coa arp vzero vzero 0) in *.
    assert (Et : t_coa c = t) by (unfold c, precise_rrdot, t, coa_instant; cbn; apply Pc).
    destruct (C34_closest_approach ps xy (r_ca_scp i) tm sf eq_refl) as (X & Y & _). cbv zeta in X, Y.
      change (precise_rrdot ps xy) with c in X, Y. rewrite Et in X, Y. change (arp_poly ps) with arp in X, Y. change (range_bias ps) with 0 in X. change (varp_poly ps) with (polyxyz_deriv arp) in X, Y. rewrite Po, (VP v Hv), Ps in X, Y.
    split; [change (arp_coa c) with (vadd (polyxyz arp (t_coa c)) vzero); rewrite Et, Pa; apply Add0|].
    split; [change (varp_coa c) with (vadd (polyxyz (polyxyz_deriv arp) (t_coa c)) vzero); rewrite Et, (VP v Hv); apply Add0|].
    split; [|split; [|congruence]].
    + intros _ _ N1. unfold measured. cbv zeta. rewrite G. exists i. split; [exact P|]. fold t. split; [rewrite X; ring|].
      apply Y. rewrite X, Rplus_0_r in N1. match goal with |- 0 < ?q => destruct (Rle_lt_dec q 0) as [L|L]; [|exact L]; exfalso; apply N1; now apply sqrt_neg_0 end.
    + intros _. exists i. split; [reflexivity|]. cbv zeta. rewrite X. ring.
  - cbn in B. injection B as <-. right.
    eexists. split; [reflexivity|]. split; [reflexivity|]. split; [reflexivity|]. split.
    { intros tg. unfold surface_normal, default_surface, make_plane. cbn. rewrite G. f_equal. apply UP. } split; [exact GL|].
    intros v Hv xy c t. set (ps := mkProjectionSet (PLANE (scp_position d) (row_uvect d) (col_uvect d)) coa arp vzero vzero 0) in *.
    assert (Et : t_coa c = t) by (unfold c, precise_rrdot, t, coa_instant; cbn; apply Pc).
    assert (X : measured d v xy (r_coa c) (rdot_coa c)).
    { destruct (C34_planar ps xy _ _ _ eq_refl) as (X & Y). cbv zeta in X, Y.
      change (precise_rrdot ps xy) with c in X, Y. rewrite Et in X, Y. change (arp_poly ps) with arp in X, Y. change (range_bias ps) with 0 in X. change (varp_poly ps) with (polyxyz_deriv arp) in Y. rewrite (VP v Hv) in Y.
      unfold measured. cbv zeta. rewrite G. fold t. rewrite X, Y, !Pa. split; [unfold trajectory, plane_point; ring|reflexivity]. }
    split; [change (arp_coa c) with (vadd (polyxyz arp (t_coa c)) vzero); rewrite Et, Pa; apply Add0|].
    split; [change (varp_coa c) with (vadd (polyxyz (polyxyz_deriv arp) (t_coa c)) vzero); rewrite Et, (VP v Hv); apply Add0|].
    split; [auto|]. split; [discriminate|auto].
  - cbn in B. injection B as <-. right.
    eexists. split; [reflexivity|]. split; [reflexivity|]. split; [reflexivity|]. split.
    { intros tg. unfold surface_normal, default_surface, make_plane. cbn. rewrite G. f_equal. apply UP. } split; [exact GL|].
    intros v Hv xy c t. set (ps := mkProjectionSet (PLANE (scp_position d) (row_uvect d) (col_uvect d)) coa arp vzero vzero 0) in *.
    assert (Et : t_coa c = t) by (unfold c, precise_rrdot, t, coa_instant; cbn; apply Pc).
    assert (X : measured d v xy (r_coa c) (rdot_coa c)).
    { destruct (C34_planar ps xy _ _ _ eq_refl) as (X & Y). cbv zeta in X, Y.
      change (precise_rrdot ps xy) with c in X, Y. rewrite Et in X, Y. change (arp_poly ps) with arp in X, Y. change (range_bias ps) with 0 in X. change (varp_poly ps) with (polyxyz_deriv arp) in Y. rewrite (VP v Hv) in Y.
      unfold measured. cbv zeta. rewrite G. fold t. rewrite X, Y, !Pa. split; [unfold trajectory, plane_point; ring|reflexivity]. }
    split; [change (arp_coa c) with (vadd (polyxyz arp (t_coa c)) vzero); rewrite Et, Pa; apply Add0|].
    split; [change (varp_coa c) with (vadd (polyxyz (polyxyz_deriv arp) (t_coa c)) vzero); rewrite Et, (VP v Hv); apply Add0|].
    split; [auto|]. split; [discriminate|auto].
  - cbn in B. injection B as <-. right.
    eexists. split; [reflexivity|]. split; [reflexivity|]. split; [reflexivity|]. split.
    { intros tg. unfold surface_normal, default_surface, make_plane. cbn. rewrite G. f_equal. apply UP. } split; [exact GL|].
    intros v Hv xy c t. set (ps := mkProjectionSet (PLANE (scp_position d) (row_uvect d) (col_uvect d)) coa arp vzero vzero 0) in *.
    assert (Et : t_coa c = t) by (unfold c, precise_rrdot, t, coa_instant; cbn; apply Pc).
    assert (X : measured d v xy (r_coa c) (rdot_coa c)).
    { destruct (C34_planar ps xy _ _ _ eq_refl) as (X & Y). cbv zeta in X, Y.
      change (precise_rrdot ps xy) with c in X, Y. rewrite Et in X, Y. change (arp_poly ps) with arp in X, Y. change (range_bias ps) with 0 in X. change (varp_poly ps) with (polyxyz_deriv arp) in Y. rewrite (VP v Hv) in Y.
      unfold measured. cbv zeta. rewrite G. fold t. rewrite X, Y, !Pa. split; [unfold trajectory, plane_point; ring|reflexivity]. }
    split; [change (arp_coa c) with (vadd (polyxyz arp (t_coa c)) vzero); rewrite Et, Pa; apply Add0|].
    split; [change (varp_coa c) with (vadd (polyxyz (polyxyz_deriv arp) (t_coa c)) vzero); rewrite Et, (VP v Hv); apply Add0|].
    split; [auto|]. split; [discriminate|auto].
Qed.

Lemma side_scaled k n a v p : side_of (vscale k n) a v p = k * side_of n a v p.
Proof. unfold side_of. cbn. ring. Qed.
Lemma side_apart n a v p : side_of n a v p <> 0 -> a <> p /\ v <> vzero /\ n <> vzero.
Proof. intros H. split; [|split]; intros ->; apply H; unfold side_of; cbn; ring. Qed.
Lemma side_moves n a v p : side_of n a v p <> 0 -> moves_across n v.
Proof. intros H k E. apply H. unfold side_of. rewrite E. cbn. ring. Qed.
Lemma normalised_scale n : normalised n = vscale (/ vnorm n) n. Proof. reflexivity. Qed.
Lemma moves_scaled k n v : k <> 0 -> moves_across n v -> moves_across (vscale k n) v.
Proof. intros K M q E. apply (M (q * k)). rewrite E. cbn. f_equal; ring. Qed.
Lemma height_of_normalised ref n p : n <> vzero -> height_over ref (normalised n) p = height_over ref n p.
Proof. intros N. rewrite !height_over_eq. f_equal. apply normalised_of_unit. now apply normalised_unit. Qed.

(** Without an elevation model, a located pixel is the point of the ground plane at the range and
    range rate that the metadata declare for it, on the scene centre's side of the track. *)
Theorem C83_ground :
  forall to_geodetic to_geocentric (d : SicdMeta) (b : Built) (i : Image) (g : Geodetic) (v : R -> Vec),
  proper_meta d -> sicd_build d = Some b -> (forall t, velocity_at (trajectory d) t (v t)) ->
  let xy := grid_metres d (ix i) (iy i) in
  let t := coa_instant d xy in
  let n := surface_normal to_geodetic d in
  side_of n (trajectory d t) (v t) (scp_position d) <> 0 ->
  built_image_to_world to_geodetic to_geocentric b i None = Ok (Some g) ->
  exists q r rdot, g = to_geodetic q /\ measured d v xy r rdot /\ on_plane (scp_position d) n q /\
  distance (trajectory d t) q = r /\ range_rate (trajectory d t) (v t) q = rdot /\
  0 <= side_of n (trajectory d t) (v t) q * side_of n (trajectory d t) (v t) (scp_position d).
Proof.
  intros tg tc d b i g v W B Hv xy t n S H.
  destruct (built d b W B) as [(c & -> & _)|(m & -> & E1 & E2 & E3 & E4 & E5)]; [discriminate|].
  cbn [built_image_to_world] in H. unfold sicd_image_to_world in H. rewrite E4, E3 in H. fold xy n in H.
  specialize (E5 v Hv xy). cbv zeta in E5. fold t in E5. set (c := precise_rrdot (projection m) xy) in *. destruct E5 as (A & V & M & _).
  rewrite A, V in H. destruct (ground_intersection _ _ _ _ _) as [[q|]|] eqn:I; try discriminate. injection H as <-.
  destruct (side_apart _ _ _ _ S) as (N1 & N2 & N3). pose proof (vnorm_pos_iff _ N3) as P.
  assert (K : 0 < / vnorm n) by (now apply Rinv_0_lt_compat).
  assert (N4 : normalised n <> vzero) by (now apply normalised_not_zero).
  assert (S' : side_of (normalised n) (trajectory d t) (v t) (scp_position d) <> 0).
  { rewrite normalised_scale, side_scaled. intros E. apply Rmult_integral in E. destruct E; [lra|contradiction]. }
  pose proof I as I'. apply ground_inv in I'. destruct I' as (R0 & _).
  destruct (C33_exact (mkPlane (scp_position d) (normalised n)) _ _ _ _ _ N4 S' I) as (O & D & Rr & Sd). cbn [ref_ecf u_gpn] in *.
  exists q, (r_coa c), (rdot_coa c). split; [reflexivity|]. split; [apply M; auto; lra|]. split.
  { apply on_plane_normalised; [exact N3|]. now apply on_plane_eq in O. }
  split; [exact D|]. split; [exact Rr|].
  rewrite normalised_scale, !side_scaled in Sd.
  set (x := side_of n (trajectory d t) (v t) q) in *. set (y := side_of n (trajectory d t) (v t) (scp_position d)) in *.
  replace (x * y) with (vnorm n * vnorm n * (/ vnorm n * x * (/ vnorm n * y))) by (field; lra).
  apply Rmult_le_pos; [|exact Sd]. nra.
Qed.
Print Assumptions C83_ground.

(** Conversely that point is found whenever the antenna is above the plane by less than the range. *)
Theorem C83_ground_found :
  forall to_geodetic to_geocentric (d : SicdMeta) (b : Built) (i : Image) (q : Vec) (r rdot : R) (v : R -> Vec),
  proper_meta d -> sicd_build d = Some b -> (forall t, velocity_at (trajectory d) t (v t)) ->
  let xy := grid_metres d (ix i) (iy i) in
  let t := coa_instant d xy in
  let n := surface_normal to_geodetic d in
  measured d v xy r rdot ->
  side_of n (trajectory d t) (v t) (scp_position d) <> 0 ->
  0 <= height_over (scp_position d) n (trajectory d t) < r ->
  on_plane (scp_position d) n q -> distance (trajectory d t) q = r -> range_rate (trajectory d t) (v t) q = rdot ->
  0 <= side_of n (trajectory d t) (v t) q * side_of n (trajectory d t) (v t) (scp_position d) ->
  built_image_to_world to_geodetic to_geocentric b i None = Ok (Some (to_geodetic q)).
Proof.
  intros tg tc d b i q r rdot v W B Hv xy t n Me S Hh O D Rr Sd.
  destruct (built d b W B) as [(c & -> & G & F)|(m & -> & E1 & E2 & E3 & E4 & E5)].
  { exfalso. unfold measured in Me. cbv zeta in Me. rewrite G in Me. destruct F as [F|F]; rewrite F in Me; exact Me. }
  cbn [built_image_to_world]. unfold sicd_image_to_world. rewrite E4, E3. fold xy n.
  specialize (E5 v Hv xy). cbv zeta in E5. fold t in E5. set (c := precise_rrdot (projection m) xy) in *. destruct E5 as (A & V & M & Mi & Mo).
  destruct (side_apart _ _ _ _ S) as (N1 & N2 & N3). pose proof (vnorm_pos_iff _ N3) as P.
  assert (X : measured d v xy (r_coa c) (rdot_coa c)).
  { assert (Dg : grid_type d = RGZERO \/ grid_type d <> RGZERO) by (destruct (grid_type d); auto; right; discriminate).
    destruct Dg as [G|G]; [|auto]. apply M; auto. destruct (Mi G) as (j & J & Ej). cbv zeta in Ej.
    unfold measured in Me. cbv zeta in Me. rewrite G in Me. destruct Me as (j' & J' & Er & _). fold t in Er. assert (j = j') by congruence. subst j'. rewrite Ej. rewrite <- Er. lra. }
  destruct (measured_unique _ _ _ _ _ _ _ N2 Me X) as (<- & <-).
  rewrite A, V.
  assert (K : 0 < / vnorm n) by (now apply Rinv_0_lt_compat).
  assert (N4 : normalised n <> vzero) by (now apply normalised_not_zero).
  assert (S' : side_of (normalised n) (trajectory d t) (v t) (scp_position d) <> 0).
  { rewrite normalised_scale, side_scaled. intros E. apply Rmult_integral in E. destruct E; [lra|contradiction]. }
  rewrite (C33_finds_every_solution (mkPlane (scp_position d) (normalised n)) r rdot (trajectory d t) (v t) q); cbn [ref_ecf u_gpn bind]; auto.
  - rewrite normalised_scale. apply moves_scaled; [lra|]. eapply side_moves; exact S.
  - now rewrite height_of_normalised.
  - apply on_plane_eq. now apply on_plane_normalised.
  - rewrite normalised_scale, !side_scaled.
    set (x := side_of n (trajectory d t) (v t) q) in *. set (y := side_of n (trajectory d t) (v t) (scp_position d)) in *.
    replace (/ vnorm n * x * (/ vnorm n * y)) with (/ vnorm n * / vnorm n * (x * y)) by ring.
    apply Rmult_le_pos; [nra|exact Sd].
Qed.
Print Assumptions C83_ground_found.

(** With an elevation model a located pixel has that range and range rate, and is on the declared
    side of the track. *)
Theorem C83_terrain :
  forall to_geodetic to_geocentric (d : SicdMeta) (b : Built) (i : Image) (em : Terrain) (g : Geodetic) (v : R -> Vec),
  proper_meta d -> sicd_build d = Some b -> (forall t, velocity_at (trajectory d) t (v t)) ->
  let xy := grid_metres d (ix i) (iy i) in
  let t := coa_instant d xy in
  trajectory d t <> scp_position d -> (forall r rdot, measured d v xy r rdot -> 0 < r) ->
  built_image_to_world to_geodetic to_geocentric b i (Some em) = Ok (Some g) ->
  exists q r rdot, g = to_geodetic q /\ measured d v xy r rdot /\
  distance (trajectory d t) q = r /\ range_rate (trajectory d t) (v t) q = rdot /\
  let left := vdot (vsub q (trajectory d t)) (vcross (trajectory d t) (v t)) in
  (side d = "R"%string -> left <= 0) /\ (side d <> "R"%string -> 0 <= left).
Proof.
  intros tg tc d b i em g v W B Hv xy t N1 Pos H.
  destruct (built d b W B) as [(c & -> & _)|(m & -> & E1 & E2 & E3 & E4 & E5)]; [discriminate|].
  cbn [built_image_to_world] in H. unfold sicd_image_to_world in H. rewrite E4, E1, E2 in H. fold xy in H.
  specialize (E5 v Hv xy). cbv zeta in E5. fold t in E5. set (c := precise_rrdot (projection m) xy) in *. destruct E5 as (A & V & M & _).
  rewrite A, V in H. unfold make_dem in H. destruct (describe_region em (tg (scp_position d))) as [[[lo hi] sp]|]; [|discriminate]. cbn [bind] in H.
  set (dm := mkDem _ _ _ _ _ _ _ _) in H.
  destruct (dem_intersection tg tc dm (r_coa c) (rdot_coa c) (trajectory d t) (v t)) as [[|[q|] ps]|] eqn:I; try discriminate. cbn [bind] in H. injection H as <-.
  assert (Q : exists s, dem_sampling tg tc dm (r_coa c) (rdot_coa c) (trajectory d t) (v t) = Ok s).
  { unfold dem_intersection in I. destruct (dem_sampling _ _ _ _ _ _ _); [eauto|discriminate]. }
  destruct Q as (s & Q). apply dem_sampling_inv in Q. destruct Q as (C & _ & _ & Nr & _). apply contour_frame in C. cbv zeta in C.
  destruct C as (Nv & _ & _ & _ & _ & _ & _ & _ & _ & Er).
  assert (N2 : v t <> vzero) by (intros E; rewrite E in Nv; assert (vnorm vzero = 0) by (now apply vnorm_zero_iff); lra).
  assert (N3 : r_coa c <> 0) by (intros E; apply Nr; rewrite Er, E; ring).
  assert (X : measured d v xy (r_coa c) (rdot_coa c)) by auto. pose proof (Pos _ _ X) as R0.
  destruct (C36_on_contour tg tc dm _ _ _ _ _ q R0 I (or_introl eq_refl)) as (D & Rr).
  pose proof (C36_side tg tc dm _ _ _ _ _ q (Rlt_le _ _ R0) I (or_introl eq_refl)) as L. cbv zeta in L. cbn [d_side dm] in L.
  exists q, (r_coa c), (rdot_coa c). split; [reflexivity|]. split; [exact X|]. split; [exact D|]. split; [exact Rr|]. exact L.
Qed.
Print Assumptions C83_terrain.

(** A model that can be used is built exactly when the grid type is known to the builder and its
    parameters are there. *)
Theorem C83_usable :
  forall (d : SicdMeta), proper_meta d ->
  ((exists m, sicd_build d = Some (Complete m)) <->
   match grid_type d, form_algo d with
   | RGAZIM, AlgoPFA => pfa_meta d <> None
   | RGAZIM, AlgoRGAZCOMP => az_sf d <> None
   | RGAZIM, _ => False
   | RGZERO, _ => inca_meta d <> None
   | _, _ => True
   end).
Proof.
  intros d (T & A & PF & IN). unfold sicd_build, sicd_from_dataclass.
  destruct (native2 _ T) as (coa & Ec & Pc). destruct (native_xyz _ A) as (arp & Ea & Pa). rewrite Ec, Ea. cbn [bind]. unfold projection_set.
  destruct (grid_type d); [destruct (form_algo d)| | | |].
  - destruct (pfa_meta d) as [p|]; cbn; [|split; [intros (m & M); discriminate|congruence]].
    destruct (PF p eq_refl) as (P1 & P2). destruct (native1 _ P1) as (po & Eo & _). destruct (native1 _ P2) as (sf & Es & _). rewrite Eo, Es. cbn. split; [discriminate|eauto].
  - cbn. split; [intros (m & M); discriminate|contradiction].
  - destruct (az_sf d) as [p|]; cbn; [|split; [intros (m & M); discriminate|congruence]]. split; [discriminate|eauto].
  - cbn. split; [intros (m & M); discriminate|contradiction].
  - destruct (inca_meta d) as [p|]; cbn; [|split; [intros (m & M); discriminate|congruence]].
    destruct (IN p eq_refl) as (P1 & P2). destruct (native1 _ P1) as (po & Eo & _). destruct (native2 _ P2) as (sf & Es & _). rewrite Eo, Es. cbn. split; [discriminate|eauto].
  - cbn. split; eauto.
  - cbn. split; eauto.
  - cbn. split; eauto.
Qed.
Print Assumptions C83_usable.

Example C83_non_vacuous :
  proper_meta demo_meta /\
  (exists b, sicd_build demo_meta = Some b /\
   built_image_to_world flat_geodetic flat_geocentric b (mkImage (-30) (-10)) None = Ok (Some (flat_geodetic (mkVec 0 4 0)))) /\
  measured demo_meta (fun _ => mkVec 2 0 0) (0, 0) 5 0.
Proof.
  assert (W : proper_meta demo_meta).
  { split; [|split; [|split; discriminate]].
    - split; [cbn; lia|]. split; [cbn; lia|]. split; [intros c [<-|[]]; cbn; lia|]. repeat constructor. intros [].
    - assert (Q : forall e k, (0 <= k)%Z -> proper1 (mkPoly1 [mkCoef1 e k] k)).
      { intros e k K. split; [exact K|]. split; [intros c [<-|[]]; cbn; lia|]. repeat constructor. intros []. }
      split; [apply Q; lia|]. split; [|apply Q; lia]. split; [cbn; lia|]. split; [intros c []|]. constructor. }
  assert (Z : distance (mkVec 0 0 3) (mkVec 0 4 0) = 5) by (apply demo_distance; cbn; lra).
  assert (Tr : forall t, trajectory demo_meta t = mkVec (2 * t) 0 3).
  { intros t. unfold trajectory, along, declared1, total. cbn. change (Pos.to_nat 1) with 1%nat. cbn. f_equal; ring. }
  assert (T0 : trajectory demo_meta 0 = mkVec 0 0 3) by (rewrite Tr; f_equal; ring).
  assert (C0 : coa_instant demo_meta (0, 0) = 0) by (unfold coa_instant, declared2, total; cbn; ring).
  assert (Ipp : plane_point (scp_position demo_meta) (row_uvect demo_meta) (col_uvect demo_meta) (0, 0) = mkVec 0 4 0) by (unfold plane_point; cbn; f_equal; ring).
  assert (Hm : measured demo_meta (fun _ => mkVec 2 0 0) (0, 0) 5 0).
  { unfold measured. cbv zeta. cbn [grid_type form_algo demo_meta]. fold demo_meta. rewrite C0, T0, Ipp. split; [lra|]. unfold range_rate. rewrite Z. cbn. field. }
  split; [exact W|]. split; [|exact Hm]. destruct (sicd_build demo_meta) as [b|] eqn:B; [|discriminate]. exists b. split; [reflexivity|].
  assert (G0 : grid_metres demo_meta (ix (mkImage (-30) (-10))) (iy (mkImage (-30) (-10))) = (0, 0)) by (unfold grid_metres; cbn; f_equal; field).
  assert (Sn : surface_normal flat_geodetic demo_meta = mkVec 0 0 1) by (apply flat_up).
  apply (C83_ground_found flat_geodetic flat_geocentric demo_meta b (mkImage (-30) (-10)) (mkVec 0 4 0) 5 0 (fun _ => mkVec 2 0 0) W B);
    rewrite ?G0, ?C0, ?T0, ?Sn; auto.
  - intros t. eapply velocity_ext with (f := fun s => mkVec (2 * s) 0 3); [intros s; symmetry; apply Tr|]. split; [|split]; cbn.
    + pose proof (derivable_pt_lim_scal id 2 t 1 (derivable_pt_lim_id t)) as D. rewrite Rmult_1_r in D. exact D.
    + apply derivable_pt_lim_const.
    + apply derivable_pt_lim_const.
  - unfold side_of. cbn. lra.
  - unfold height_over. cbn. replace (0 * (0 * 1) + 0 * (0 * 1) + 1 * (1 * 1)) with 1 by ring. rewrite sqrt_1. lra.
  - unfold on_plane. cbn. lra.
  - unfold range_rate. rewrite Z. cbn. field.
  - unfold side_of. cbn. lra.
Qed.

(** The same pixel with an elevation model, three metres below the antenna and further down. *)
Example C83_terrain_non_vacuous :
  exists b, sicd_build demo_meta = Some b /\
  built_image_to_world flat_geodetic flat_geocentric b (mkImage (-30) (-10)) (Some (hill 3))
  = Ok (Some (flat_geodetic (mkVec 0 (5 * sqrt (51/100)) (3 - 7/2)))).
Proof.
  destruct (C83_usable demo_meta (proj1 C83_non_vacuous)) as [_ U]. destruct U as [m B]; [exact I|]. exists (Complete m). split; [exact B|].
  destruct (built demo_meta _ (proj1 C83_non_vacuous) B) as [(c & F & _)|(m' & F & P & Sd & _ & G & V)]; [discriminate|]. injection F as <-.
  cbn [built_image_to_world].
  destruct (make_dem flat_geodetic (mkVec 0 4 0) "L" (hill 3)) as [d|e] eqn:M; [|discriminate].
  eapply (C36_first_returned flat_geodetic flat_geocentric m _ (hill 3) d (Some _) []).
  - rewrite P, Sd. exact M.
  - cbv zeta. assert (G0 : grid_location m (mkImage (-30) (-10)) = (0, 0)) by (rewrite G; unfold grid_metres; cbn; f_equal; field).
    rewrite G0.
    assert (Tr : forall t, trajectory demo_meta t = mkVec (2 * t) 0 3).
    { intros t. unfold trajectory, along, declared1, total. cbn. change (Pos.to_nat 1) with 1%nat. cbn. f_equal; ring. }
    assert (C0 : coa_instant demo_meta (0, 0) = 0) by (unfold coa_instant, declared2, total; cbn; ring).
    assert (Vl : forall t, velocity_at (trajectory demo_meta) t (mkVec 2 0 0)).
    { intros t. eapply velocity_ext with (f := fun s => mkVec (2 * s) 0 3); [intros s; symmetry; apply Tr|]. split; [|split]; cbn.
      - pose proof (derivable_pt_lim_scal id 2 t 1 (derivable_pt_lim_id t)) as D. rewrite Rmult_1_r in D. exact D.
      - apply derivable_pt_lim_const.
      - apply derivable_pt_lim_const. }
    destruct (V (fun _ => mkVec 2 0 0) Vl (0, 0)) as (A1 & A2 & _ & _ & A3). rewrite C0, Tr in A1, A3.
    replace (mkVec (2 * 0) 0 3) with (mkVec 0 0 3) in A1, A3 by (f_equal; ring).
    destruct (measured_unique demo_meta (fun _ => mkVec 2 0 0) (0, 0) (r_coa (precise_rrdot (projection m) (0, 0))) (rdot_coa (precise_rrdot (projection m) (0, 0))) 5 0) as [R1 R2].
    + intros F. injection F. lra.
    + apply A3; [discriminate | intros F; injection F; lra | intros F; injection F; lra].
    + apply (proj2 (proj2 C83_non_vacuous)).
    + rewrite A1, A2, R1, R2. apply (hill_found _ _ 3 2 (mkVec 0 4 0)); first [exact flat_is_flat | intros y h; reflexivity | exact M | cbn; lra].
Qed.

(** ** C84: SIDD models locate pixels by the metadata *)
Lemma sidd_ground lstsq tg tc d m i v :
  proper2 (sidd_time_coa d) -> proper_xyz (sidd_arppoly d) -> chip d = None -> not_parallel (plane_urow d) (plane_ucol d) ->
  sidd_from_dataclass lstsq d = Ok m -> (forall t, velocity_at (along (sidd_arppoly d)) t (v t)) ->
  let xy := sidd_metres d (ix i) (iy i) in
  let t := declared2 (sidd_time_coa d) (fst xy) (snd xy) in
  let arp := along (sidd_arppoly d) t in
  let n := outward (ref_position d) (vcross (plane_urow d) (plane_ucol d)) in
  let ipp := plane_point (ref_position d) (plane_urow d) (plane_ucol d) xy in
  n <> vzero /\
  sidd_image_to_world tg tc m i None =
    bind (ground_intersection (mkPlane (ref_position d) (normalised n)) (distance arp ipp) (range_rate arp (v t) ipp) arp (v t)) (fun p =>
    match p with None => Ok None | Some p => Ok (Some (tg p)) end).
Proof.
  intros P2 Px Ch Np B Hv xy t arp n ipp. unfold sidd_from_dataclass, sidd_full_model in B.
  destruct (native2 _ P2) as (coa & Ec & Pc). destruct (native_xyz _ Px) as (ap & Ea & Pa). rewrite Ec, Ea, Ch in B. cbn [bind] in B. injection B as <-.
  assert (Nc : vcross (plane_urow d) (plane_ucol d) <> vzero) by (now apply not_parallel_cross).
  assert (Nn : n <> vzero).
  { unfold n, outward. destruct (Rlt_dec _ 0); [|exact Nc]. intros E. apply Nc. unfold vscale, vzero in E. injection E as A1 A2 A3.
    apply vec_eq; cbn; lra. }
  split; [exact Nn|].
  unfold sidd_image_to_world, sicd_image_to_world. cbn [chip_transform sidd_full converter projection].
  set (gpn := compute_u_gpn _ _ _). set (sm := mkSicd _ _ gpn "L" _).
  change (grid_location sm i) with ((iy i + 0 - ref_row d) * spacing_row d, (ix i + 0 - ref_col d) * spacing_col d).
  rewrite !Rplus_0_r. fold (sidd_metres d (ix i) (iy i)). fold xy.
  set (ps := mkProjectionSet _ coa ap vzero vzero 0).
  assert (VP : forall s, polyxyz (polyxyz_deriv ap) s = v s).
  { intros s. eapply velocity_unique; [apply polyxyz_velocity|]. eapply velocity_ext; [|apply Hv]. intros u. symmetry. apply Pa. }
  assert (Add0 : forall a, vadd a vzero = a) by (intros; apply vec_eq; cbn; ring).
  assert (Et : t_coa (precise_rrdot ps xy) = t) by (unfold precise_rrdot; cbn; apply Pc).
  destruct (C34_planar ps xy _ _ _ eq_refl) as (X & Y). cbv zeta in X, Y. rewrite Et in X, Y.
  change (arp_poly ps) with ap in X, Y. change (range_bias ps) with 0 in X. change (varp_poly ps) with (polyxyz_deriv ap) in Y. rewrite Pa in X, Y. rewrite VP in Y. rewrite Rplus_0_r in X.
  fold arp ipp in X, Y. rewrite X, Y.
  change (arp_coa (precise_rrdot ps xy)) with (vadd (polyxyz ap (t_coa (precise_rrdot ps xy))) vzero).
  change (varp_coa (precise_rrdot ps xy)) with (vadd (polyxyz (polyxyz_deriv ap) (t_coa (precise_rrdot ps xy))) vzero).
  rewrite Et, Pa, VP, !Add0. fold arp.
  change (default_surface tg sm) with (mkPlane (ref_position d) (normalised gpn)).
  replace (normalised gpn) with (normalised n); [reflexivity|].
  destruct (C68_ground_plane_normal (ref_position d) _ _ Np) as (U & _). fold gpn in U. rewrite (normalised_of_unit gpn) by (now apply unit_eq).
  unfold gpn, compute_u_gpn, n, outward. set (c := vcross _ _) in *. pose proof (vnorm_pos_iff _ Nc) as P. assert (K : 0 < / vnorm c) by (now apply Rinv_0_lt_compat).
  assert (Dt : vdot (normalised c) (ref_position d) = / vnorm c * vdot c (ref_position d)) by (unfold normalised; apply vdot_scale_l). rewrite Dt.
  assert (Vn : vnorm (vscale (-1) c) = vnorm c) by (unfold vnorm; rewrite vdot_scale_l, vdot_scale_r; f_equal; ring).
  destruct (Rlt_dec (vdot c (ref_position d)) 0) as [L|L]; destruct (Rlt_dec (/ vnorm c * _) 0) as [L'|L']; try reflexivity.
  - unfold normalised. rewrite Vn. apply vec_eq; cbn; ring.
  - exfalso. apply L'. nra.
  - exfalso. nra.
Qed.

(** An unchipped SIDD pixel is at the reference point plus its offsets along rows and columns: the
    image plane is the ground plane.  The condition says that pixel and reference point are on the
    same side of the track. *)
Theorem C84_ground :
  forall lstsq to_geodetic to_geocentric (d : SiddMeta) (m : SiddModel) (i : Image) (v : R -> Vec),
  proper2 (sidd_time_coa d) -> proper_xyz (sidd_arppoly d) -> chip d = None -> not_parallel (plane_urow d) (plane_ucol d) ->
  sidd_from_dataclass lstsq d = Ok m -> (forall t, velocity_at (along (sidd_arppoly d)) t (v t)) ->
  let xy := sidd_metres d (ix i) (iy i) in
  let t := declared2 (sidd_time_coa d) (fst xy) (snd xy) in
  let arp := along (sidd_arppoly d) t in
  let n := outward (ref_position d) (vcross (plane_urow d) (plane_ucol d)) in
  let ipp := plane_point (ref_position d) (plane_urow d) (plane_ucol d) xy in
  0 < side_of n arp (v t) ipp * side_of n arp (v t) (ref_position d) ->
  (forall g, sidd_image_to_world to_geodetic to_geocentric m i None = Ok (Some g) -> g = to_geodetic ipp) /\
  (0 <= height_over (ref_position d) n arp -> sidd_image_to_world to_geodetic to_geocentric m i None = Ok (Some (to_geodetic ipp))).
Proof.
  intros lstsq tg tc d m i v P2 Px Ch Np B Hv xy t arp n ipp S.
  destruct (sidd_ground lstsq tg tc d m i v P2 Px Ch Np B Hv) as (Nn & E). cbv zeta in E. fold xy in E. fold t in E. fold arp n ipp in E. rewrite E.
  fold xy t n in Nn. fold n in Nn. pose proof (vnorm_pos_iff _ Nn) as P. assert (K : 0 < / vnorm n) by (now apply Rinv_0_lt_compat).
  assert (N4 : normalised n <> vzero) by (now apply normalised_not_zero).
  assert (Sr : side_of n arp (v t) (ref_position d) <> 0) by (intros F; rewrite F in S; lra).
  assert (S' : side_of (normalised n) arp (v t) (ref_position d) <> 0).
  { rewrite normalised_scale, side_scaled. intros F. apply Rmult_integral in F. destruct F; [lra|contradiction]. }
  assert (Si : 0 <= side_of (normalised n) arp (v t) ipp * side_of (normalised n) arp (v t) (ref_position d)).
  { rewrite normalised_scale, !side_scaled. replace (_ * _ * _) with (/ vnorm n * / vnorm n * (side_of n arp (v t) ipp * side_of n arp (v t) (ref_position d))) by ring.
    apply Rmult_le_pos; nra. }
  assert (O : on_plane (ref_position d) (normalised n) ipp).
  { unfold on_plane, normalised, n, outward. destruct (Rlt_dec _ 0); unfold ipp, plane_point; cbn; ring. }
  split.
  - intros g. destruct (ground_intersection _ _ _ _ _) as [[q|]|] eqn:I; try discriminate. intros [= <-]. f_equal. symmetry.
    eapply (C33_unique (mkPlane (ref_position d) (normalised n))); [exact N4|exact S'|exact I|exact O|reflexivity|reflexivity|exact Si].
  - intros Hh. rewrite (C33_finds_every_solution (mkPlane (ref_position d) (normalised n)) _ _ arp (v t) ipp); cbn [ref_ecf u_gpn]; auto.
    + rewrite normalised_scale. apply moves_scaled; [lra|]. eapply side_moves; exact Sr.
    + rewrite height_of_normalised by exact Nn. split; [exact Hh|].
      (* the antenna is further from the point than from the plane: it would be straight above it otherwise *)
      pose proof (distance_pos arp ipp) as Dp. assert (H1 : Rabs (height_over (ref_position d) n arp) <= distance arp ipp).
      { rewrite height_over_eq, distance_eq. assert (A : vdot (vsub arp (ref_position d)) (normalised n) = vdot (vsub arp ipp) (normalised n)).
        { apply on_plane_eq in O. rewrite !vdot_sub_l in *. lra. }
        rewrite A. pose proof (lagrange (vsub arp ipp) (normalised n)) as L. rewrite (normalised_unit _ Nn) in L.
        pose proof (vdot_pos (vcross (vsub arp ipp) (normalised n))). pose proof (vnorm_sqr (vsub arp ipp)) as V. pose proof (vnorm_pos (vsub arp ipp)).
        apply Rabs_le. split; nra. }
      rewrite Rabs_right in H1 by lra. destruct H1 as [H1|H1]; [exact H1|]. exfalso.
      apply on_plane_eq in O. rewrite height_over_eq, distance_eq in H1.
      assert (A : vdot (vsub arp (ref_position d)) (normalised n) = vdot (vsub arp ipp) (normalised n)) by (rewrite !vdot_sub_l in *; lra).
      rewrite A in H1. pose proof (lagrange (vsub arp ipp) (normalised n)) as L. rewrite (normalised_unit _ Nn) in L.
      pose proof (vnorm_sqr (vsub arp ipp)) as V. rewrite H1 in L.
      assert (Z : vcross (vsub arp ipp) (normalised n) = vzero) by (apply vdot_zero; rewrite L; lra).
      assert (F : side_of (normalised n) arp (v t) ipp = 0).
      { rewrite side_of_eq. assert (Tp : forall a b c, vdot (vcross a b) c = - vdot (vcross a c) b) by (intros; unfold vdot; cbn; ring).
        rewrite Tp, Z. unfold vdot, vzero. cbn. ring. }
      rewrite normalised_scale, side_scaled in F. apply Rmult_integral in F. destruct F as [F|F]; [lra|]. rewrite F in S. lra.
Qed.
Print Assumptions C84_ground.

Lemma sidd_terrain lstsq tg tc d m i em v :
  proper2 (sidd_time_coa d) -> proper_xyz (sidd_arppoly d) -> chip d = None ->
  sidd_from_dataclass lstsq d = Ok m -> (forall t, velocity_at (along (sidd_arppoly d)) t (v t)) ->
  let xy := sidd_metres d (ix i) (iy i) in
  let t := declared2 (sidd_time_coa d) (fst xy) (snd xy) in
  let arp := along (sidd_arppoly d) t in
  let ipp := plane_point (ref_position d) (plane_urow d) (plane_ucol d) xy in
  sidd_image_to_world tg tc m i (Some em) =
    bind (make_dem tg (ref_position d) "L" em) (fun dm =>
    bind (dem_intersection tg tc dm (distance arp ipp) (range_rate arp (v t) ipp) arp (v t)) (fun ps =>
    match ps with [] => Err IndexError | None :: _ => Ok None | Some p :: _ => Ok (Some (tg p)) end)).
Proof.
  intros P2 Px Ch B Hv xy t arp ipp. unfold sidd_from_dataclass, sidd_full_model in B.
  destruct (native2 _ P2) as (coa & Ec & Pc). destruct (native_xyz _ Px) as (ap & Ea & Pa). rewrite Ec, Ea, Ch in B. cbn [bind] in B. injection B as <-.
  unfold sidd_image_to_world, sicd_image_to_world. cbn [chip_transform sidd_full converter projection side_of_track].
  set (gpn := compute_u_gpn _ _ _). set (sm := mkSicd _ _ gpn _ _).
  change (grid_location sm i) with ((iy i + 0 - ref_row d) * spacing_row d, (ix i + 0 - ref_col d) * spacing_col d).
  rewrite !Rplus_0_r. fold (sidd_metres d (ix i) (iy i)). fold xy.
  set (ps := mkProjectionSet _ coa ap vzero vzero 0) in *.
  assert (VP : forall s, polyxyz (polyxyz_deriv ap) s = v s).
  { intros s. eapply velocity_unique; [apply polyxyz_velocity|]. eapply velocity_ext; [|apply Hv]. intros u. symmetry. apply Pa. }
  assert (Add0 : forall a, vadd a vzero = a) by (intros; apply vec_eq; cbn; ring).
  assert (Et : t_coa (precise_rrdot ps xy) = t) by (unfold precise_rrdot; cbn; apply Pc).
  destruct (C34_planar ps xy _ _ _ eq_refl) as (X & Y). cbv zeta in X, Y. rewrite Et in X, Y.
  change (arp_poly ps) with ap in X, Y. change (range_bias ps) with 0 in X. change (varp_poly ps) with (polyxyz_deriv ap) in Y. rewrite Pa in X, Y. rewrite VP in Y. rewrite Rplus_0_r in X.
  fold arp ipp in X, Y. rewrite X, Y.
  change (arp_coa (precise_rrdot ps xy)) with (vadd (polyxyz ap (t_coa (precise_rrdot ps xy))) vzero).
  change (varp_coa (precise_rrdot ps xy)) with (vadd (polyxyz (polyxyz_deriv ap) (t_coa (precise_rrdot ps xy))) vzero).
  rewrite Et, Pa, VP, !Add0. reflexivity.
Qed.

(** With an elevation model a located pixel is as far from the antenna as the image plane point,
    with the same range rate, but always on the left of the track: the builder passes no side, and
    the metadata of an image taken to the right does not matter. *)
Theorem C84_terrain_left :
  forall lstsq to_geodetic to_geocentric (d : SiddMeta) (m : SiddModel) (i : Image) (em : Terrain) (g : Geodetic) (v : R -> Vec),
  proper2 (sidd_time_coa d) -> proper_xyz (sidd_arppoly d) -> chip d = None ->
  sidd_from_dataclass lstsq d = Ok m -> (forall t, velocity_at (along (sidd_arppoly d)) t (v t)) ->
  let xy := sidd_metres d (ix i) (iy i) in
  let t := declared2 (sidd_time_coa d) (fst xy) (snd xy) in
  let arp := along (sidd_arppoly d) t in
  let ipp := plane_point (ref_position d) (plane_urow d) (plane_ucol d) xy in
  sidd_image_to_world to_geodetic to_geocentric m i (Some em) = Ok (Some g) -> arp <> ipp ->
  exists q, g = to_geodetic q /\ distance arp q = distance arp ipp /\ range_rate arp (v t) q = range_rate arp (v t) ipp /\
  0 <= vdot (vsub q arp) (vcross arp (v t)).
Proof.
  intros lstsq tg tc d m i em g v P2 Px Ch B Hv xy t arp ipp H Na.
  rewrite (sidd_terrain lstsq tg tc d m i em v P2 Px Ch B Hv) in H. cbv zeta in H. fold xy in H. fold t in H. fold arp in H. fold ipp in H.
  unfold make_dem in H. destruct (describe_region em _) as [[[lo hi] sp]|]; [|discriminate]. cbn [bind] in H.
  set (dm := mkDem _ _ _ _ _ _ _ _) in H.
  destruct (dem_intersection tg tc dm _ _ arp (v t)) as [[|[q|] rest]|] eqn:I; try discriminate. cbn [bind] in H. injection H as <-.
  assert (R0 : 0 < distance arp ipp).
  { destruct (distance_pos arp ipp) as [L|L]; [exact L|]. exfalso. apply Na. rewrite distance_eq in L. symmetry in L. apply vnorm_zero_iff in L.
    assert (Z : forall a b, vsub a b = vzero -> a = b) by (intros [] [] E; injection E as E1 E2 E3; apply vec_eq; cbn; lra).
    first [exact (Z _ _ L)|exact (eq_sym (Z _ _ L))]. }
  destruct (C36_on_contour tg tc dm _ _ _ _ _ q R0 I (or_introl eq_refl)) as (D & Rr).
  destruct (C36_side tg tc dm _ _ _ _ _ q (Rlt_le _ _ R0) I (or_introl eq_refl)) as (_ & L).
  exists q. split; [reflexivity|]. split; [exact D|]. split; [exact Rr|]. apply L. discriminate.
Qed.
Print Assumptions C84_terrain_left.

Example C84_non_vacuous :
  let d := mkSiddMeta (mkVec 0 4 0) 20 10 (mkVec 1 0 0) (mkVec 0 1 0) 2 (1/2) (mkPoly2 [mkCoef2 0 0 0] 0 0)
             (mkXyzPoly (mkPoly1 [mkCoef1 2 1] 1) (mkPoly1 [] 0) (mkPoly1 [mkCoef1 3 0] 0)) None in
  exists m, sidd_from_dataclass (fun _ _ => Err LinAlgError) d = Ok m /\
  sidd_image_to_world flat_geodetic flat_geocentric m (mkImage 12 21) None = Ok (Some (flat_geodetic (mkVec 2 5 0))).
Proof.
  cbv zeta. set (d := mkSiddMeta _ _ _ _ _ _ _ _ _ _). destruct (sidd_from_dataclass (fun _ _ => Err LinAlgError) d) as [m|] eqn:E; [|discriminate].
  exists m. split; [reflexivity|].
  assert (Q : forall e k, (0 <= k)%Z -> proper1 (mkPoly1 [mkCoef1 e k] k)).
  { intros e k K. split; [exact K|]. split; [intros c [<-|[]]; cbn; lia|]. repeat constructor. intros []. }
  assert (Tr : forall t, along (sidd_arppoly d) t = mkVec (2 * t) 0 3).
  { intros t. unfold along, declared1, total. cbn. change (Pos.to_nat 1) with 1%nat. cbn. f_equal; ring. }
  assert (M : sidd_metres d (ix (mkImage 12 21)) (iy (mkImage 12 21)) = (2, 1)) by (unfold sidd_metres; cbn; f_equal; field).
  assert (T : declared2 (sidd_time_coa d) 2 1 = 0) by (unfold declared2, total; cbn; ring).
  assert (O : outward (ref_position d) (vcross (plane_urow d) (plane_ucol d)) = mkVec 0 0 1).
  { unfold outward. destruct (Rlt_dec _ 0) as [L|L]; [exfalso; unfold vdot in L; cbn in L; lra|]. cbn. unfold vcross. cbn. f_equal; ring. }
  assert (I : plane_point (ref_position d) (plane_urow d) (plane_ucol d) (2, 1) = mkVec 2 5 0) by (unfold plane_point; cbn; f_equal; ring).
  pose proof (C84_ground (fun _ _ => Err LinAlgError) flat_geodetic flat_geocentric d m (mkImage 12 21) (fun _ => mkVec 2 0 0)) as C.
  cbv zeta in C. rewrite M in C. cbn [fst snd] in C. rewrite T, O, I, Tr in C. apply C; clear C.
  - split; [cbn; lia|]. split; [cbn; lia|]. split; [intros c [<-|[]]; cbn; lia|]. repeat constructor. intros [].
  - split; [apply Q; lia|]. split; [|apply Q; lia]. split; [cbn; lia|]. split; [intros c []|]. constructor.
  - reflexivity.
  - right. right. cbn. lra.
  - exact E.
  - intros t. eapply velocity_ext with (f := fun s => mkVec (2 * s) 0 3); [intros s; symmetry; apply Tr|]. split; [|split]; cbn.
    + pose proof (derivable_pt_lim_scal id 2 t 1 (derivable_pt_lim_id t)) as D. rewrite Rmult_1_r in D. exact D.
    + apply derivable_pt_lim_const.
    + apply derivable_pt_lim_const.
  - unfold side_of. cbn. lra.
  - unfold height_over. cbn. replace (0 * (0 * 1) + 0 * (0 * 1) + 1 * (1 * 1)) with 1 by ring. rewrite sqrt_1. lra.
Qed.
(** The pixel of the reference point, located on terrain below it. *)
Example C84_terrain_non_vacuous :
  let d := mkSiddMeta (mkVec 0 4 0) 20 10 (mkVec 1 0 0) (mkVec 0 1 0) 2 (1/2) (mkPoly2 [mkCoef2 0 0 0] 0 0)
             (mkXyzPoly (mkPoly1 [mkCoef1 2 1] 1) (mkPoly1 [] 0) (mkPoly1 [mkCoef1 3 0] 0)) None in
  exists m, sidd_from_dataclass (fun _ _ => Err LinAlgError) d = Ok m /\
  sidd_image_to_world flat_geodetic flat_geocentric m (mkImage 10 20) (Some (hill 3)) = Ok (Some (flat_geodetic (mkVec 0 (5 * sqrt (51/100)) (3 - 7/2)))).
Proof.
  cbv zeta. set (d := mkSiddMeta _ _ _ _ _ _ _ _ _ _). destruct (sidd_from_dataclass (fun _ _ => Err LinAlgError) d) as [m|] eqn:E; [|discriminate].
  exists m. split; [reflexivity|].
  assert (Q : forall e k, (0 <= k)%Z -> proper1 (mkPoly1 [mkCoef1 e k] k)).
  { intros e k K. split; [exact K|]. split; [intros c [<-|[]]; cbn; lia|]. repeat constructor. intros []. }
  assert (Tr : forall t, along (sidd_arppoly d) t = mkVec (2 * t) 0 3).
  { intros t. unfold along, declared1, total. cbn. change (Pos.to_nat 1) with 1%nat. cbn. f_equal; ring. }
  assert (M : sidd_metres d (ix (mkImage 10 20)) (iy (mkImage 10 20)) = (0, 0)) by (unfold sidd_metres; cbn; f_equal; field).
  assert (T : declared2 (sidd_time_coa d) 0 0 = 0) by (unfold declared2, total; cbn; ring).
  assert (I : plane_point (ref_position d) (plane_urow d) (plane_ucol d) (0, 0) = mkVec 0 4 0) by (unfold plane_point; cbn; f_equal; ring).
  assert (Z : distance (mkVec 0 0 3) (mkVec 0 4 0) = 5) by (apply demo_distance; cbn; lra).
  assert (Y : range_rate (mkVec 0 0 3) (mkVec 2 0 0) (mkVec 0 4 0) = 0) by (unfold range_rate; rewrite Z; cbn; field).
  rewrite (sidd_terrain (fun _ _ => Err LinAlgError) flat_geodetic flat_geocentric d m (mkImage 10 20) (hill 3) (fun _ => mkVec 2 0 0)); cbv zeta.
  - rewrite M. cbn [fst snd]. rewrite T, I, Tr. replace (mkVec (2 * 0) 0 3) with (mkVec 0 0 3) by (f_equal; ring). rewrite Z, Y.
    destruct (make_dem flat_geodetic (ref_position d) "L" (hill 3)) as [dm|] eqn:Dm; [|discriminate]. cbn [bind].
    rewrite (hill_found _ _ 3 2 (ref_position d) dm); first [exact flat_is_flat | exact Dm | reflexivity | intros y h; reflexivity | cbn; lra].
  - split; [cbn; lia|]. split; [cbn; lia|]. split; [intros c [<-|[]]; cbn; lia|]. repeat constructor. intros [].
  - split; [apply Q; lia|]. split; [|apply Q; lia]. split; [cbn; lia|]. split; [intros c []|]. constructor.
  - reflexivity.
  - exact E.
  - intros t. eapply velocity_ext with (f := fun s => mkVec (2 * s) 0 3); [intros s; symmetry; apply Tr|]. split; [|split]; cbn.
    + pose proof (derivable_pt_lim_scal id 2 t 1 (derivable_pt_lim_id t)) as D. rewrite Rmult_1_r in D. exact D.
    + apply derivable_pt_lim_const.
    + apply derivable_pt_lim_const.
Qed.
