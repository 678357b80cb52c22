(** Lemmas about the intersections of R/Rdot contours with planes, constant heights and terrain. *)
Require Import ZArith Reals String List Lra Lia Bool.
Require Import Verif.Base Verif.BaseFacts Verif.Vec Verif.VecFacts Verif.SicdModel Verif.PolySpec Verif.SicdSpec Verif.SicdProofs.
Import ListNotations.
Local Open Scope R_scope.

(** *** Orthonormal frames *)
Lemma frame_decompose x z d : vdot x x = 1 -> vdot z z = 1 -> vdot x z = 0 ->
  d = vadd (vadd (vscale (vdot d z) z) (vscale (vdot d x) x)) (vscale (vdot d (vcross z x)) (vcross z x)).
Proof.
  intros X Z N.
  assert (D : vscale (vdot x x * vdot z z - vdot x z * vdot x z) d
    = vadd (vadd (vscale (vdot z z * vdot d x - vdot x z * vdot d z) x) (vscale (vdot x x * vdot d z - vdot x z * vdot d x) z))
           (vscale (vdot d (vcross x z)) (vcross x z))) by (apply vec_eq; unfold vdot; cbn; ring).
  rewrite X, Z, N in D.
  transitivity (vscale (1 * 1 - 0 * 0) d); [vec_ring|]. rewrite D. apply vec_eq; unfold vdot; cbn; ring.
Qed.

Section Plane_frame.
Variables (z v : Vec).
Hypothesis Z : vdot z z = 1.
Let vz0 := vdot v z.
Let w := sqrt (vnorm v * vnorm v - vz0 * vz0).
Let x := vscale (/ w) (vsub v (vscale vz0 z)).
Let y := vcross z x.

Lemma w_sqr : w * w = vdot v v - vz0 * vz0.
Proof.
  unfold w. rewrite vnorm_sqr. apply sqrt_sqrt.
  pose proof (vdot_pos (vcross v z)) as P. rewrite lagrange, Z in P. fold vz0 in P. lra.
Qed.
Lemma w_pos : 0 <= w. Proof. apply sqrt_pos. Qed.
Hypothesis W : w <> 0.
Lemma x_z : vdot x z = 0.
Proof. unfold x. rewrite vdot_scale_l, vdot_sub_l, vdot_scale_l, Z. fold vz0. ring. Qed.
Lemma x_x : vdot x x = 1.
Proof.
  assert (E : vdot (vsub v (vscale vz0 z)) (vsub v (vscale vz0 z)) = w * w).
  { rewrite w_sqr, vdot_sub_l, !vdot_sub_r, !vdot_scale_l, !vdot_scale_r, Z, (vdot_comm z v). fold vz0. ring. }
  unfold x. rewrite vdot_scale_l, vdot_scale_r, E. field. exact W.
Qed.
Lemma y_x : vdot y x = 0. Proof. unfold y. apply vdot_cross_r. Qed.
Lemma y_z : vdot y z = 0. Proof. unfold y. apply vdot_cross_l. Qed.
Lemma y_y : vdot y y = 1.
Proof. unfold y. rewrite lagrange, Z, x_x, (vdot_comm z x), x_z. ring. Qed.
Lemma v_decompose : v = vadd (vscale w x) (vscale vz0 z).
Proof. unfold x. apply vec_eq; cbn; field; exact W. Qed.
Lemma v_x : vdot v x = w.
Proof. rewrite v_decompose at 1. rewrite vdot_add_l, !vdot_scale_l, x_x, (vdot_comm z x), x_z. ring. Qed.
Lemma v_y : vdot v y = 0.
Proof. rewrite v_decompose at 1. rewrite vdot_add_l, !vdot_scale_l, (vdot_comm x y), y_x, (vdot_comm z y), y_z. ring. Qed.
Lemma side_y d : vdot (vcross d v) z = - w * vdot d y.
Proof. rewrite v_decompose at 1. unfold y, vdot. cbn. ring. Qed.

(** A point of the plane at range r with range rate rdot. *)
Lemma solution_coordinates a r rdot d : 0 < r ->
  vdot d z = - a -> vnorm d = r -> vdot v (vscale (-1) d) / r = rdot ->
  w * vdot d x = vz0 * a - r * rdot /\ vdot d x * vdot d x + vdot d y * vdot d y = r * r - a * a.
Proof.
  intros R0 Hz Hn Hr.
  pose proof (frame_decompose x z d x_x Z x_z) as D. fold y in D. split.
  - rewrite <- Hr. rewrite vdot_scale_r.
    assert (E : vdot v d = - vz0 * a + vdot d x * w).
    { rewrite D at 1. rewrite !vdot_add_r, !vdot_scale_r, v_x, v_y, Hz. fold vz0. ring. }
    rewrite E. field. lra.
  - assert (E : vdot d d = vdot d z * vdot d z + vdot d x * vdot d x + vdot d y * vdot d y).
    { rewrite D at 2. rewrite !vdot_add_r, !vdot_scale_r. ring. }
    rewrite Hz in E. rewrite <- Hn, vnorm_sqr, E. ring.
Qed.
End Plane_frame.

(** *** The ground plane intersection (C33) *)
Lemma sign_cases s : (0 < s /\ sign s = 1) \/ (s < 0 /\ sign s = -1) \/ (s = 0 /\ sign s = 0).
Proof. unfold sign. destruct (Rlt_dec 0 s); [left; auto|]. destruct (Rlt_dec s 0); [right; left; auto|]. right; right. split; lra. Qed.

Lemma velocity_along_normal z v : vdot z z = 1 -> sqrt (vnorm v * vnorm v - vdot v z * vdot v z) = 0 -> v = vscale (vdot v z) z.
Proof.
  intros Z W. pose proof (w_sqr z v Z) as S. rewrite W in S.
  assert (E : vdot (vsub v (vscale (vdot v z) z)) (vsub v (vscale (vdot v z) z)) = 0).
  { rewrite vdot_sub_l, !vdot_sub_r, !vdot_scale_l, !vdot_scale_r, Z, (vdot_comm z v). lra. }
  apply vdot_zero in E. unfold vsub, vzero in E. injection E as A B C. apply vec_eq; cbn in *; lra.
Qed.
Lemma moves_across_w n v : n <> vzero -> moves_across n v ->
  sqrt (vnorm v * vnorm v - vdot v (normalised n) * vdot v (normalised n)) <> 0.
Proof.
  intros N M W. apply velocity_along_normal in W; [|now apply normalised_unit].
  apply (M (vdot v (normalised n) * / vnorm n)). rewrite W at 1. unfold normalised at 2. apply vec_eq; cbn; ring.
Qed.
Lemma w_moves_across n v : n <> vzero ->
  sqrt (vnorm v * vnorm v - vdot v (normalised n) * vdot v (normalised n)) <> 0 -> moves_across n v.
Proof.
  intros N W k E. apply W. pose proof (normalised_unit _ N) as U. pose proof (vnorm_pos_iff _ N) as P.
  rewrite vnorm_sqr. replace v with (vscale (k * vnorm n) (normalised n)).
  - rewrite !vdot_scale_l, vdot_scale_r, U. replace (k * vnorm n * (k * vnorm n * 1) - _) with 0 by ring. apply sqrt_0.
  - rewrite E. unfold normalised. apply vec_eq; cbn; field; lra.
Qed.

Lemma height_over_eq ref n p : height_over ref n p = vdot (vsub p ref) (normalised n).
Proof.
  unfold height_over. rewrite normalised_dot. f_equal; [unfold vdot; cbn; ring|].
  unfold vnorm, vdot. f_equal. ring.
Qed.
Lemma side_normalised n a v p : n <> vzero ->
  side_of n a v p = vnorm n * vdot (vcross (vsub a p) v) (normalised n) /\ 0 < vnorm n.
Proof.
  intros N. apply vnorm_pos_iff in N. split; [|exact N]. rewrite side_of_eq, normalised_dot. field. lra.
Qed.

(** What a point of the plane with the wanted range and range rate satisfies. *)
Lemma candidate pl r rdot arp v q : u_gpn pl <> vzero -> 0 < r ->
  on_plane (ref_ecf pl) (u_gpn pl) q -> distance arp q = r -> range_rate arp v q = rdot ->
  let z := normalised (u_gpn pl) in
  let d := vsub q arp in
  vdot d z = - vdot (vsub arp (ref_ecf pl)) z /\ vnorm d = r /\ vdot v (vscale (-1) d) / r = rdot.
Proof.
  intros N R0 P D V z d. apply (on_plane_normalised _ _ _ N) in P. fold z in P.
  assert (E : vnorm d = r).
  { rewrite <- D, distance_eq. unfold vnorm. f_equal. unfold d, vdot. cbn. ring. }
  split; [|split].
  - unfold d. rewrite vdot_sub_l in *. rewrite vdot_sub_l. lra.
  - exact E.
  - rewrite <- V, range_rate_eq, <- distance_eq, D. f_equal. f_equal. unfold d. vec_ring.
Qed.

Lemma radical_nonneg c : Rabs c <= 1 -> 0 <= 1 - c * c.
Proof. intros H. unfold Rabs in H. destruct (Rcase_abs c); nra. Qed.

Section Ground.
Variables (pl : Plane) (r rdot : R) (arp v : Vec).
Hypothesis N : u_gpn pl <> vzero.
Let z := normalised (u_gpn pl).
Let a := vdot (vsub arp (ref_ecf pl)) z.
Let vz0 := vdot v z.
Let w := sqrt (vnorm v * vnorm v - vz0 * vz0).
Let x := vscale (/ w) (vsub v (vscale vz0 z)).
Let y := vcross z x.
Let g := sqrt (r * r - a * a).
Let c := (- rdot + vz0 * (a / r)) / (w * (g / r)).
Let look := sign (vdot (vcross (vsub arp (ref_ecf pl)) v) z).
Let Z : vdot z z = 1 := normalised_unit _ N.

Lemma ground_inv q : ground_intersection pl r rdot arp v = Ok (Some q) ->
  0 < r /\ 0 <= r * r - a * a /\ w <> 0 /\ g <> 0 /\ Rabs c <= 1 /\
  q = vadd (vadd (vsub arp (vscale a z)) (vscale (g * c) x)) (vscale (g * (look * sqrt (1 - c * c))) y).
Proof.
  unfold ground_intersection. fold z a vz0. fold w. fold x. fold y g. fold c. fold look.
  destruct (Rlt_dec r a) as [|A]; [discriminate|]. destruct (Rlt_dec (r * r - a * a) 0) as [|B]; [discriminate|].
  destruct (Req_EM_T r 0) as [|C]; [discriminate|].
  destruct (Req_EM_T (w * (g / r)) 0) as [|D]; [destruct (Req_EM_T _ 0); discriminate|].
  destruct (Rlt_dec 1 (Rabs c)) as [|E]; [discriminate|]. intros [= <-].
  assert (W : w <> 0) by (intros F; apply D; rewrite F; ring).
  assert (G : g <> 0) by (intros F; apply D; rewrite F; unfold Rdiv; ring).
  assert (R0 : 0 < r).
  { destruct (Rtotal_order r 0) as [L|[L|L]]; [|lra|lra]. exfalso. apply G. unfold g.
    replace (r * r - a * a) with 0; [apply sqrt_0|]. nra. }
  split; [exact R0|]. split; [lra|]. split; [exact W|]. split; [exact G|]. split; [lra|]. reflexivity.
Qed.

Lemma ground_offsets q : ground_intersection pl r rdot arp v = Ok (Some q) ->
  vdot (vsub q arp) z = - a /\ vdot (vsub q arp) x = g * c /\ vdot (vsub q arp) y = g * (look * sqrt (1 - c * c)) /\
  vsub q arp = vadd (vadd (vscale (- a) z) (vscale (g * c) x)) (vscale (g * (look * sqrt (1 - c * c))) y).
Proof.
  intros H. apply ground_inv in H. destruct H as (R0 & _ & W & _ & _ & E). set (k := g * (look * sqrt (1 - c * c))) in *.
  assert (D : vsub q arp = vadd (vadd (vscale (- a) z) (vscale (g * c) x)) (vscale k y)).
  { rewrite E. vec_ring. }
  pose proof (x_z z v Z) as Xz. pose proof (x_x z v Z W) as Xx. pose proof (y_x z v) as Yx. pose proof (y_z z v) as Yz.
  pose proof (y_y z v Z W) as Yy. fold vz0 in Xz, Xx, Yx, Yz, Yy. fold w in Xz, Xx, Yx, Yz, Yy. fold x in Xz, Xx, Yx, Yz, Yy. fold y in Yx, Yz, Yy.
  rewrite D. rewrite !vdot_add_l, !vdot_scale_l, (vdot_comm z x), (vdot_comm z y), (vdot_comm x y), Z, Xz, Xx, Yx, Yz, Yy.
  repeat split; ring.
Qed.

Lemma gwc q : ground_intersection pl r rdot arp v = Ok (Some q) -> g * c * w = vz0 * a - r * rdot /\ g * g = r * r - a * a.
Proof.
  intros H. apply ground_inv in H. destruct H as (R0 & P & W & G & _ & _). split.
  - unfold c. field. repeat split; lra.
  - unfold g. now apply sqrt_sqrt.
Qed.

Lemma ground_on_plane q : ground_intersection pl r rdot arp v = Ok (Some q) -> on_plane (ref_ecf pl) (u_gpn pl) q.
Proof.
  intros H. apply ground_offsets in H. destruct H as (H & _). apply (on_plane_normalised _ _ _ N). fold z.
  rewrite vdot_sub_l in *. unfold a in H. rewrite vdot_sub_l in H. lra.
Qed.

Lemma look_sqr : vdot (vcross (vsub arp (ref_ecf pl)) v) z <> 0 -> look * look = 1.
Proof. unfold look. intros H. destruct (sign_cases (vdot (vcross (vsub arp (ref_ecf pl)) v) z)) as [[_ E]|[[_ E]|[E _]]]; [rewrite E; ring|rewrite E; ring|contradiction]. Qed.
Lemma side_ref : side_of (u_gpn pl) arp v (ref_ecf pl) <> 0 <-> vdot (vcross (vsub arp (ref_ecf pl)) v) z <> 0.
Proof.
  destruct (side_normalised (u_gpn pl) arp v (ref_ecf pl) N) as [E P]. fold z in E. rewrite E. split; intros H F; apply H.
  - rewrite F. ring.
  - apply Rmult_integral in F. destruct F; [lra|assumption].
Qed.

Lemma ground_range q : ground_intersection pl r rdot arp v = Ok (Some q) ->
  side_of (u_gpn pl) arp v (ref_ecf pl) <> 0 -> distance arp q = r.
Proof.
  intros H L. apply side_ref, look_sqr in L.
  destruct (ground_inv q H) as (R0 & P & W & G & C & _). destruct (ground_offsets q H) as (Oz & Ox & Oy & _). destruct (gwc q H) as [_ GG].
  rewrite distance_eq. apply vnorm_of_sqr; [lra|].
  transitivity (vdot (vsub q arp) (vsub q arp)); [unfold vdot; cbn; ring|].
  pose proof (frame_decompose x z (vsub q arp) (x_x z v Z W) Z (x_z z v Z)) as D.
  fold vz0 in D. fold w in D. fold x in D. fold y in D.
  rewrite D at 2. rewrite !vdot_add_r, !vdot_scale_r, Oz, Ox, Oy.
  pose proof (sqrt_sqrt (1 - c * c) (radical_nonneg _ C)) as S.
  replace (g * (look * sqrt (1 - c * c)) * (g * (look * sqrt (1 - c * c)))) with ((g * g) * (look * look) * (sqrt (1 - c * c) * sqrt (1 - c * c))) by ring.
  rewrite L, S. replace (g * c * (g * c)) with (g * g * (c * c)) by ring. rewrite GG. ring.
Qed.

Lemma ground_rate_num q : ground_intersection pl r rdot arp v = Ok (Some q) -> vdot v (vsub arp q) = r * rdot.
Proof.
  intros H. destruct (ground_inv q H) as (R0 & P & W & G & C & _). destruct (ground_offsets q H) as (_ & _ & _ & D). destruct (gwc q H) as [GC _].
  replace (vsub arp q) with (vscale (-1) (vsub q arp)) by vec_ring. rewrite vdot_scale_r, D, !vdot_add_r, !vdot_scale_r.
  pose proof (v_x z v Z W) as Vx. pose proof (v_y z v W) as Vy. fold vz0 in Vx, Vy. fold w in Vx, Vy. fold x in Vx, Vy. fold y in Vy.
  rewrite Vx, Vy. fold vz0. lra.
Qed.
Lemma ground_rate q : ground_intersection pl r rdot arp v = Ok (Some q) ->
  side_of (u_gpn pl) arp v (ref_ecf pl) <> 0 -> range_rate arp v q = rdot.
Proof.
  intros H L. rewrite range_rate_eq, <- distance_eq, (ground_range q H L), (ground_rate_num q H).
  destruct (ground_inv q H) as (R0 & _). field. lra.
Qed.

Lemma side_offset q : w <> 0 -> side_of (u_gpn pl) arp v q = vnorm (u_gpn pl) * (w * vdot (vsub q arp) y) /\ 0 < vnorm (u_gpn pl).
Proof.
  intros W. destruct (side_normalised (u_gpn pl) arp v q N) as [E P]. split; [|exact P]. rewrite E. fold z.
  pose proof (side_y z v W (vsub arp q)) as S. fold vz0 in S. fold w in S. fold x in S. fold y in S.
  rewrite S. f_equal. unfold vdot. cbn. ring.
Qed.
Lemma ground_side q : ground_intersection pl r rdot arp v = Ok (Some q) ->
  0 <= side_of (u_gpn pl) arp v q * side_of (u_gpn pl) arp v (ref_ecf pl).
Proof.
  intros H. destruct (ground_inv q H) as (R0 & P & W & G & C & _). destruct (ground_offsets q H) as (_ & _ & Oy & _).
  destruct (side_offset q W) as [E Pn]. rewrite E, Oy.
  destruct (side_normalised (u_gpn pl) arp v (ref_ecf pl) N) as [E' _]. fold z in E'. rewrite E'.
  assert (W0 : 0 <= w) by apply sqrt_pos. assert (G0 : 0 <= g) by apply sqrt_pos. assert (S0 : 0 <= sqrt (1 - c * c)) by apply sqrt_pos.
  set (t := vdot (vcross (vsub arp (ref_ecf pl)) v) z) in *.
  assert (LT : 0 <= look * t).
  { unfold look. fold t. destruct (sign_cases t) as [[A B]|[[A B]|[A B]]]; rewrite B; lra. }
  replace (vnorm (u_gpn pl) * (w * (g * (look * sqrt (1 - c * c)))) * (vnorm (u_gpn pl) * t))
    with ((vnorm (u_gpn pl) * vnorm (u_gpn pl)) * ((w * g) * (sqrt (1 - c * c) * (look * t)))) by ring.
  apply Rmult_le_pos; [apply Rmult_le_pos; lra|]. apply Rmult_le_pos; [apply Rmult_le_pos; lra|]. apply Rmult_le_pos; [lra | exact LT].
Qed.

Lemma ground_unique q q' : ground_intersection pl r rdot arp v = Ok (Some q) ->
  side_of (u_gpn pl) arp v (ref_ecf pl) <> 0 ->
  on_plane (ref_ecf pl) (u_gpn pl) q' -> distance arp q' = r -> range_rate arp v q' = rdot ->
  0 <= side_of (u_gpn pl) arp v q' * side_of (u_gpn pl) arp v (ref_ecf pl) -> q' = q.
Proof.
  intros H L P' D' V' S'. destruct (ground_inv q H) as (R0 & P & W & G & C & _). destruct (ground_offsets q H) as (Oz & Ox & Oy & _).
  destruct (gwc q H) as [GC GG].
  destruct (candidate pl r rdot arp v q' N R0 P' D' V') as (Cz & Cn & Cr). fold z in Cz. fold a in Cz.
  destruct (solution_coordinates z v Z W a r rdot (vsub q' arp) R0 Cz Cn Cr) as [Sx Sy].
  fold vz0 in Sx, Sy. fold w in Sx, Sy. fold x in Sx, Sy. fold y in Sy.
  assert (X : vdot (vsub q' arp) x = g * c).
  { apply (Rmult_eq_reg_l w); [|exact W]. rewrite Sx, <- GC. ring. }
  assert (Y2 : vdot (vsub q' arp) y * vdot (vsub q' arp) y = g * g * (1 - c * c)) by (rewrite X in Sy; rewrite GG in *; nra).
  assert (Y : vdot (vsub q' arp) y = g * (look * sqrt (1 - c * c))).
  { assert (W0 : 0 < w) by (assert (0 <= w) by apply sqrt_pos; lra).
    assert (G0 : 0 < g) by (assert (0 <= g) by apply sqrt_pos; lra).
    pose proof (sqrt_pos (1 - c * c)) as S0. pose proof (sqrt_sqrt (1 - c * c) (radical_nonneg _ C)) as SS.
    destruct (side_offset q' W) as [E Pn]. rewrite E in S'.
    destruct (side_normalised (u_gpn pl) arp v (ref_ecf pl) N) as [E' _]. fold z in E'. rewrite E' in S'.
    apply side_ref in L. unfold look. set (t := vdot (vcross (vsub arp (ref_ecf pl)) v) z) in *.
    set (b := vdot (vsub q' arp) y) in *. set (s := sqrt (1 - c * c)) in *.
    assert (BT : 0 <= b * t).
    { replace (vnorm (u_gpn pl) * (w * b) * (vnorm (u_gpn pl) * t)) with ((vnorm (u_gpn pl) * vnorm (u_gpn pl) * w) * (b * t)) in S' by ring.
      assert (0 < vnorm (u_gpn pl) * vnorm (u_gpn pl) * w) by (repeat apply Rmult_lt_0_compat; assumption).
      apply Rmult_le_reg_l with (vnorm (u_gpn pl) * vnorm (u_gpn pl) * w); [assumption|]. rewrite Rmult_0_r. exact S'. }
    assert (B2 : b * b = (g * s) * (g * s)) by (rewrite Y2, <- SS; ring).
    assert (GS : 0 <= g * s) by (apply Rmult_le_pos; lra).
    assert (Fac : (b - g * s) * (b + g * s) = 0) by (replace ((b - g * s) * (b + g * s)) with (b * b - (g * s) * (g * s)) by ring; lra).
    apply Rmult_integral in Fac.
    destruct (sign_cases t) as [[A B]|[[A B]|[A B]]]; rewrite B; [| |contradiction].
    - destruct Fac as [F|F]; [lra|]. assert (0 <= b) by (clear -BT A; destruct (Rlt_dec b 0); [nra|lra]). lra.
    - destruct Fac as [F|F]; [|lra]. assert (b <= 0) by (clear -BT A; destruct (Rlt_dec 0 b); [nra|lra]). lra. }
  assert (E : vsub q' arp = vsub q arp).
  { pose proof (fun d => frame_decompose x z d (x_x z v Z W) Z (x_z z v Z)) as D.
    fold vz0 in D. fold w in D. fold x in D. fold y in D.
    rewrite (D (vsub q' arp)), (D (vsub q arp)), Cz, X, Y, Oz, Ox, Oy. reflexivity. }
  unfold vsub in E. injection E as E1 E2 E3. apply vec_eq; lra.
Qed.

Lemma ground_error e : ground_intersection pl r rdot arp v = Err e ->
  e = ValueError /\ forall q, on_plane (ref_ecf pl) (u_gpn pl) q -> distance arp q = r -> range_rate arp v q = rdot -> False.
Proof.
  intros H. assert (E : e = ValueError).
  { unfold ground_intersection in H.
    repeat match type of H with context [match ?d with left _ => _ | right _ => _ end] => destruct d end; congruence. }
  split; [exact E|]. clear E. intros q P D V. destruct (Req_dec r 0) as [R1|R1].
  { unfold ground_intersection in H. fold z a in H. destruct (Rlt_dec r a) as [A|A].
    - assert (Q : vsub arp q = vzero) by (apply vnorm_zero_iff; rewrite <- distance_eq; lra).
      apply (on_plane_normalised _ _ _ N) in P. fold z in P. rewrite vdot_sub_l in P.
      assert (vdot (vsub arp q) z = 0) by (rewrite Q; unfold vdot; cbn; ring). rewrite vdot_sub_l in H0.
      unfold a in A. rewrite vdot_sub_l in A. lra.
    - destruct (Rlt_dec (r * r - a * a) 0); [discriminate|]. destruct (Req_EM_T r 0); [discriminate|contradiction]. }
  assert (R0 : 0 < r) by (pose proof (distance_pos arp q); lra).
  destruct (candidate pl r rdot arp v q N R0 P D V) as (Cz & Cn & Cr). fold z in Cz. fold a in Cz.
  assert (AR : a * a <= r * r).
  { rewrite <- Cn, vnorm_sqr. replace (a * a) with (vdot (vsub q arp) z * vdot (vsub q arp) z) by (rewrite Cz; ring).
    pose proof (vdot_pos (vcross (vsub q arp) z)) as Q. rewrite lagrange, Z in Q. lra. }
  unfold ground_intersection in H. fold z a vz0 in H. fold w in H. fold x in H. fold y g in H. fold c in H. fold look in H.
  destruct (Rlt_dec r a) as [A|A]; [nra|]. destruct (Rlt_dec (r * r - a * a) 0) as [B|B]; [discriminate|].
  destruct (Req_EM_T r 0) as [C|C]; [discriminate|].
  assert (GG : g * g = r * r - a * a) by (apply sqrt_sqrt; lra).
  destruct (Req_dec w 0) as [W|W].
  - destruct (Req_EM_T (w * (g / r)) 0) as [D1|D1]; [|apply D1; rewrite W; ring].
    destruct (Req_EM_T (- rdot + vz0 * (a / r)) 0) as [D2|D2]; [discriminate|]. apply D2. rewrite <- Cr.
    rewrite (velocity_along_normal z v Z W) at 1. fold vz0. rewrite vdot_scale_l, vdot_scale_r, (vdot_comm z), Cz. field. lra.
  - destruct (solution_coordinates z v Z W a r rdot (vsub q arp) R0 Cz Cn Cr) as [Sx Sy].
    fold vz0 in Sx, Sy. fold w in Sx, Sy. fold x in Sx, Sy. fold y in Sy. rewrite <- GG in Sy.
    set (al := vdot (vsub q arp) x) in *. set (be := vdot (vsub q arp) y) in *.
    destruct (Req_EM_T (w * (g / r)) 0) as [D1|D1].
    + assert (G : g = 0).
      { apply Rmult_integral in D1. destruct D1 as [D1|D1]; [contradiction|]. unfold Rdiv in D1. apply Rmult_integral in D1.
        destruct D1 as [D1|D1]; [exact D1|]. apply Rinv_neq_0_compat in D1; [contradiction|lra]. }
      rewrite G in Sy. assert (A0 : al = 0) by (clear -Sy; nra). rewrite A0 in Sx.
      destruct (Req_EM_T (- rdot + vz0 * (a / r)) 0) as [D2|D2]; [discriminate|]. apply D2.
      apply (Rmult_eq_reg_l r); [|lra]. rewrite Rmult_0_r. replace (r * (- rdot + vz0 * (a / r))) with (vz0 * a - r * rdot) by (field; lra). lra.
    + destruct (Rlt_dec 1 (Rabs c)) as [Cc|Cc]; [|discriminate].
      assert (G : g <> 0) by (intros F; apply D1; rewrite F; unfold Rdiv; ring).
      assert (X : al = g * c).
      { apply (Rmult_eq_reg_l w); [|exact W]. rewrite Sx. unfold c. field. repeat split; lra. }
      assert (C2 : 1 < c * c) by (clear -Cc; unfold Rabs in Cc; destruct (Rcase_abs c); nra).
      assert (G2 : 0 < g * g) by (clear -G; nra).
      rewrite X in Sy. assert (0 <= be * be) by (clear; nra). clear -Sy C2 G2 H0. nra.
Qed.

Lemma ground_nan : ground_intersection pl r rdot arp v = Ok None -> 0 < r -> moves_across (u_gpn pl) v ->
  0 <= height_over (ref_ecf pl) (u_gpn pl) arp -> r = height_over (ref_ecf pl) (u_gpn pl) arp.
Proof.
  intros H R0 M A0. rewrite height_over_eq in *. fold z in A0 |- *. fold a in A0 |- *.
  pose proof (moves_across_w _ _ N M) as W. fold z in W. fold vz0 in W. fold w in W.
  unfold ground_intersection in H. fold z a vz0 in H. fold w in H. fold x in H. fold y g in H. fold c in H. fold look in H.
  destruct (Rlt_dec r a) as [A|A]; [discriminate|]. destruct (Rlt_dec (r * r - a * a) 0) as [B|B]; [nra|].
  destruct (Req_EM_T r 0) as [C|C]; [lra|].
  destruct (Req_EM_T (w * (g / r)) 0) as [D1|D1]; [|destruct (Rlt_dec 1 (Rabs c)); discriminate].
  assert (G : g = 0).
  { apply Rmult_integral in D1. destruct D1 as [D1|D1]; [contradiction|]. unfold Rdiv in D1. apply Rmult_integral in D1.
    destruct D1 as [D1|D1]; [exact D1|]. apply Rinv_neq_0_compat in D1; [contradiction|lra]. }
  assert (GG : g * g = r * r - a * a) by (apply sqrt_sqrt; lra). rewrite G in GG. nra.
Qed.
Lemma gr_zero : r <> 0 -> (w * (g / r) = 0 <-> w = 0 \/ g = 0).
Proof.
  intros R0. split; [|intros [->| ->]; unfold Rdiv; ring]. intros D1. apply Rmult_integral in D1. destruct D1 as [D1|D1]; [now left|].
  unfold Rdiv in D1. apply Rmult_integral in D1. destruct D1 as [D1|D1]; [now right|]. apply Rinv_neq_0_compat in D1; [contradiction|lra].
Qed.
Lemma ground_nan_iff : 0 <= r ->
  (ground_intersection pl r rdot arp v = Ok None
   <-> height_over (ref_ecf pl) (u_gpn pl) arp < - r \/ (r = 0 /\ height_over (ref_ecf pl) (u_gpn pl) arp = 0) \/
       (- r <= height_over (ref_ecf pl) (u_gpn pl) arp <= r /\ 0 < r /\
        (Rabs (height_over (ref_ecf pl) (u_gpn pl) arp) = r \/ ~ moves_across (u_gpn pl) v) /\
        r * rdot = height_over vzero (u_gpn pl) v * height_over (ref_ecf pl) (u_gpn pl) arp)).
Proof.
  intros R0. rewrite !height_over_eq. fold z. fold a.
  replace (vdot (vsub v vzero) z) with vz0 by (unfold vz0, vdot; cbn; ring).
  assert (WM : w = 0 <-> ~ moves_across (u_gpn pl) v).
  { split; [intros W M; now apply (moves_across_w _ _ N M)|]. intros M. destruct (Req_dec w 0) as [|W]; [assumption|]. exfalso.
    apply M. now apply w_moves_across. }
  unfold ground_intersection. fold z a vz0. fold w. fold x. fold y g. fold c. fold look.
  destruct (Rlt_dec r a) as [A|A]; [split; [discriminate|intros [H|[H|H]]; exfalso; lra]|].
  destruct (Rlt_dec (r * r - a * a) 0) as [B|B]; [split; [intros _; left; nra|reflexivity]|].
  assert (A2 : - r <= a) by nra.
  destruct (Req_EM_T r 0) as [C|C]; [split; [intros _; right; left; lra|reflexivity]|].
  assert (GA : g = 0 <-> Rabs a = r).
  { unfold g. split.
    - intros G. apply sqrt_eq_0 in G; [|lra]. unfold Rabs. destruct (Rcase_abs a); nra.
    - intros E. replace (r * r - a * a) with 0; [apply sqrt_0|]. rewrite <- E. unfold Rabs. destruct (Rcase_abs a); ring. }
  assert (NU : - rdot + vz0 * (a / r) = 0 <-> r * rdot = vz0 * a).
  { split; intros H.
    - replace rdot with (vz0 * (a / r)) by lra. field. exact C.
    - apply (Rmult_eq_reg_l r); [|exact C]. replace (r * (- rdot + vz0 * (a / r))) with (vz0 * a - r * rdot) by (field; exact C). lra. }
  pose proof (gr_zero C) as GZ. destruct (Req_EM_T (w * (g / r)) 0) as [D|D].
  - destruct (Req_EM_T (- rdot + vz0 * (a / r)) 0) as [E|E].
    + split; [intros _|reflexivity]. right. right. split; [lra|]. split; [lra|]. split; [tauto|now apply NU].
    + split; [discriminate|]. intros [H|[H|H]]; [lra|lra|]. exfalso. tauto.
  - split.
    + destruct (Rlt_dec 1 (Rabs c)); discriminate.
    + intros [H|[H|H]]; [lra|lra|]. exfalso. tauto.
Qed.

Lemma ground_below_track q : side_of (u_gpn pl) arp v (ref_ecf pl) = 0 ->
  ground_intersection pl r rdot arp v = Ok (Some q) ->
  on_plane (ref_ecf pl) (u_gpn pl) q /\ side_of (u_gpn pl) arp v q = 0 /\ distance arp q <= r /\
  range_rate arp v q * distance arp q = rdot * r.
Proof.
  intros L H.
  destruct (ground_inv q H) as (R0 & P & W & G & C & _). destruct (ground_offsets q H) as (Oz & Ox & Oy & _). destruct (gwc q H) as [_ GG].
  assert (LK : look = 0).
  { destruct (side_normalised (u_gpn pl) arp v (ref_ecf pl) N) as [E Pn]. fold z in E. rewrite E in L.
    apply Rmult_integral in L. destruct L as [L|L]; [lra|]. unfold look. rewrite L. unfold sign.
    destruct (Rlt_dec 0 0); [lra|reflexivity]. }
  rewrite LK in Oy. assert (Y0 : vdot (vsub q arp) y = 0) by (rewrite Oy; ring).
  split; [now apply ground_on_plane|]. split; [destruct (side_offset q W) as [-> _]; rewrite Y0; ring|].
  assert (DD : distance arp q * distance arp q = a * a + g * g * (c * c)).
  { rewrite distance_eq, vnorm_sqr. transitivity (vdot (vsub q arp) (vsub q arp)); [unfold vdot; cbn; ring|].
    pose proof (frame_decompose x z (vsub q arp) (x_x z v Z W) Z (x_z z v Z)) as D.
    fold vz0 in D. fold w in D. fold x in D. fold y in D.
    rewrite D at 2. rewrite !vdot_add_r, !vdot_scale_r, Oz, Ox, Y0. ring. }
  pose proof (radical_nonneg _ C) as C1. pose proof (distance_pos arp q) as D0. split.
  - assert (0 <= g * g) by (clear; nra). assert (distance arp q * distance arp q <= r * r) by (rewrite DD; nra). nra.
  - destruct (Req_dec (distance arp q) 0) as [Z0|Z0].
    + rewrite Z0, Rmult_0_r. pose proof (ground_rate_num q H) as V.
      assert (E : vsub arp q = vzero) by (apply vnorm_zero_iff; rewrite <- distance_eq; exact Z0).
      rewrite E in V. replace (vdot v vzero) with 0 in V by (unfold vdot; cbn; ring). lra.
    + rewrite range_rate_eq, <- distance_eq, (ground_rate_num q H). field. exact Z0.
Qed.
End Ground.

(** *** Constant height (C35) *)
Lemma up_unit g : vdot (up_vector g) (up_vector g) = 1.
Proof.
  unfold vdot, up_vector. cbn.
  pose proof (sin2_cos2 (latitude g)) as A. pose proof (sin2_cos2 (longitude g)) as B. unfold Rsqr in *.
  replace (_ + _ + _) with (cos (latitude g) * cos (latitude g) * (sin (longitude g) * sin (longitude g) + cos (longitude g) * cos (longitude g)) + sin (latitude g) * sin (latitude g)) by ring.
  rewrite B. lra.
Qed.
Lemma unit_not_zero a : vdot a a = 1 -> a <> vzero.
Proof. intros H E. rewrite E in H. unfold vdot in H. cbn in H. lra. Qed.

(** The intersection with a plane given by point and normal, as an option. *)
Definition plane_hit (r rdot : R) (arp v g n : Vec) : option Vec :=
  match ground_intersection (mkPlane g n) r rdot arp v with Ok (Some p) => Some p | _ => None end.

Section Earth.
Variable to_geodetic : Vec -> Geodetic.
Variable to_geocentric : Geodetic -> Vec.

Lemma hae_loop_spec s r rdot arp v more n gref gpn st :
  vdot gpn gpn = 1 ->
  hae_loop to_geodetic s r rdot arp v more n gref gpn = Ok (Some st) ->
  exists k, count st = (n + k)%nat /\ (k <= more)%nat /\
    tangent_point (plane_hit r rdot arp v) to_geodetic (hae s) k gref gpn = Some (gpp st) /\
    u_up st = local_up (to_geodetic (gpp st)) /\ delta_hae st = excess to_geodetic (hae s) (gpp st) /\
    (delta_hae st <= delta_hae_max s \/ k = more) /\
    (forall j p, (j < k)%nat -> tangent_point (plane_hit r rdot arp v) to_geodetic (hae s) j gref gpn = Some p ->
       delta_hae_max s < excess to_geodetic (hae s) p).
Proof.
  revert n gref gpn. induction more as [|more IH]; intros n gref gpn U H; cbn [hae_loop] in H.
  - unfold make_plane in H. rewrite (normalised_of_unit gpn U) in H.
    destruct (ground_intersection (mkPlane gref gpn) r rdot arp v) as [[p|]|e] eqn:E; try discriminate.
    assert (T : tangent_point (plane_hit r rdot arp v) to_geodetic (hae s) 0 gref gpn = Some p) by (cbn; unfold plane_hit; now rewrite E).
    exists 0%nat. rewrite Nat.add_0_r.
    destruct (Rle_dec _ _) as [L|L]; injection H as <-; cbn [count gpp u_up delta_hae]; repeat split; auto; intros; lia.
  - unfold make_plane in H. rewrite (normalised_of_unit gpn U) in H.
    destruct (ground_intersection (mkPlane gref gpn) r rdot arp v) as [[p|]|e] eqn:E; try discriminate.
    assert (Hit : plane_hit r rdot arp v gref gpn = Some p) by (unfold plane_hit; now rewrite E).
    destruct (Rle_dec (elevation (to_geodetic p) - hae s) (delta_hae_max s)) as [L|L].
    + injection H as <-. exists 0%nat. rewrite Nat.add_0_r. cbn [count gpp u_up delta_hae tangent_point]. rewrite Hit.
      repeat split; auto; intros; lia.
    + apply IH in H; [|apply up_unit]. destruct H as (k & C & K & T & Up & De & St & Be).
      exists (S k). cbn [tangent_point]. rewrite Hit.
      split; [lia|]. split; [lia|]. split; [exact T|]. split; [exact Up|]. split; [exact De|]. split; [destruct St; [now left|right; lia]|].
      intros j q Hj Hq. destruct j as [|j].
      * cbn in Hq. try rewrite Hit in Hq. injection Hq as <-. unfold excess. lra.
      * cbn in Hq. try rewrite Hit in Hq. apply (Be j q); [lia|exact Hq].
Qed.

Lemma hae_loop_error s r rdot arp v more n gref gpn e :
  hae_loop to_geodetic s r rdot arp v more n gref gpn = Err e -> e = ValueError.
Proof.
  revert n gref gpn. induction more as [|more IH]; intros n gref gpn H; cbn [hae_loop] in H.
  - destruct (ground_intersection _ r rdot arp v) as [[p|]|e'] eqn:E; [destruct (Rle_dec _ _); discriminate|discriminate|].
    injection H as <-. clear -E. unfold ground_intersection in E.
    repeat match type of E with context [match ?d with left _ => _ | right _ => _ end] => destruct d end; congruence.
  - destruct (ground_intersection _ r rdot arp v) as [[p|]|e'] eqn:E; [destruct (Rle_dec _ _); [discriminate|eauto]|discriminate|].
    injection H as <-. clear -E. unfold ground_intersection in E.
    repeat match type of E with context [match ?d with left _ => _ | right _ => _ end] => destruct d end; congruence.
Qed.

(** The final step is perpendicular to the velocity and to the line of sight, and climbs down by
    the remaining height error. *)
Definition slant_step (s : Hae) (arp v : Vec) (st : HaeStop) : Vec :=
  let u := normalised (vcross (vscale (look_of (h_side s)) v) (vsub (gpp st) arp)) in
  vscale (- (delta_hae st / vdot (u_up st) u)) u.
Lemma hae_finish_inv s arp v st q : hae_finish to_geodetic to_geocentric s arp v st = Some q ->
  let slp := vadd (gpp st) (slant_step s arp v st) in
  q = to_geocentric (mkGeo (longitude (to_geodetic slp)) (latitude (to_geodetic slp)) (hae s)) /\
  vdot (slant_step s arp v st) v = 0 /\ vdot (slant_step s arp v st) (vsub (gpp st) arp) = 0 /\
  vdot (u_up st) (slant_step s arp v st) = - delta_hae st.
Proof.
  unfold hae_finish. set (spn := vcross _ _). destruct (Req_EM_T (vnorm spn) 0) as [|Ns]; [discriminate|].
  destruct (Req_EM_T (vdot (u_up st) (normalised spn)) 0) as [|Nf]; [discriminate|]. intros [= <-]. cbv zeta.
  replace (vsub (gpp st) (vscale (delta_hae st / vdot (u_up st) (normalised spn)) (normalised spn))) with (vadd (gpp st) (slant_step s arp v st)).
  2:{ unfold slant_step. fold spn. vec_ring. }
  split; [reflexivity|]. unfold slant_step. fold spn. rewrite !vdot_scale_l, vdot_scale_r.
  assert (Pn : vdot (normalised spn) v = 0 /\ vdot (normalised spn) (vsub (gpp st) arp) = 0).
  { unfold normalised. rewrite !vdot_scale_l. unfold spn. split; [|rewrite vdot_cross_r; ring].
    replace (vdot _ v) with 0; [ring|]. unfold vdot. cbn. ring. }
  destruct Pn as [P1 P2]. rewrite P1, P2. repeat split; [ring|ring|]. field. exact Nf.
Qed.
End Earth.

(** *** Contours and their scan (C36) *)
Lemma contour_frame r rdot arp v c : make_contour r rdot arp v = Some c ->
  let u := normalised v in
  let k := -1 * rdot / vnorm v in
  0 < vnorm v /\ vdot u u = 1 /\ vdot (u_rrx c) (u_rrx c) = 1 /\ vdot (u_rry c) (u_rry c) = 1 /\
  vdot (u_rrx c) (u_rry c) = 0 /\ vdot (u_rrx c) u = 0 /\ vdot (u_rry c) u = 0 /\ 0 <= 1 - k * k /\
  ctr c = vadd arp (vscale (r * k) u) /\ rrrc c = r * sqrt (1 - k * k).
Proof.
  unfold make_contour. destruct (Req_EM_T (vnorm v) 0) as [|Nv]; [discriminate|].
  destruct (Rlt_dec _ 0) as [|K]; [discriminate|]. set (rry := vcross (normalised arp) (normalised v)).
  destruct (Req_EM_T (vnorm rry) 0) as [|Nr]; [discriminate|]. intros [= <-]. cbn [ctr rrrc u_rrx u_rry]. cbv zeta.
  assert (V : v <> vzero) by (intros E; apply Nv; now apply vnorm_zero_iff).
  assert (Rr : rry <> vzero) by (intros E; apply Nr; now apply vnorm_zero_iff).
  pose proof (normalised_unit _ V) as Uv. pose proof (normalised_unit _ Rr) as Ur.
  assert (P : vdot (normalised rry) (normalised v) = 0).
  { unfold normalised at 1. rewrite vdot_scale_l. unfold rry. rewrite vdot_cross_r. ring. }
  split; [now apply vnorm_pos_iff|]. split; [exact Uv|].
  split; [rewrite lagrange, Ur, Uv, P; ring|]. split; [exact Ur|].
  split; [apply vdot_cross_l|]. split; [apply vdot_cross_r|]. split; [exact P|]. split; [lra|]. split; reflexivity.
Qed.

Lemma contour_point_on r rdot arp v c look k p : make_contour r rdot arp v = Some c -> 0 < r -> look * look = 1 ->
  contour_point c look k = Some p -> distance arp p = r /\ range_rate arp v p = rdot.
Proof.
  intros C R0 L. apply contour_frame in C. cbv zeta in C. destruct C as (Pv & Uu & Xx & Yy & Xy & Xu & Yu & K0 & Ec & Er).
  unfold contour_point. destruct (Rlt_dec _ 0) as [|Kc]; [discriminate|]. intros [= <-].
  set (u := normalised v) in *. set (q := -1 * rdot / vnorm v) in *. set (sn := look * sqrt (1 - k * k)).
  pose proof (sqrt_sqrt (1 - q * q) K0) as Sq. assert (Sk : sqrt (1 - k * k) * sqrt (1 - k * k) = 1 - k * k) by (apply sqrt_sqrt; lra).
  assert (Sn : sn * sn = 1 - k * k) by (unfold sn; replace (look * sqrt (1 - k * k) * (look * sqrt (1 - k * k))) with (look * look * (sqrt (1 - k * k) * sqrt (1 - k * k))) by ring; rewrite L, Sk; ring).
  set (p := vadd (ctr c) _).
  assert (D : vsub arp p = vscale (-1) (vadd (vscale (r * q) u) (vscale (r * sqrt (1 - q * q)) (vadd (vscale k (u_rrx c)) (vscale sn (u_rry c)))))).
  { unfold p. rewrite Ec, Er. vec_ring. }
  assert (Nn : vnorm (vsub arp p) = r).
  { apply vnorm_of_sqr; [lra|]. rewrite D. rewrite vdot_scale_l, vdot_scale_r, !vdot_add_l, !vdot_add_r, !vdot_scale_l, !vdot_scale_r, !vdot_add_l, !vdot_add_r, !vdot_scale_l, !vdot_scale_r.
    rewrite (vdot_comm u (u_rrx c)), (vdot_comm u (u_rry c)), (vdot_comm (u_rry c) (u_rrx c)), Uu, Xx, Yy, Xy, Xu, Yu.
    replace (_ * _) with (r * r * (q * q) + r * r * (sqrt (1 - q * q) * sqrt (1 - q * q)) * (k * k + sn * sn)) by ring.
    rewrite Sq, Sn. ring. }
  split; [rewrite distance_eq; exact Nn|]. rewrite range_rate_eq, Nn.
  assert (Vu : v = vscale (vnorm v) u) by (unfold u, normalised; apply vec_eq; cbn; field; lra).
  rewrite Vu at 1. rewrite D. rewrite vdot_scale_l, vdot_scale_r, !vdot_add_r, !vdot_scale_r, !vdot_add_r, !vdot_scale_r, (vdot_comm u (u_rrx c)), (vdot_comm u (u_rry c)), Uu, Xu, Yu.
  unfold q. field. lra.
Qed.

Lemma look_of_sqr side : look_of side * look_of side = 1.
Proof. unfold look_of. destruct (String.eqb side "R"); ring. Qed.

(** Which points a scan returns. *)
Lemma indicator_values lim h : indicator lim h = 0%Z \/ indicator lim h = 1%Z \/ indicator lim h = (-1)%Z.
Proof. unfold indicator. destruct h as [h|]; [|auto]. destruct (Rlt_dec (Rabs h) lim); [auto|]. destruct (Rlt_dec lim h); auto. Qed.
Lemma indicator_on lim h : indicator lim h = 0%Z -> exists x, h = Some x /\ Rabs x < lim.
Proof. unfold indicator. destruct h as [h|]; [|discriminate]. destruct (Rlt_dec (Rabs h) lim); [eauto|]. destruct (Rlt_dec lim h); discriminate. Qed.
Lemma indicator_above lim h : indicator lim h = 1%Z -> exists x, h = Some x /\ lim < x.
Proof. unfold indicator. destruct h as [h|]; [|discriminate]. destruct (Rlt_dec (Rabs h) lim); [discriminate|]. destruct (Rlt_dec lim h); [eauto|discriminate]. Qed.
Lemma indicator_below lim x : indicator lim (Some x) = (-1)%Z -> lim <= Rabs x /\ x <= lim.
Proof. unfold indicator. destruct (Rlt_dec (Rabs x) lim); [discriminate|]. destruct (Rlt_dec lim x); [discriminate|]. lra. Qed.

(** A scan is the list of contour points at these (fractional) indices. *)
Fixpoint scan_indices (lim : R) (n : nat) (prev : option R) (hs : list R) : list R :=
  match hs with
  | [] => []
  | h :: rest =>
    (if Z.eqb (indicator lim (Some h)) 0 then [INR n] else [])
    ++ match prev with
       | Some a => if Z.eqb (indicator lim (Some a) * indicator lim (Some h)) (-1) then [INR n - 1 + a / (a - h)] else []
       | None => []
       end
    ++ scan_indices lim (S n) (Some h) rest
  end.

Lemma scan_is_map lim (at_index : R -> option Vec) : forall hs n prev,
  dem_scan lim at_index n (match prev with Some a => Some (indicator lim (Some a), Some a) | None => None end)
    (List.map (fun x => (at_index (INR (fst x)), Some (snd x))) (combine (seq n (List.length hs)) hs))
  = List.map at_index (scan_indices lim n prev hs).
Proof.
  induction hs as [|h hs IH]; intros n prev; [reflexivity|]. cbn [List.length]. rewrite <- cons_seq. cbn [combine List.map dem_scan fst snd].
  cbn [scan_indices]. rewrite !map_app. pose proof (IH (S n) (Some h)) as IH'. cbn iota in IH'. rewrite <- IH'. clear IH IH'.
  f_equal; [destruct (Z.eqb (indicator lim (Some h)) 0); reflexivity|]. f_equal.
  destruct prev as [a|]; [|reflexivity]. destruct (Z.eqb _ (-1)); reflexivity.
Qed.

(** Between opposite sides the interpolated fraction lies strictly inside. *)
Lemma opposite_fraction lim a h : 0 < lim -> a <> lim -> h <> lim ->
  (indicator lim (Some a) * indicator lim (Some h))%Z = (-1)%Z -> a * h < 0 /\ 0 < a / (a - h) < 1.
Proof.
  intros L A H E.
  assert (P : a * h < 0).
  { destruct (indicator_values lim (Some a)) as [Ea|[Ea|Ea]], (indicator_values lim (Some h)) as [Eh|[Eh|Eh]]; rewrite Ea, Eh in E; try discriminate.
    - apply indicator_above in Ea. destruct Ea as (x & [= <-] & Hx). apply indicator_below in Eh. unfold Rabs in Eh. destruct (Rcase_abs h); nra.
    - apply indicator_above in Eh. destruct Eh as (x & [= <-] & Hx). apply indicator_below in Ea. unfold Rabs in Ea. destruct (Rcase_abs a); nra. }
  split; [exact P|].
  assert (D : a - h <> 0) by nra. assert (D2 : 0 < (a - h) * (a - h)) by nra.
  replace (a / (a - h)) with (a * (a - h) / ((a - h) * (a - h))) by (field; exact D).
  split.
  - apply Rdiv_lt_0_compat; [nra|exact D2].
  - apply (Rmult_lt_reg_r ((a - h) * (a - h))); [exact D2|]. unfold Rdiv. rewrite Rmult_assoc, Rinv_l by lra. nra.
Qed.

Require Import Sorting.Sorted.
Lemma scan_sorted lim : 0 < lim -> forall hs n prev, (forall h, In h hs -> h <> lim) -> (forall a, prev = Some a -> a <> lim) ->
  StronglySorted Rlt (scan_indices lim n prev hs) /\ Forall (fun k => INR n - 1 < k) (scan_indices lim n prev hs).
Proof.
  intros L. induction hs as [|h hs IH]; intros n prev Hh Hp; [split; constructor|].
  destruct (IH (S n) (Some h)) as [Srt Ab]; [intros x Hx; apply Hh; now right | intros a [= <-]; apply Hh; now left |].
  assert (Ab' : Forall (fun k => INR n < k) (scan_indices lim (S n) (Some h) hs)).
  { eapply Forall_impl; [|exact Ab]. intros k Hk. rewrite S_INR in Hk. lra. }
  assert (Ab2 : Forall (fun k => INR n - 1 < k) (scan_indices lim (S n) (Some h) hs)).
  { eapply Forall_impl; [|exact Ab']. intros k Hk. cbv beta in Hk. lra. }
  cbn [scan_indices]. set (rest := scan_indices lim (S n) (Some h) hs) in *.
  destruct (Z.eqb (indicator lim (Some h)) 0) eqn:E0.
  - assert (Ex : match prev with Some a => if Z.eqb (indicator lim (Some a) * indicator lim (Some h)) (-1) then [INR n - 1 + a / (a - h)] else [] | None => [] end = []).
    { destruct prev as [a|]; [|reflexivity]. apply Z.eqb_eq in E0. rewrite E0, Z.mul_0_r. reflexivity. }
    rewrite Ex. cbn [app]. split; constructor; auto; lra.
  - cbn [app]. destruct prev as [a|]; [|cbn [app]; auto].
    destruct (Z.eqb _ (-1)) eqn:E1; [|cbn [app]; auto]. apply Z.eqb_eq in E1.
    destruct (opposite_fraction lim a h L (Hp a eq_refl) (Hh h (or_introl eq_refl)) E1) as [_ F].
    cbn [app]. split; constructor; auto; [|lra].
    eapply Forall_impl; [|exact Ab']. intros k Hk. cbv beta in Hk. lra.
Qed.

(** Every returned index is a sample on the surface or between two samples on opposite sides. *)
Lemma scan_members lim : forall hs n prev k, In k (scan_indices lim n prev hs) ->
  (exists i h, nth_error hs i = Some h /\ Rabs h < lim /\ k = INR (n + i)) \/
  (exists i a h, nth_error hs i = Some h /\ (match i with O => prev | S j => nth_error hs j end) = Some a /\
     (indicator lim (Some a) * indicator lim (Some h))%Z = (-1)%Z /\ k = INR (n + i) - 1 + a / (a - h)).
Proof.
  induction hs as [|h hs IH]; intros n prev k H; [contradiction|]. cbn [scan_indices] in H.
  apply in_app_or in H. destruct H as [H|H].
  - destruct (Z.eqb (indicator lim (Some h)) 0) eqn:E; [|contradiction]. destruct H as [<-|[]].
    apply Z.eqb_eq, indicator_on in E. destruct E as (x & [= <-] & Hx). left. exists 0%nat, h. rewrite Nat.add_0_r. auto.
  - apply in_app_or in H. destruct H as [H|H].
    + destruct prev as [a|]; [|contradiction]. destruct (Z.eqb _ (-1)) eqn:E; [|contradiction]. destruct H as [<-|[]]. apply Z.eqb_eq in E.
      right. exists 0%nat, a, h. rewrite Nat.add_0_r. auto.
    + apply IH in H. destruct H as [(i & h' & A & B & C)|(i & a & h' & A & B & C & D)].
      * left. exists (S i), h'. rewrite <- Nat.add_succ_comm. auto.
      * right. exists (S i), a, h'. rewrite <- Nat.add_succ_comm. split; [exact A|]. split; [|auto]. destruct i; exact B.
Qed.

(** A sample below followed later by a sample above is not missed, and the other way round. *)
Lemma scan_nonempty lim (at_index : R -> option Vec) : forall pts n prev,
  (exists i h j h', (i < j)%nat /\
     (match i with O => prev | S i' => option_map (fun x => (indicator lim (snd x), snd x)) (nth_error pts i') end) = Some (indicator lim h, h) /\
     nth_error (List.map snd pts) (Nat.pred j) = Some h' /\ (indicator lim h * indicator lim h')%Z = (-1)%Z) ->
  dem_scan lim at_index n prev pts <> [].
Proof.
  induction pts as [|(p, h) pts IH]; intros n prev (i & hi & j & hj & L & Hi & Hj & E).
  - destruct (Nat.pred j); discriminate.
  - cbn [dem_scan]. destruct (Z.eqb (indicator lim h) 0) eqn:E0; [discriminate|]. apply Z.eqb_neq in E0. cbn [app].
    destruct i as [|i].
    + subst prev. destruct (Z.eqb (indicator lim hi * indicator lim h) (-1)) eqn:E1; [destruct hi, h; discriminate|]. apply Z.eqb_neq in E1. cbn [app].
      assert (Es : indicator lim h = indicator lim hi).
      { destruct (indicator_values lim h) as [A|[A|A]], (indicator_values lim hi) as [B|[B|B]]; rewrite A, B in *; try congruence; try lia. }
      destruct j as [|[|j]]; [lia| |].
      * cbn in Hj. injection Hj as <-. rewrite Es in E. destruct (indicator_values lim hi) as [B|[B|B]]; rewrite B in E; discriminate.
      * apply IH. exists 0%nat, h, (S j), hj. split; [lia|]. split; [reflexivity|]. split; [exact Hj|]. now rewrite Es.
    + destruct (match prev with Some (i0, h0) => _ | None => [] end); [|discriminate]. cbn [app]. apply IH.
      destruct j as [|[|j]]; [lia|lia|].
      exists i, hi, (S j), hj. split; [lia|]. split; [|split; [exact Hj|exact E]]. destruct i; exact Hi.
Qed.

(** The sampled contour. *)
Lemma dem_sampling_inv tg tc d r rdot arp v s : dem_sampling tg tc d r rdot arp v = Ok s ->
  make_contour r rdot arp v = Some (contour s) /\ look_side s = look_of (d_side d) /\ step s <> 0 /\ rrrc (contour s) <> 0 /\
  0 <= 1 - start s * start s /\ points s = (Rfloor ((top s - start s) / step s) + 2)%Z /\
  step s = cosine_step d (contour s) (start s) (look_of (d_side d) * sqrt (1 - start s * start s)) /\
  exists a b, hae_intersection tg tc (default_hae (d_scp d) (d_side d) (hae_max d)) r rdot arp v = Ok (Some a) /\
    hae_intersection tg tc (default_hae (d_scp d) (d_side d) (hae_min d)) r rdot arp v = Ok (Some b) /\
    top s = vdot (vsub a (ctr (contour s))) (u_rrx (contour s)) / rrrc (contour s) /\
    start s = vdot (vsub b (ctr (contour s))) (u_rrx (contour s)) / rrrc (contour s).
Proof.
  unfold dem_sampling.
  destruct (hae_intersection tg tc (default_hae (d_scp d) (d_side d) (hae_max d)) r rdot arp v) as [pa|e]; [|discriminate].
  destruct (hae_intersection tg tc (default_hae (d_scp d) (d_side d) (hae_min d)) r rdot arp v) as [pb|e]; [|discriminate].
  cbn [bind]. destruct (make_contour r rdot arp v) as [c|]; [|discriminate].
  destruct pa as [a|]; [|discriminate]. destruct pb as [b|]; [|discriminate].
  destruct (Req_EM_T (rrrc c) 0) as [|Rc]; [discriminate|].
  destruct (Rlt_dec _ 0) as [|S0]; [discriminate|]. destruct (Req_EM_T _ 0) as [|St]; [destruct (Req_EM_T _ _); discriminate|].
  intros [= <-]. cbn. repeat split; auto; [lra|]. exists a, b. auto.
Qed.

Lemma Rfloor_bounds x : IZR (Rfloor x) <= x < IZR (Rfloor x) + 1.
Proof. unfold Rfloor. destruct (archimed x) as [A B]. rewrite minus_IZR. lra. Qed.

Lemma sampling_covers (s : Sampling) : step s < 0 -> top s <= start s -> points s = (Rfloor ((top s - start s) / step s) + 2)%Z ->
  (2 <= points s)%Z /\ top s + step s <= start s + IZR (points s - 1) * step s < top s.
Proof.
  intros S0 T P. set (q := (top s - start s) / step s) in *. pose proof (Rfloor_bounds q) as [B1 B2].
  assert (Q : q * step s = top s - start s) by (unfold q; field; lra).
  assert (Q0 : 0 <= q).
  { unfold q. replace ((top s - start s) / step s) with ((start s - top s) * / (- step s)) by (field; lra).
    apply Rmult_le_pos; [lra|]. left. apply Rinv_0_lt_compat. lra. }
  assert (F0 : (0 <= Rfloor q)%Z).
  { destruct (Z.lt_ge_cases (Rfloor q) 0) as [L|L]; [|exact L]. assert (Rfloor q + 1 <= 0)%Z as L' by lia. apply IZR_le in L'. rewrite plus_IZR in L'. lra. }
  rewrite P. split; [lia|]. replace (Rfloor q + 2 - 1)%Z with (Rfloor q + 1)%Z by lia. rewrite plus_IZR. nra.
Qed.

Lemma combine_seq_map {A B} (f : nat * A -> B) (hs : list A) (g : nat -> A) n :
  hs = List.map g (seq n (List.length hs)) -> List.map f (combine (seq n (List.length hs)) hs) = List.map (fun i => f (i, g i)) (seq n (List.length hs)).
Proof.
  revert n. induction hs as [|h hs IH]; intros n H; [reflexivity|]. cbn [List.length] in *. rewrite <- cons_seq in *. cbn [combine List.map] in *.
  injection H as H1 H2. rewrite <- H1. f_equal. now apply IH.
Qed.

Definition sample_height tg (t : Terrain) (s : Sampling) (n : nat) : R :=
  match sample_at s (INR n) with Some p => height_above tg t p | None => 0 end.

Lemma scan_samples tg t s lim : (forall n, (n < Z.to_nat (points s))%nat -> exists p, sample_at s (INR n) = Some p) ->
  dem_scan lim (sample_at s) 0 None (sample_heights tg t s)
  = List.map (sample_at s) (scan_indices lim 0 None (List.map (sample_height tg t s) (seq 0 (Z.to_nat (points s))))).
Proof.
  intros H. rewrite <- (scan_is_map lim (sample_at s) _ 0%nat None). f_equal.
  set (N := Z.to_nat (points s)) in *. set (hs := List.map (sample_height tg t s) (seq 0 N)).
  assert (Lh : List.length hs = N) by (unfold hs; rewrite map_length, seq_length; reflexivity).
  assert (E : hs = List.map (sample_height tg t s) (seq 0 (List.length hs))) by (rewrite Lh; reflexivity).
  rewrite (combine_seq_map _ hs _ 0 E), Lh. unfold sample_heights. fold N. apply map_ext_in. intros n Hn. apply in_seq in Hn.
  destruct (H n) as (p & Hp); [lia|]. unfold sample_height. cbn [fst snd]. rewrite Hp. reflexivity.
Qed.

Lemma sample_between s n t : 0 <= t <= 1 ->
  (exists p, sample_at s (INR n) = Some p) -> (exists p, sample_at s (INR (S n)) = Some p) -> exists p, sample_at s (INR n + t) = Some p.
Proof.
  intros T (p & Hp) (q & Hq). unfold sample_at, contour_point in *. rewrite S_INR in Hq.
  set (x := start s + INR n * step s) in *. replace (start s + (INR n + 1) * step s) with (x + step s) in Hq by (unfold x; ring).
  replace (start s + (INR n + t) * step s) with (x + t * step s) by (unfold x; ring).
  destruct (Rlt_dec (1 - x * x) 0) as [|A]; [discriminate|]. destruct (Rlt_dec (1 - (x + step s) * (x + step s)) 0) as [|B]; [discriminate|].
  destruct (Rlt_dec _ 0) as [C|]; [|eauto]. exfalso. clear -T A B C. set (d := step s) in *.
  assert (X : -1 <= x <= 1) by nra. assert (Y : -1 <= x + d <= 1) by nra.
  assert (-1 <= x + t * d <= 1) by nra. nra.
Qed.

(** *** From the ground to the image (C37) *)
Section Iteration.
Variable to_geodetic : Vec -> Geodetic.
Variable m : Sicd.
Let plane := default_surface to_geodetic m.
Variable scene : Vec.

Definition ground_of (xy : R * R) : res (option Vec) :=
  let c := precise_rrdot (projection m) xy in
  ground_intersection plane (r_coa c) (rdot_coa c) (arp_coa c) (varp_coa c).

Lemma scene_to_grid_spec more : forall it g xy k,
  scene_to_grid to_geodetic m scene g more it = Ok (xy, k) ->
  (it <= k <= it + more)%nat /\
  (ground_of xy = Ok None \/ exists p, ground_of xy = Ok (Some p) /\ ((k < it + more)%nat -> distance scene p <= 0.01)).
Proof.
  induction more as [|more IH]; intros it g xy k H; cbn [scene_to_grid] in H;
    change (ground_intersection _ _ _ _ _) with (ground_of (project_to_grid m g)) in H;
    destruct (ground_of (project_to_grid m g)) as [[p|]|e] eqn:E; try discriminate.
  - assert (K : xy = project_to_grid m g /\ k = it) by (destruct (Rlt_dec _ _); injection H; auto). destruct K as [-> ->].
    split; [lia|]. right. exists p. split; [exact E|]. intros; lia.
  - injection H as <- <-. split; [lia|]. left. exact E.
  - destruct (Rlt_dec _ _) as [L|L].
    + apply IH in H. destruct H as [K [G|(q & G & D)]]; split; try lia; [now left|]. right. exists q. split; [exact G|]. intros. apply D. lia.
    + injection H as <- <-. split; [lia|]. right. exists p. split; [exact E|]. intros _. rewrite distance_eq. lra.
  - injection H as <- <-. split; [lia|]. left. exact E.
Qed.

Hypothesis N : u_gpn plane <> vzero.
Let h := height_over (ref_ecf plane) (u_gpn plane).

Lemma height_of_sum a b c : vdot (vsub (vadd a (vsub b c)) (ref_ecf plane)) (normalised (u_gpn plane))
  = vdot (vsub a (ref_ecf plane)) (normalised (u_gpn plane)) + vdot (vsub b (ref_ecf plane)) (normalised (u_gpn plane)) - vdot (vsub c (ref_ecf plane)) (normalised (u_gpn plane)).
Proof. unfold vdot. cbn. ring. Qed.

Lemma scene_drift more : forall it g xy k,
  scene_to_grid to_geodetic m scene g more it = Ok (xy, k) ->
  exists g', xy = project_to_grid m g' /\ h g' = h g + INR (k - it) * h scene.
Proof.
  induction more as [|more IH]; intros it g xy k H; cbn [scene_to_grid] in H;
    change (ground_intersection _ _ _ _ _) with (ground_of (project_to_grid m g)) in H;
    destruct (ground_of (project_to_grid m g)) as [[p|]|e] eqn:E; try discriminate.
  - assert (K : xy = project_to_grid m g /\ k = it) by (destruct (Rlt_dec _ _); injection H; auto). destruct K as [-> ->].
    exists g. rewrite Nat.sub_diag. split; [reflexivity|]. cbn. ring.
  - injection H as <- <-. exists g. rewrite Nat.sub_diag. split; [reflexivity|]. cbn. ring.
  - destruct (Rlt_dec _ _) as [L|L].
    + pose proof H as H0. apply scene_to_grid_spec in H0. destruct H0 as [K0 _].
      apply IH in H. destruct H as (g' & X & Hg). exists g'. split; [exact X|]. rewrite Hg.
      apply ground_on_plane in E; [|exact N]. apply (on_plane_normalised _ _ _ N) in E.
      replace (k - it)%nat with (S (k - S it)) by lia. rewrite S_INR.
      unfold h. rewrite !height_over_eq, height_of_sum, E. ring.
    + injection H as <- <-. exists g. rewrite Nat.sub_diag. split; [reflexivity|]. cbn. ring.
  - injection H as <- <-. exists g. rewrite Nat.sub_diag. split; [reflexivity|]. cbn. ring.
Qed.

Lemma distance_at_least_height p q : on_plane (ref_ecf plane) (u_gpn plane) q -> Rabs (h p) <= distance p q.
Proof.
  intros P. apply (on_plane_normalised _ _ _ N) in P. unfold h. rewrite height_over_eq, distance_eq.
  set (z := normalised (u_gpn plane)) in *. assert (Z : vdot z z = 1) by now apply normalised_unit.
  assert (E : vdot (vsub p (ref_ecf plane)) z = vdot (vsub p q) z) by (rewrite !vdot_sub_l in *; lra). rewrite E.
  rewrite <- sqrt_Rsqr_abs. unfold vnorm. apply sqrt_le_1_alt. unfold Rsqr.
  pose proof (vdot_pos (vcross (vsub p q) z)) as Q. rewrite lagrange, Z in Q. lra.
Qed.
End Iteration.

Lemma grid_of_pixel m xy : row_ss (converter m) <> 0 -> col_ss (converter m) <> 0 -> grid_location m (to_pixel m xy) = xy.
Proof.
  intros A B. unfold grid_location, to_pixel. cbn [ix iy].
  transitivity (rowcol_to_xrowycol (converter m) (xrowycol_to_rowcol (converter m) xy)); [|now apply grid_round_trip].
  f_equal. destruct (xrowycol_to_rowcol (converter m) xy) as [p q]. cbn [fst snd]. f_equal; ring.
Qed.
