(** Algebra of vectors and matrices. *)
Require Import Reals Lra.
Require Import Verif.Base Verif.Vec.
Local Open Scope R_scope.

Lemma vec_eq a b : vx a = vx b -> vy a = vy b -> vz a = vz b -> a = b.
Proof. destruct a, b; cbn; congruence. Qed.

Ltac vec_ring := intros; apply vec_eq; cbn; ring.

Lemma vadd_comm a b : vadd a b = vadd b a. Proof. revert a b; vec_ring. Qed.
Lemma vadd_assoc a b c : vadd a (vadd b c) = vadd (vadd a b) c. Proof. revert a b c; vec_ring. Qed.
Lemma vsub_vadd a b : vsub (vadd a b) b = a. Proof. revert a b; vec_ring. Qed.
Lemma vadd_vsub a b : vadd (vsub a b) b = a. Proof. revert a b; vec_ring. Qed.
Lemma vdot_comm a b : vdot a b = vdot b a. Proof. unfold vdot. ring. Qed.
Lemma vdot_add_l a b c : vdot (vadd a b) c = vdot a c + vdot b c. Proof. unfold vdot; cbn; ring. Qed.
Lemma vdot_add_r a b c : vdot a (vadd b c) = vdot a b + vdot a c. Proof. unfold vdot; cbn; ring. Qed.
Lemma vdot_sub_l a b c : vdot (vsub a b) c = vdot a c - vdot b c. Proof. unfold vdot; cbn; ring. Qed.
Lemma vdot_sub_r a b c : vdot a (vsub b c) = vdot a b - vdot a c. Proof. unfold vdot; cbn; ring. Qed.
Lemma vdot_scale_l k a b : vdot (vscale k a) b = k * vdot a b. Proof. unfold vdot; cbn; ring. Qed.
Lemma vdot_scale_r k a b : vdot a (vscale k b) = k * vdot a b. Proof. unfold vdot; cbn; ring. Qed.
Lemma vdot_cross_l a b : vdot (vcross a b) a = 0. Proof. unfold vdot; cbn; ring. Qed.
Lemma vdot_cross_r a b : vdot (vcross a b) b = 0. Proof. unfold vdot; cbn; ring. Qed.
Lemma lagrange a b : vdot (vcross a b) (vcross a b) = vdot a a * vdot b b - vdot a b * vdot a b.
Proof. unfold vdot; cbn; ring. Qed.

Lemma vdot_pos a : 0 <= vdot a a.
Proof. unfold vdot. pose proof (Rle_0_sqr (vx a)). pose proof (Rle_0_sqr (vy a)). pose proof (Rle_0_sqr (vz a)). unfold Rsqr in *. lra. Qed.

Lemma vnorm_sqr a : vnorm a * vnorm a = vdot a a.
Proof. unfold vnorm. apply sqrt_sqrt, vdot_pos. Qed.
Lemma vnorm_pos a : 0 <= vnorm a.
Proof. apply sqrt_pos. Qed.
Lemma vnorm_of_sqr a r : 0 <= r -> vdot a a = r * r -> vnorm a = r.
Proof. intros H E. unfold vnorm. rewrite E. now apply sqrt_square. Qed.

Lemma mat_inv_ok m : det m <> 0 -> exists i, mat_inv m = Ok i.
Proof. intros H. unfold mat_inv. destruct (Req_EM_T (det m) 0); [contradiction|]. eauto. Qed.
Lemma mat_inv_err m : det m = 0 -> mat_inv m = Err LinAlgError.
Proof. intros H. unfold mat_inv. destruct (Req_EM_T (det m) 0); [reflexivity | contradiction]. Qed.

Lemma mat_inv_l m i v : mat_inv m = Ok i -> mulv i (mulv m v) = v.
Proof.
  unfold mat_inv. destruct (Req_EM_T (det m) 0) as [|N]; [discriminate|]. intros [= <-].
  destruct m as [[a b c] [d e f] [g h k]], v as [x y z]. unfold det in *. cbn in *.
  unfold vdot, vcross in *. cbn in *. apply vec_eq; cbn; repeat (unfold vdot; cbn); field; exact N.
Qed.
Lemma mat_inv_r m i v : mat_inv m = Ok i -> mulv m (mulv i v) = v.
Proof.
  unfold mat_inv. destruct (Req_EM_T (det m) 0) as [|N]; [discriminate|]. intros [= <-].
  destruct m as [[a b c] [d e f] [g h k]], v as [x y z]. unfold det in *. cbn in *.
  unfold vdot, vcross in *. cbn in *. apply vec_eq; cbn; repeat (unfold vdot; cbn); field; exact N.
Qed.
