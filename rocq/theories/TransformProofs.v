(** Lemmas about projective transforms and their estimation. *)
Require Import Reals List Lra Lia Psatz.
Require Import Verif.Base Verif.Vec Verif.VecFacts Verif.TransformModel Verif.PolySpec Verif.TransformSpec.
Import ListNotations.
Local Open Scope R_scope.

Lemma total_cons x l : total (x :: l) = x + total l. Proof. reflexivity. Qed.
Lemma total_nil : total [] = 0. Proof. reflexivity. Qed.
Lemma total_app l l' : total (l ++ l') = total l + total l'.
Proof. induction l as [|x l IH]; [rewrite total_nil; cbn [app]; lra|]. cbn [app]. rewrite !total_cons, IH. lra. Qed.
Lemma total_nonneg l : (forall x, In x l -> 0 <= x) -> 0 <= total l.
Proof.
  induction l as [|x l IH]; intros H; [rewrite total_nil; lra|]. rewrite total_cons.
  pose proof (H x (or_introl eq_refl)). assert (0 <= total l) by (apply IH; intros y Hy; apply H; now right). lra.
Qed.
Lemma total_zero l : (forall x, In x l -> 0 <= x) -> total l <= 0 -> forall x, In x l -> x = 0.
Proof.
  induction l as [|x l IH]; intros H T y Hy; [contradiction|]. rewrite total_cons in T.
  pose proof (H x (or_introl eq_refl)).
  assert (0 <= total l) by (apply total_nonneg; intros z Hz; apply H; now right).
  destruct Hy as [<-|Hy]; [lra|]. apply IH; [intros z Hz; apply H; now right | lra | exact Hy].
Qed.
Lemma total_map_add {A} (f g : A -> R) l : total (List.map (fun x => f x + g x) l) = total (List.map f l) + total (List.map g l).
Proof. induction l as [|x l IH]; cbn [List.map]; [rewrite total_nil; lra|]. rewrite !total_cons, IH. lra. Qed.

Lemma combine_app {A B} (l1 l2 : list A) (m1 m2 : list B) : List.length l1 = List.length m1 ->
  combine (l1 ++ l2) (m1 ++ m2) = combine l1 m1 ++ combine l2 m2.
Proof.
  revert m1; induction l1 as [|x l1 IH]; intros [|y m1]; cbn; try discriminate; [reflexivity|].
  intros [= H]. now rewrite IH.
Qed.

Definition params (t : Projective) : list R := [a0 t; a1 t; a2 t; b0 t; b1 t; b2 t; c0 t; c1 t].

Lemma residual_rows (row : R * R -> R * R -> list R) (rhs : R * R -> R) m src dst : List.length src = List.length dst ->
  residual (List.map (fun p => row (fst p) (snd p)) (combine src dst)) (List.map rhs dst) m
  = total (List.map (fun p => (dotl (row (fst p) (snd p)) m - rhs (snd p)) ^ 2) (combine src dst)).
Proof.
  unfold residual. revert dst; induction src as [|s src IH]; intros [|d dst]; try discriminate; [reflexivity|].
  intros [= H]. cbn [combine List.map]. rewrite !total_cons, <- (IH dst H). reflexivity.
Qed.

Lemma residual_is_total_error t src dst : List.length src = List.length dst ->
  residual (List.map (fun p => x_row (fst p) (snd p)) (combine src dst) ++ List.map (fun p => y_row (fst p) (snd p)) (combine src dst))
           (List.map fst dst ++ List.map snd dst) (params t) = total_error t src dst.
Proof.
  intros H. unfold residual. rewrite combine_app, map_app, total_app.
  2:{ rewrite !map_length, combine_length, H. apply Nat.min_id. }
  pose proof (residual_rows x_row fst (params t) src dst H) as E1.
  pose proof (residual_rows y_row snd (params t) src dst H) as E2.
  unfold residual in E1, E2. rewrite E1, E2, <- total_map_add.
  unfold total_error. f_equal. apply map_ext. intros [s d]. unfold algebraic_error, dotl, x_row, y_row, params, denominator.
  cbn [fst snd combine List.map total fold_right]. cbn. ring.
Qed.

Lemma broadcast_same src dst : List.length src = List.length dst -> broadcast src dst = Ok dst.
Proof. intros H. unfold broadcast. now rewrite <- H, Nat.eqb_refl. Qed.

Lemma estimate_minimises lstsq src dst t : least_squares lstsq -> List.length src = List.length dst ->
  estimate lstsq src dst = Ok t -> forall t', total_error t src dst <= total_error t' src dst.
Proof.
  intros LS H E t'. unfold estimate in E. destruct src as [|s0 src0] eqn:Es; [discriminate|]. rewrite <- Es in *.
  rewrite (broadcast_same _ _ H) in E. cbn [bind] in E.
  destruct (lstsq _ _) as [m|] eqn:El; cbn [bind] in E; [|discriminate].
  destruct m as [|p0 [|p1 [|p2 [|p3 [|p4 [|p5 [|p6 [|p7 [|]]]]]]]]]; try discriminate. injection E as <-.
  destruct (LS _ _ _ El) as [_ M]. specialize (M (params t') eq_refl).
  rewrite residual_is_total_error in M by exact H.
  change [p0; p1; p2; p3; p4; p5; p6; p7] with (params (mkProjective p0 p1 p2 p3 p4 p5 p6 p7)) in M.
  rewrite residual_is_total_error in M by exact H. exact M.
Qed.

Lemma algebraic_error_pos t s d : 0 <= algebraic_error t s d.
Proof. unfold algebraic_error. apply Rplus_le_le_0_compat; apply pow2_ge_0. Qed.
Lemma total_error_pos t src dst : 0 <= total_error t src dst.
Proof.
  apply total_nonneg. intros x Hx. apply in_map_iff in Hx. destruct Hx as [p [<- _]]. apply algebraic_error_pos.
Qed.

Lemma takes_error t s d : takes t s d -> algebraic_error t s d = 0.
Proof. intros [N [X Y]]. unfold algebraic_error. rewrite X, Y. field. exact N. Qed.
Lemma takes_total_error t src dst : Forall2 (takes t) src dst -> total_error t src dst = 0.
Proof.
  unfold total_error. induction 1; [reflexivity|]. cbn [combine List.map fst snd].
  rewrite total_cons, (takes_error _ _ _ H), IHForall2. lra.
Qed.

Definition fits (t : Projective) (s d : R * R) : Prop :=
  a0 t + a1 t * fst s + a2 t * snd s = fst d * denominator t s /\
  b0 t + b1 t * fst s + b2 t * snd s = snd d * denominator t s.

Lemma sq_zero a b : a ^ 2 + b ^ 2 = 0 -> a = 0 /\ b = 0.
Proof.
  intros H. pose proof (pow2_ge_0 a). pose proof (pow2_ge_0 b).
  split; apply Rsqr_0_uniq; unfold Rsqr; cbn in *; lra.
Qed.

Lemma zero_error_fits t s d : algebraic_error t s d = 0 -> fits t s d.
Proof. unfold algebraic_error, fits. intros H. apply sq_zero in H. lra. Qed.

Lemma total_error_zero_fits t src dst : List.length src = List.length dst -> total_error t src dst <= 0 ->
  forall s d, In (s, d) (combine src dst) -> fits t s d.
Proof.
  intros _ T s d H. apply zero_error_fits.
  apply (total_zero (List.map (fun p => algebraic_error t (fst p) (snd p)) (combine src dst))); [|exact T|].
  - intros x Hx. apply in_map_iff in Hx. destruct Hx as [p [<- _]]. apply algebraic_error_pos.
  - apply in_map_iff. exists (s, d). now split.
Qed.

Lemma forall2_length {A B} (P : A -> B -> Prop) l l' : Forall2 P l l' -> List.length l = List.length l'.
Proof. induction 1; cbn; congruence. Qed.

Lemma estimate_fits lstsq src dst t t0 : least_squares lstsq -> Forall2 (takes t0) src dst ->
  estimate lstsq src dst = Ok t -> forall s d, In (s, d) (combine src dst) -> fits t s d.
Proof.
  intros LS F E. pose proof (forall2_length _ _ _ F) as L. apply total_error_zero_fits; [exact L|].
  pose proof (estimate_minimises _ _ _ _ LS L E t0). rewrite (takes_total_error _ _ _ F) in H. exact H.
Qed.

Lemma fits_forward t s d : fits t s d -> denominator t s <> 0 -> forward1 t s = d.
Proof.
  intros [X Y] N. unfold forward1. fold (denominator t s). rewrite X, Y. destruct d as [u v]. cbn.
  f_equal; field; exact N.
Qed.

Lemma takes_fits t s d : takes t s d -> fits t s d.
Proof. intros [N [X Y]]. unfold fits. rewrite X, Y. split; field; exact N. Qed.

(** Four correspondences in general position determine the transform. *)
Definition orient (p q r : R * R) : R := (fst q - fst p) * (snd r - snd p) - (snd q - snd p) * (fst r - fst p).
Lemma orient_collinear p q r : ~ collinear p q r -> orient p q r <> 0.
Proof. unfold collinear, orient. intros H E. apply H. lra. Qed.

Lemma mul_zero_r a b : a <> 0 -> a * b = 0 -> b = 0.
Proof. intros N H. apply Rmult_integral in H. tauto. Qed.

Lemma affine_zero k l m p q r : orient p q r <> 0 ->
  k + l * fst p + m * snd p = 0 -> k + l * fst q + m * snd q = 0 -> k + l * fst r + m * snd r = 0 ->
  k = 0 /\ l = 0 /\ m = 0.
Proof.
  intros N A B C.
  assert (L : l = 0).
  { apply (mul_zero_r (orient p q r)); [exact N|]. unfold orient.
    replace (((fst q - fst p) * (snd r - snd p) - (snd q - snd p) * (fst r - fst p)) * l)
      with (((k + l * fst q + m * snd q) - (k + l * fst p + m * snd p)) * (snd r - snd p)
            - ((k + l * fst r + m * snd r) - (k + l * fst p + m * snd p)) * (snd q - snd p)) by ring.
    rewrite A, B, C. ring. }
  assert (M : m = 0).
  { apply (mul_zero_r (orient p q r)); [exact N|]. unfold orient.
    replace (((fst q - fst p) * (snd r - snd p) - (snd q - snd p) * (fst r - fst p)) * m)
      with (((k + l * fst r + m * snd r) - (k + l * fst p + m * snd p)) * (fst q - fst p)
            - ((k + l * fst q + m * snd q) - (k + l * fst p + m * snd p)) * (fst r - fst p)) by ring.
    rewrite A, B, C. ring. }
  subst. lra.
Qed.

(** Ratios of the denominators at four points, for any transform that fits. *)
Lemma fits_ratio t p1 p2 p3 p4 q1 q2 q3 q4 :
  fits t p1 q1 -> fits t p2 q2 -> fits t p3 q3 -> fits t p4 q4 ->
  orient q1 q2 q3 * (orient p4 p2 p3 * denominator t p1) = orient p1 p2 p3 * denominator t p4 * orient q4 q2 q3 /\
  orient q1 q2 q3 * (orient p1 p4 p3 * denominator t p2) = orient p1 p2 p3 * denominator t p4 * orient q1 q4 q3 /\
  orient q1 q2 q3 * (orient p1 p2 p4 * denominator t p3) = orient p1 p2 p3 * denominator t p4 * orient q1 q2 q4.
Proof.
  intros [X1 Y1] [X2 Y2] [X3 Y3] [X4 Y4].
  set (D1 := denominator t p1) in *. set (D2 := denominator t p2) in *.
  set (D3 := denominator t p3) in *. set (D4 := denominator t p4) in *.
  set (A := orient p4 p2 p3). set (B := orient p1 p4 p3). set (G := orient p1 p2 p4). set (D := orient p1 p2 p3).
  assert (ED : D * D4 = A * D1 + B * D2 + G * D3).
  { unfold A, B, G, D, D1, D2, D3, D4, denominator, orient. ring. }
  assert (EX : D * (fst q4 * D4) = A * (fst q1 * D1) + B * (fst q2 * D2) + G * (fst q3 * D3)).
  { rewrite <- X1, <- X2, <- X3, <- X4. unfold A, B, G, D, orient. ring. }
  assert (EY : D * (snd q4 * D4) = A * (snd q1 * D1) + B * (snd q2 * D2) + G * (snd q3 * D3)).
  { rewrite <- Y1, <- Y2, <- Y3, <- Y4. unfold A, B, G, D, orient. ring. }
  unfold orient.
  destruct q1 as [u1 v1], q2 as [u2 v2], q3 as [u3 v3], q4 as [u4 v4]. cbn [fst snd] in *.
  clearbody A B G D D1 D2 D3 D4. clear X1 X2 X3 X4 Y1 Y2 Y3 Y4.
  assert (EX' : D * D4 * u4 = A * D1 * u1 + B * D2 * u2 + G * D3 * u3) by lra.
  assert (EY' : D * D4 * v4 = A * D1 * v1 + B * D2 * v2 + G * D3 * v3) by lra.
  clear EX EY. set (W := D * D4) in *. clearbody W.
  assert (EG : G * D3 = W - A * D1 - B * D2) by lra.
  repeat split.
  - replace (W * ((u2 - u4) * (v3 - v4) - (v2 - v4) * (u3 - u4)))
      with (W * (u2 * v3 - v2 * u3) - W * u4 * (v3 - v2) + W * v4 * (u3 - u2)) by ring.
    rewrite EX', EY', ED. ring.
  - replace (W * ((u4 - u1) * (v3 - v1) - (v4 - v1) * (u3 - u1)))
      with (W * (u3 * v1 - v3 * u1) + W * u4 * (v3 - v1) - W * v4 * (u3 - u1)) by ring.
    rewrite EX', EY', ED. ring.
  - replace (W * ((u2 - u1) * (v4 - v1) - (v2 - v1) * (u4 - u1)))
      with (W * (u1 * v2 - v1 * u2) - W * u4 * (v2 - v1) + W * v4 * (u2 - u1)) by ring.
    rewrite EX', EY', ED. ring.
Qed.

Lemma orient_swap p q r : orient p q r <> 0 -> orient q p r <> 0 /\ orient p r q <> 0.
Proof. unfold orient. intros H. split; intros E; apply H; lra. Qed.

Lemma fits_unique t t0 p1 p2 p3 p4 q1 q2 q3 q4 :
  general_position p1 p2 p3 p4 -> general_position q1 q2 q3 q4 ->
  fits t p1 q1 -> fits t p2 q2 -> fits t p3 q3 -> fits t p4 q4 ->
  fits t0 p1 q1 -> fits t0 p2 q2 -> fits t0 p3 q3 -> fits t0 p4 q4 -> t = t0.
Proof.
  intros (P1 & P2 & P3 & P4) (Q1 & Q2 & Q3 & Q4) F1 F2 F3 F4 G1 G2 G3 G4.
  apply orient_collinear in P1, P2, P3, P4, Q1, Q2, Q3, Q4.
  assert (A : orient p4 p2 p3 <> 0) by (unfold orient in *; intros E; apply P4; lra).
  assert (B : orient p1 p4 p3 <> 0) by (unfold orient in *; intros E; apply P3; lra).
  destruct (fits_ratio t p1 p2 p3 p4 q1 q2 q3 q4 F1 F2 F3 F4) as [R1 [R2 R3]].
  destruct (fits_ratio t0 p1 p2 p3 p4 q1 q2 q3 q4 G1 G2 G3 G4) as [S1 [S2 S3]].
  assert (Z : denominator t0 p4 <> 0).
  { intros Z. rewrite Z in S1, S2, S3.
    assert (D1 : denominator t0 p1 = 0) by (apply (mul_zero_r (orient q1 q2 q3 * orient p4 p2 p3)); [now apply Rmult_integral_contrapositive_currified | lra]).
    assert (D2 : denominator t0 p2 = 0) by (apply (mul_zero_r (orient q1 q2 q3 * orient p1 p4 p3)); [now apply Rmult_integral_contrapositive_currified | lra]).
    assert (D3 : denominator t0 p3 = 0) by (apply (mul_zero_r (orient q1 q2 q3 * orient p1 p2 p4)); [now apply Rmult_integral_contrapositive_currified | lra]).
    destruct (affine_zero 1 (c0 t0) (c1 t0) p1 p2 p3 P1 D1 D2 D3). lra. }
  set (k := denominator t p4 / denominator t0 p4).
  assert (K : denominator t p4 = k * denominator t0 p4) by (unfold k; field; exact Z).
  rewrite K in R1, R2, R3.
  assert (D : forall w pi, orient q1 q2 q3 * w <> 0 -> forall r,
      orient q1 q2 q3 * (w * denominator t pi) = orient p1 p2 p3 * (k * denominator t0 p4) * r ->
      orient q1 q2 q3 * (w * denominator t0 pi) = orient p1 p2 p3 * denominator t0 p4 * r ->
      denominator t pi - k * denominator t0 pi = 0).
  { intros w pi Nw r E1 E2. apply (mul_zero_r (orient q1 q2 q3 * w)); [exact Nw|].
    replace (orient q1 q2 q3 * w * (denominator t pi - k * denominator t0 pi))
      with (orient q1 q2 q3 * (w * denominator t pi) - k * (orient q1 q2 q3 * (w * denominator t0 pi))) by ring.
    rewrite E1, E2. ring. }
  apply (D _ p1 (Rmult_integral_contrapositive_currified _ _ Q1 A) _ R1) in S1.
  apply (D _ p2 (Rmult_integral_contrapositive_currified _ _ Q1 B) _ R2) in S2.
  apply (D _ p3 (Rmult_integral_contrapositive_currified _ _ Q1 P2) _ R3) in S3.
  clear R1 R2 R3.
  destruct (affine_zero (1 - k) (c0 t - k * c0 t0) (c1 t - k * c1 t0) p1 p2 p3 P1) as [E0 [E1 E2]];
    try (unfold denominator in *; lra).
  assert (k = 1) by lra. rewrite H in *. clear D K H Q1 Q2 Q3 Q4 A B Z F4 G4 P2 P3 P4.
  assert (EC0 : c0 t = c0 t0) by lra. assert (EC1 : c1 t = c1 t0) by lra.
  destruct F1 as [X1 Y1], F2 as [X2 Y2], F3 as [X3 Y3], G1 as [U1 V1], G2 as [U2 V2], G3 as [U3 V3].
  assert (T1 : denominator t p1 = denominator t0 p1) by (clear - S1; lra).
  assert (T2 : denominator t p2 = denominator t0 p2) by (clear - S2; lra).
  assert (T3 : denominator t p3 = denominator t0 p3) by (clear - S3; lra).
  rewrite T1 in X1, Y1. rewrite T2 in X2, Y2. rewrite T3 in X3, Y3. clear S1 S2 S3 T1 T2 T3 E0 E1 E2.
  rewrite <- U1 in X1. rewrite <- U2 in X2. rewrite <- U3 in X3.
  rewrite <- V1 in Y1. rewrite <- V2 in Y2. rewrite <- V3 in Y3. clear U1 U2 U3 V1 V2 V3.
  destruct (affine_zero (a0 t - a0 t0) (a1 t - a1 t0) (a2 t - a2 t0) p1 p2 p3 P1) as [E3 [E4 E5]]; try (clear - X1 X2 X3; lra).
  destruct (affine_zero (b0 t - b0 t0) (b1 t - b1 t0) (b2 t - b2 t0) p1 p2 p3 P1) as [E6 [E7 E8]]; try (clear - Y1 Y2 Y3; lra).
  clear X1 X2 X3 Y1 Y2 Y3. destruct t, t0; cbn in *. clear P1. f_equal; lra.
Qed.

(** Inverses. *)
Lemma inverse_forward t p : determinant t <> 0 -> denominator t p <> 0 -> inverse1 t (forward1 t p) = p.
Proof.
  destruct p as [x y], t as [A0 A1 A2 B0 B1 B2 C0 C1]. unfold determinant, denominator, inverse1, forward1. cbn [fst snd a0 a1 a2 b0 b1 b2 c0 c1].
  intros N D.
  assert (E : A1 * B2 - A2 * B1 + (B1 * C1 - B2 * C0) * ((A0 + A1 * x + A2 * y) / (1 + C0 * x + C1 * y)) +
      (A2 * C0 - A1 * C1) * ((B0 + B1 * x + B2 * y) / (1 + C0 * x + C1 * y))
      = (A1 * (B2 * 1 - B0 * C1) - A2 * (B1 * 1 - B0 * C0) + A0 * (B1 * C1 - B2 * C0)) / (1 + C0 * x + C1 * y)) by (field; exact D).
  rewrite E. set (dt := A1 * (B2 * 1 - B0 * C1) - A2 * (B1 * 1 - B0 * C0) + A0 * (B1 * C1 - B2 * C0)) in *.
  f_equal; apply (Rmult_eq_reg_r (dt / (1 + C0 * x + C1 * y)));
    try (unfold Rdiv; apply Rmult_integral_contrapositive_currified; [exact N | now apply Rinv_neq_0_compat]);
    unfold Rdiv at 1; rewrite Rmult_assoc, Rinv_l, Rmult_1_r by
      (unfold Rdiv; apply Rmult_integral_contrapositive_currified; [exact N | now apply Rinv_neq_0_compat]);
    unfold dt; field; exact D.
Qed.

Definition inverse_denominator (t : Projective) (q : R * R) : R :=
  a1 t * b2 t - a2 t * b1 t + (b1 t * c1 t - b2 t * c0 t) * fst q + (a2 t * c0 t - a1 t * c1 t) * snd q.

Lemma denominator_inverse t q : inverse_denominator t q <> 0 ->
  denominator t (inverse1 t q) = determinant t / inverse_denominator t q.
Proof.
  destruct q as [x y], t as [A0 A1 A2 B0 B1 B2 C0 C1]. unfold inverse_denominator, denominator, determinant, inverse1. cbn. intros N.
  field. exact N.
Qed.

Lemma forward_inverse t q : determinant t <> 0 -> inverse_denominator t q <> 0 -> forward1 t (inverse1 t q) = q.
Proof.
  intros N E. assert (D : denominator t (inverse1 t q) <> 0).
  { rewrite denominator_inverse by exact E. unfold Rdiv. apply Rmult_integral_contrapositive_currified; [exact N | now apply Rinv_neq_0_compat]. }
  destruct q as [u v]. apply fits_forward; [|exact D].
  unfold fits. rewrite denominator_inverse by exact E.
  destruct t as [A0 A1 A2 B0 B1 B2 C0 C1]. unfold inverse_denominator, determinant, inverse1 in *. cbn in *.
  split; field; exact E.
Qed.

Lemma store_length h n d : List.length (store h n d) = List.length h.
Proof. revert n; induction h as [|x h IH]; intros [|n]; cbn; auto. Qed.
Lemma store_other h n m d : n <> m -> nth_error (store h n d) m = nth_error h m.
Proof. revert n m; induction h as [|x h IH]; intros [|n] [|m] H; cbn; auto; try congruence. Qed.
Lemma store_same h n d : (n < List.length h)%nat -> nth_error (store h n d) n = Some d.
Proof. revert n; induction h as [|x h IH]; intros [|n]; cbn; intros H; try lia; auto. apply IH. lia. Qed.
Lemma store_nth h n d : (n < List.length h)%nat -> nth n (store h n d) [] = d.
Proof. revert n; induction h as [|x h IH]; intros [|n]; cbn; intros H; try lia; auto. apply IH. lia. Qed.
