(** Proofs about rounding errors. *)
Require Import Reals List Lia Lra.
Require Import Verif.Base Verif.Vec Verif.RpcModel Verif.RsmModel Verif.RoundModel Verif.RoundSpec.
Import ListNotations.
Local Open Scope R_scope.

Lemma magnitude_nonneg e : 0 <= magnitude e.
Proof.
  induction e as [x|a IHa b IHb|a IHa b IHb|a IHa b IHb|a IHa b IHb|a IHa n]; cbn [magnitude].
  - apply Rabs_pos.
  - destruct a, b; try (apply Rplus_le_le_0_compat; assumption). apply Rabs_pos.
  - destruct a, b; try (apply Rplus_le_le_0_compat; assumption). apply Rabs_pos.
  - now apply Rmult_le_pos.
  - unfold Rdiv. apply Rmult_le_pos; [exact IHa|]. destruct (Req_dec (Rabs (exact b)) 0) as [E|E].
    + rewrite E, Rinv_0. lra.
    + apply Rlt_le, Rinv_0_lt_compat. pose proof (Rabs_pos (exact b)). lra.
  - now apply pow_le.
Qed.

Lemma exact_le_magnitude e : Rabs (exact e) <= magnitude e.
Proof.
  induction e as [x|a IHa b IHb|a IHa b IHb|a IHa b IHb|a IHa b IHb|a IHa n]; cbn [magnitude exact].
  - lra.
  - assert (H : Rabs (exact a + exact b) <= magnitude a + magnitude b) by (eapply Rle_trans; [apply Rabs_triang|lra]).
    destruct a, b; try exact H. apply Rle_refl.
  - assert (H : Rabs (exact a - exact b) <= magnitude a + magnitude b)
      by (unfold Rminus; eapply Rle_trans; [apply Rabs_triang|rewrite Rabs_Ropp; lra]).
    destruct a, b; try exact H. apply Rle_refl.
  - rewrite Rabs_mult. apply Rmult_le_compat; auto using Rabs_pos.
  - unfold Rdiv. rewrite Rabs_mult, Rabs_inv. apply Rmult_le_compat_r; [|exact IHa].
    destruct (Req_dec (Rabs (exact b)) 0) as [E|E].
    + rewrite E, Rinv_0. lra.
    + apply Rlt_le, Rinv_0_lt_compat. pose proof (Rabs_pos (exact b)). lra.
  - rewrite <- RPow_abs. apply pow_incr. split; [apply Rabs_pos|exact IHa].
Qed.

Lemma grow_ge u k : 0 <= u -> 1 <= (1 + u) ^ k.
Proof. intros. apply pow_R1_Rle. lra. Qed.
Lemma grow_mono u k l : 0 <= u -> (k <= l)%nat -> (1 + u) ^ k <= (1 + u) ^ l.
Proof. intros. apply Rle_pow; [lra|assumption]. Qed.
Lemma growth_nonneg u k : 0 <= u -> 0 <= growth u k.
Proof. intros H. unfold growth. pose proof (grow_ge u k H). lra. Qed.
Lemma growth_mono u k l : 0 <= u -> (k <= l)%nat -> growth u k <= growth u l.
Proof. intros H H0. unfold growth. pose proof (grow_mono u k l H H0). lra. Qed.

(** One more rounding. *)
Lemma rounded u d y Y M A : 0 <= u -> Rabs d <= u -> 1 <= A -> Rabs (y - Y) <= (A - 1) * M -> Rabs Y <= M ->
  Rabs (y * (1 + d) - Y) <= ((1 + u) * A - 1) * M.
Proof.
  intros Hu Hd HA He HY. replace (y * (1 + d) - Y) with ((y - Y) * (1 + d) + Y * d) by ring.
  eapply Rle_trans; [apply Rabs_triang|]. rewrite !Rabs_mult.
  assert (H1 : Rabs (1 + d) <= 1 + u) by (eapply Rle_trans; [apply Rabs_triang|rewrite Rabs_R1; lra]).
  assert (H2 : Rabs (y - Y) * Rabs (1 + d) <= ((A - 1) * M) * (1 + u)) by (apply Rmult_le_compat; auto using Rabs_pos).
  assert (H3 : Rabs Y * Rabs d <= M * u) by (apply Rmult_le_compat; auto using Rabs_pos).
  lra.
Qed.

(** A product of two values with errors. *)
Lemma product x X MX A y Y MY B : 1 <= A -> 1 <= B ->
  Rabs (x - X) <= (A - 1) * MX -> Rabs X <= MX -> Rabs (y - Y) <= (B - 1) * MY -> Rabs Y <= MY ->
  Rabs (x * y - X * Y) <= (A * B - 1) * (MX * MY).
Proof.
  intros HA HB Hx HX Hy HY.
  replace (x * y - X * Y) with ((x - X) * (y - Y) + (x - X) * Y + X * (y - Y)) by ring.
  eapply Rle_trans; [apply Rabs_triang|]. eapply Rle_trans; [apply Rplus_le_compat_r, Rabs_triang|].
  rewrite !Rabs_mult.
  assert (H1 : Rabs (x - X) * Rabs (y - Y) <= ((A - 1) * MX) * ((B - 1) * MY)) by (apply Rmult_le_compat; auto using Rabs_pos).
  assert (H2 : Rabs (x - X) * Rabs Y <= ((A - 1) * MX) * MY) by (apply Rmult_le_compat; auto using Rabs_pos).
  assert (H3 : Rabs X * Rabs (y - Y) <= MX * ((B - 1) * MY)) by (apply Rmult_le_compat; auto using Rabs_pos).
  nra.
Qed.

Lemma power x X M A n : 1 <= A -> Rabs (x - X) <= (A - 1) * M -> Rabs X <= M ->
  Rabs (x ^ n - X ^ n) <= (A ^ n - 1) * M ^ n.
Proof.
  intros HA Hx HX. induction n as [|n IH]; cbn [pow].
  - rewrite Rminus_diag_eq, Rabs_R0 by reflexivity. lra.
  - apply product; auto; [now apply pow_R1_Rle|].
    rewrite <- RPow_abs. apply pow_incr. split; [apply Rabs_pos|exact HX].
Qed.

Lemma weaken x X A B M : Rabs (x - X) <= (A - 1) * M -> A <= B -> 0 <= M -> Rabs (x - X) <= (B - 1) * M.
Proof. intros. eapply Rle_trans; [eassumption|]. apply Rmult_le_compat_r; lra. Qed.

Lemma computed_error u e x : 0 <= u -> polynomial e -> computed u e x ->
  Rabs (x - exact e) <= growth u (roundings e) * magnitude e.
Proof.
  intros Hu Hp Hc. unfold growth. revert Hp.
  induction Hc as [x|a b x y d Ha IHa Hb IHb Hd|a b x y d Ha IHa Hb IHb Hd|a b x y d Ha IHa Hb IHb Hd|a b x y d Ha IHa Hb IHb Hy Hd|a n x d d' Ha IHa Hd Hd'];
    cbn [polynomial]; intros Hp; cbn [exact].
  - rewrite Rminus_diag_eq, Rabs_R0 by reflexivity. cbn. lra.
  - destruct Hp as [Pa Pb]. specialize (IHa Pa). specialize (IHb Pb). cbn [roundings].
    assert (G : Rabs ((x + y) * (1 + d) - (exact a + exact b)) <= ((1 + u) ^ S (Nat.max (roundings a) (roundings b)) - 1) * (magnitude a + magnitude b)).
    { cbn [pow]. apply rounded; auto using grow_ge.
      - replace (x + y - (exact a + exact b)) with ((x - exact a) + (y - exact b)) by ring.
        eapply Rle_trans; [apply Rabs_triang|]. rewrite Rmult_plus_distr_l. apply Rplus_le_compat.
        + apply (weaken _ _ _ _ _ IHa); [apply grow_mono; [assumption|lia]|apply magnitude_nonneg].
        + apply (weaken _ _ _ _ _ IHb); [apply grow_mono; [assumption|lia]|apply magnitude_nonneg].
      - eapply Rle_trans; [apply Rabs_triang|]. pose proof (exact_le_magnitude a). pose proof (exact_le_magnitude b). lra. }
    destruct a, b; try exact G. inversion Ha. inversion Hb. subst. cbn [magnitude exact roundings Nat.max pow].
    apply rounded; auto; try lra. rewrite Rminus_diag_eq, Rabs_R0 by reflexivity. lra.
  - destruct Hp as [Pa Pb]. specialize (IHa Pa). specialize (IHb Pb). cbn [roundings].
    assert (G : Rabs ((x - y) * (1 + d) - (exact a - exact b)) <= ((1 + u) ^ S (Nat.max (roundings a) (roundings b)) - 1) * (magnitude a + magnitude b)).
    { cbn [pow]. apply rounded; auto using grow_ge.
      - replace (x - y - (exact a - exact b)) with ((x - exact a) + - (y - exact b)) by ring.
        eapply Rle_trans; [apply Rabs_triang|]. rewrite Rabs_Ropp, Rmult_plus_distr_l. apply Rplus_le_compat.
        + apply (weaken _ _ _ _ _ IHa); [apply grow_mono; [assumption|lia]|apply magnitude_nonneg].
        + apply (weaken _ _ _ _ _ IHb); [apply grow_mono; [assumption|lia]|apply magnitude_nonneg].
      - unfold Rminus. eapply Rle_trans; [apply Rabs_triang|]. rewrite Rabs_Ropp.
        pose proof (exact_le_magnitude a). pose proof (exact_le_magnitude b). lra. }
    destruct a, b; try exact G. inversion Ha. inversion Hb. subst. cbn [magnitude exact roundings Nat.max pow].
    apply rounded; auto; try lra. rewrite Rminus_diag_eq, Rabs_R0 by reflexivity. lra.
  - destruct Hp as [Pa Pb]. specialize (IHa Pa). specialize (IHb Pb). cbn [roundings magnitude pow]. rewrite pow_add.
    apply rounded; auto.
    + pose proof (grow_ge u (roundings a) Hu). pose proof (grow_ge u (roundings b) Hu). nra.
    + apply product; auto using grow_ge, exact_le_magnitude.
    + rewrite Rabs_mult. apply Rmult_le_compat; auto using Rabs_pos, exact_le_magnitude.
  - destruct Hp as [Pa Ps]. destruct b as [s|?|?|?|?|?]; try contradiction. specialize (IHa Pa).
    inversion Hb. subst. cbn [roundings magnitude exact pow].
    assert (E : Rabs (/ y) = / Rabs y) by apply Rabs_inv.
    assert (P : 0 <= / Rabs y) by (rewrite <- E; apply Rabs_pos).
    apply rounded; auto using grow_ge.
    + unfold Rdiv. rewrite <- Rmult_minus_distr_r, Rabs_mult, E, <- Rmult_assoc. now apply Rmult_le_compat_r.
    + unfold Rdiv. rewrite Rabs_mult, E. apply Rmult_le_compat_r; [exact P|apply exact_le_magnitude].
  - specialize (IHa Hp). cbn [roundings magnitude pow].
    assert (A1 : 1 <= ((1 + u) ^ roundings a) ^ n) by (apply pow_R1_Rle, grow_ge, Hu).
    assert (EP : Rabs (exact a ^ n) <= magnitude a ^ n)
      by (rewrite <- RPow_abs; apply pow_incr; split; [apply Rabs_pos|apply exact_le_magnitude]).
    replace (n * roundings a)%nat with (roundings a * n)%nat by lia. rewrite pow_mult.
    apply rounded; auto.
    + nra.
    + apply rounded; auto. apply power; auto using grow_ge, exact_le_magnitude.
Qed.

(** Exact evaluation is allowed. *)
Lemma exact_computed u e : 0 <= u -> polynomial e -> computed u e (exact e).
Proof.
  intros Hu. assert (Z : Rabs 0 <= u) by (rewrite Rabs_R0; exact Hu).
  induction e as [x|a IHa b IHb|a IHa b IHb|a IHa b IHb|a IHa b IHb|a IHa n]; cbn [polynomial exact]; intros Hp.
  - constructor.
  - replace (exact a + exact b) with ((exact a + exact b) * (1 + 0)) by ring. constructor; tauto.
  - replace (exact a - exact b) with ((exact a - exact b) * (1 + 0)) by ring. constructor; tauto.
  - replace (exact a * exact b) with ((exact a * exact b) * (1 + 0)) by ring. constructor; tauto.
  - destruct Hp as [Pa Ps]. destruct b; try contradiction. cbn [exact].
    replace (exact a / x) with (exact a / x * (1 + 0)) by ring. constructor; auto. constructor.
  - replace (exact a ^ n) with (exact a ^ n * (1 + 0) * (1 + 0)) by ring. constructor; auto.
Qed.

(** A quotient that is scaled and shifted. *)
Lemma quotient_computed u en ed N D x scale offset num den :
  0 <= u -> computed u (denormalized (Div num den) offset scale) x ->
  (forall y, computed u num y -> Rabs (y - N) <= en) -> (forall y, computed u den y -> Rabs (y - D) <= ed) ->
  ed < Rabs D ->
  Rabs (x - (N / D * scale + offset)) <= quotient_error u en ed N D scale offset.
Proof.
  intros Hu Hc Hn Hd Hed. unfold denormalized in Hc.
  inversion Hc as [|? ? w o' d2 Hw Ho Hd2| | | |]; subst. inversion Ho; subst. clear Ho Hc.
  inversion Hw as [| | |? ? z s' d1 Hz Hs Hd1| |]; subst. inversion Hs; subst. clear Hs Hw.
  inversion Hz as [| | | |? ? n d d0 Hnum Hden Hd0 Hdd|]; subst. clear Hz.
  specialize (Hn _ Hnum). specialize (Hd _ Hden). clear Hnum Hden num den.
  assert (HD : D <> 0). { intros ->. rewrite Rabs_R0 in Hed. pose proof (Rabs_pos (d - 0)). lra. }
  assert (Hed0 : 0 <= ed) by (pose proof (Rabs_pos (d - D)); lra).
  assert (Hen0 : 0 <= en) by (pose proof (Rabs_pos (n - N)); lra).
  assert (Hdl : Rabs D - ed <= Rabs d).
  { replace D with (d + - (d - D)) at 1 by ring. pose proof (Rabs_triang d (- (d - D))) as T. rewrite Rabs_Ropp in T. lra. }
  set (Z := N / D) in *.
  set (q := (en + Rabs Z * ed) / (Rabs D - ed)).
  assert (Hq : Rabs (n / d - Z) <= q).
  { replace (n / d - Z) with (((n - N) - Z * (d - D)) / d) by (unfold Z; field; auto).
    unfold Rdiv at 1. rewrite Rabs_mult, Rabs_inv. unfold q, Rdiv. apply Rmult_le_compat.
    - apply Rabs_pos.
    - apply Rlt_le, Rinv_0_lt_compat. lra.
    - unfold Rminus. eapply Rle_trans; [apply Rabs_triang|]. rewrite Rabs_Ropp, Rabs_mult. apply Rplus_le_compat; [exact Hn|].
      apply Rmult_le_compat_l; [apply Rabs_pos|exact Hd].
    - apply Rinv_le_contravar; lra. }
  assert (Hq0 : 0 <= q) by (pose proof (Rabs_pos (n / d - Z)); lra).
  unfold quotient_error. fold Z. fold q. unfold growth.
  set (w := n / d) in *. clearbody w q Z. clear Hn Hd Hed Hdl Hed0 Hen0 Hd0.
  replace ((w * (1 + d0) * s' * (1 + d1) + o') * (1 + d2) - (Z * s' + o'))
    with (s' * (w * (1 + d0) * (1 + d1) * (1 + d2) - Z) + d2 * o') by ring.
  eapply Rle_trans; [apply Rabs_triang|]. rewrite !Rabs_mult. apply Rplus_le_compat.
  2: { apply Rmult_le_compat_r; [apply Rabs_pos|exact Hd2]. }
  apply Rmult_le_compat_l; [apply Rabs_pos|].
  assert (S : forall y e c, Rabs (y - Z) <= e -> Rabs c <= u -> Rabs (y * (1 + c) - Z) <= e * (1 + u) + u * Rabs Z).
  { intros y e c Hy Hcc. replace (y * (1 + c) - Z) with ((y - Z) * (1 + c) + c * Z) by ring.
    eapply Rle_trans; [apply Rabs_triang|]. rewrite !Rabs_mult. apply Rplus_le_compat.
    - apply Rmult_le_compat; auto using Rabs_pos. eapply Rle_trans; [apply Rabs_triang|rewrite Rabs_R1; lra].
    - apply Rmult_le_compat_r; [apply Rabs_pos|exact Hcc]. }
  pose proof (S _ _ _ (S _ _ _ (S _ _ _ Hq Hdd) Hd1) Hd2) as G.
  eapply Rle_trans; [exact G|]. apply Req_le. ring.
Qed.

(** * The formulas and the exact models *)
Ltac twenty c := do 20 (destruct c as [|? c]; [cbn in *; exfalso; lia|]); destruct c.

Lemma rpc_formula_exact c l p h : (20 <= length c)%nat ->
  rpc_evaluate c (exact l) (exact p) (exact h) = Ok (exact (rpc_formula c l p h)).
Proof. intros H. twenty c; reflexivity. Qed.
Lemma rpc_formula_magnitude c l p h : (20 <= length c)%nat ->
  rpc_evaluate (map Rabs c) (magnitude l) (magnitude p) (magnitude h) = Ok (magnitude (rpc_formula c l p h)).
Proof.
  intros H. twenty c; unfold rpc_evaluate; cbn [length map Nat.ltb Nat.leb]; apply f_equal;
  cbn; rewrite !Rplus_0_l; reflexivity.
Qed.
Lemma rpc_formula_polynomial c l p h : (20 <= length c)%nat -> polynomial l -> polynomial p -> polynomial h -> polynomial (rpc_formula c l p h).
Proof. intros H ? ? ?. twenty c; cbn; tauto. Qed.
Lemma rpc_formula_roundings c v1 o1 s1 v2 o2 s2 v3 o3 s3 : (20 <= length c)%nat ->
  roundings (rpc_formula c (normalized v1 o1 s1) (normalized v2 o2 s2) (normalized v3 o3 s3)) = 22%nat.
Proof. intros H. twenty c; reflexivity. Qed.

Lemma fold_rel {A B C} (P : A -> B -> Prop) (f : A -> C -> A) (g : B -> C -> B) l :
  (forall a b i, In i l -> P a b -> P (f a i) (g b i)) -> forall a b, P a b -> P (fold_left f l a) (fold_left g l b).
Proof.
  induction l as [|i l IH]; cbn; [auto|]. intros H a b Hab. apply IH; [intros; apply H; auto|]. apply H; auto.
Qed.

Lemma rsm_formula_exact p x y z :
  exact (rsm_formula p x y z) = poly_evaluate p (mkVec (exact x) (exact y) (exact z)).
Proof.
  unfold rsm_formula, poly_evaluate.
  enough (H : forall a b, exact (fst a) = fst b /\ snd a = snd b ->
    let r := fold_left (fun st k => fold_left (fun st j => fold_left (fun st i => rsm_term p x y z k j i st) (seq 0 (max_x p + 1)) st) (seq 0 (max_y p + 1)) st) (seq 0 (max_z p + 1)) a in
    let r' := fold_left (fun st k => fold_left (fun st j => fold_left (fun st i => term p (mkVec (exact x) (exact y) (exact z)) k j i st) (seq 0 (max_x p + 1)) st) (seq 0 (max_y p + 1)) st) (seq 0 (max_z p + 1)) b in
    exact (fst r) = fst r' /\ snd r = snd r').
  { apply H. split; reflexivity. }
  intros a b Hab. cbv zeta. revert a b Hab. apply (fold_rel (fun a b => exact (fst a) = fst b /\ snd a = snd b)).
  intros a b k _. revert a b. apply (fold_rel (fun a b => exact (fst a) = fst b /\ snd a = snd b)).
  intros a b j _. revert a b. apply (fold_rel (fun a b => exact (fst a) = fst b /\ snd a = snd b)).
  intros a b i _ [E1 E2]. unfold rsm_term, term. cbn. rewrite E1, E2. split; reflexivity.
Qed.

Lemma rsm_formula_magnitude p x y z :
  magnitude (rsm_formula p x y z) = poly_evaluate (absolute p) (mkVec (magnitude x) (magnitude y) (magnitude z)).
Proof.
  unfold rsm_formula, poly_evaluate. cbn [absolute max_x max_y max_z].
  enough (H : forall a b, magnitude (fst a) = fst b /\ snd a = snd b ->
    let r := fold_left (fun st k => fold_left (fun st j => fold_left (fun st i => rsm_term p x y z k j i st) (seq 0 (max_x p + 1)) st) (seq 0 (max_y p + 1)) st) (seq 0 (max_z p + 1)) a in
    let r' := fold_left (fun st k => fold_left (fun st j => fold_left (fun st i => term (absolute p) (mkVec (magnitude x) (magnitude y) (magnitude z)) k j i st) (seq 0 (max_x p + 1)) st) (seq 0 (max_y p + 1)) st) (seq 0 (max_z p + 1)) b in
    magnitude (fst r) = fst r' /\ snd r = snd r').
  { apply (H (Num 0, 0%nat) (0, 0%nat)). split; [apply Rabs_R0|reflexivity]. }
  intros a b Hab. cbv zeta. revert a b Hab. apply (fold_rel (fun a b => magnitude (fst a) = fst b /\ snd a = snd b)).
  intros a b k _. revert a b. apply (fold_rel (fun a b => magnitude (fst a) = fst b /\ snd a = snd b)).
  intros a b j _. revert a b. apply (fold_rel (fun a b => magnitude (fst a) = fst b /\ snd a = snd b)).
  intros a b i _ [E1 E2]. unfold rsm_term, term. cbn [fst snd magnitude absolute coefs vx vy vz]. rewrite <- E1, <- E2.
  replace (nth (snd a) (map Rabs (coefs p)) 0) with (Rabs (nth (snd a) (coefs p) 0)) by (rewrite <- (map_nth Rabs), Rabs_R0; reflexivity).
  split; [|reflexivity].
  destruct (fst a); reflexivity.
Qed.

Lemma fold_inv {A C} (P : A -> Prop) (f : A -> C -> A) l :
  (forall a i, In i l -> P a -> P (f a i)) -> forall a, P a -> P (fold_left f l a).
Proof. induction l as [|i l IH]; cbn; [auto|]. intros H a Ha. apply IH; [intros; apply H; auto|]. apply H; auto. Qed.

Lemma rsm_formula_polynomial p x y z : polynomial x -> polynomial y -> polynomial z -> polynomial (rsm_formula p x y z).
Proof.
  intros ? ? ?. unfold rsm_formula. apply (fold_inv (fun st => polynomial (fst st))); [|exact I].
  intros a k _. revert a. apply (fold_inv (fun st => polynomial (fst st))).
  intros a j _. revert a. apply (fold_inv (fun st => polynomial (fst st))).
  intros a i _ Ha. cbn. tauto.
Qed.

Lemma fold_count {A C} (f : A * nat -> C -> A * nat) n l : (forall a i, snd (f a i) = (snd a + n)%nat) ->
  forall a, snd (fold_left f l a) = (snd a + length l * n)%nat.
Proof. intros H. induction l as [|i l IH]; cbn; intros a; [lia|]. rewrite IH, H. lia. Qed.

Lemma rsm_formula_roundings p x y z : (roundings x <= 2)%nat -> (roundings y <= 2)%nat -> (roundings z <= 2)%nat ->
  (roundings (rsm_formula p x y z) <= rsm_roundings p)%nat.
Proof.
  intros Hx Hy Hz. unfold rsm_formula, rsm_roundings.
  set (st := fold_left _ _ _).
  assert (N : snd st = ((max_x p + 1) * (max_y p + 1) * (max_z p + 1))%nat).
  { unfold st. rewrite (fold_count _ ((max_x p + 1) * (max_y p + 1))).
    - cbn [snd]. rewrite seq_length. lia.
    - intros a k. rewrite (fold_count _ (max_x p + 1)); [rewrite seq_length; lia|].
      intros a' j. rewrite (fold_count _ 1); [rewrite seq_length; lia|]. reflexivity. }
  rewrite <- N. clear N.
  enough (H : (roundings (fst st) <= snd st + (9 + 2 * (max_x p + max_y p + max_z p)))%nat) by lia.
  unfold st. clear st.
  set (P := fun st : expr * nat => (roundings (fst st) <= snd st + (9 + 2 * (max_x p + max_y p + max_z p)))%nat).
  apply (fold_inv P); [|unfold P; cbn; lia].
  intros a k Hk. revert a. apply (fold_inv P). intros a j Hj. revert a. apply (fold_inv P).
  intros a i Hi Ha. unfold P in *. unfold rsm_term. cbn [fst snd roundings].
  apply in_seq in Hi, Hj, Hk.
  assert (i * roundings x <= max_x p * 2)%nat by (apply Nat.mul_le_mono; lia).
  assert (j * roundings y <= max_y p * 2)%nat by (apply Nat.mul_le_mono; lia).
  assert (k * roundings z <= max_z p * 2)%nat by (apply Nat.mul_le_mono; lia).
  lia.
Qed.

Lemma normalized_polynomial v o s : s <> 0 -> polynomial (normalized v o s).
Proof. intros. cbn. tauto. Qed.
Lemma normalized_magnitude v o s : magnitude (normalized v o s) = Rabs ((v - o) / s).
Proof. cbn. unfold Rdiv. now rewrite Rabs_mult, Rabs_inv. Qed.

Lemma bounded_error u e k x : 0 <= u -> polynomial e -> (roundings e <= k)%nat -> computed u e x ->
  Rabs (x - exact e) <= growth u k * magnitude e.
Proof.
  intros Hu Hp Hk Hc. eapply Rle_trans; [apply (computed_error u e x Hu Hp Hc)|].
  apply Rmult_le_compat_r; [apply magnitude_nonneg|]. now apply growth_mono.
Qed.

Lemma rpc_evaluate_abs c l p h r a : rpc_evaluate c l p h = Ok r -> rpc_evaluate (map Rabs c) (Rabs l) (Rabs p) (Rabs h) = Ok a -> Rabs r <= a.
Proof.
  intros Hr Ha. assert (Hc : (20 <= length c)%nat).
  { unfold rpc_evaluate in Hr. destruct (Nat.ltb (length c) 20) eqn:E; [discriminate|]. now apply Nat.ltb_ge in E. }
  pose proof (rpc_formula_exact c (Num l) (Num p) (Num h) Hc) as E. cbn [exact] in E. rewrite Hr in E. injection E as ->.
  pose proof (rpc_formula_magnitude c (Num l) (Num p) (Num h) Hc) as E. cbn [magnitude] in E. rewrite Ha in E. injection E as ->.
  apply exact_le_magnitude.
Qed.
Lemma poly_evaluate_abs p v : Rabs (poly_evaluate p v) <= poly_evaluate (absolute p) (vabs v).
Proof.
  pose proof (exact_le_magnitude (rsm_formula p (Num (vx v)) (Num (vy v)) (Num (vz v)))) as H.
  rewrite rsm_formula_exact, rsm_formula_magnitude in H. cbn [exact magnitude] in H. destruct v. exact H.
Qed.

(** * Numbers for binary64 *)
Lemma small_growth k : (k <= 256)%nat -> growth binary64 k <= 3 / 10 ^ 14.
Proof.
  intros Hk. eapply Rle_trans; [apply growth_mono; [unfold binary64; apply Rlt_le, Rinv_0_lt_compat, pow_lt; lra|exact Hk]|].
  unfold growth.
  apply (Rplus_le_reg_l 1). replace (1 + ((1 + binary64) ^ 256 - 1)) with ((1 + binary64) ^ 256) by ring.
  unfold binary64. replace 256%nat with (2 * 2 * 2 * 2 * 2 * 2 * 2 * 2)%nat by reflexivity. rewrite !pow_mult.
  set (q := / 2 ^ 53). assert (0 < q) by (unfold q; apply Rinv_0_lt_compat, pow_lt; lra).
  assert (Hq : q <= / 9000000000000000) by (unfold q; apply Rinv_le_contravar; lra).
  assert (D : forall a b, 1 <= a <= 1 + b -> 0 <= b -> 1 <= a ^ 2 <= 1 + (2 * b + b * b)).
  { intros a b Ha Hb. cbn [pow]. nra. }
  assert (X1 : 1 <= (1 + q) <= 1 + / 9000000000000000) by lra.
  apply D in X1; [|lra].
  assert (X2 : 1 <= (1 + q) ^ 2 <= 1 + 2223 / 10 ^ 19) by lra. clear X1. apply D in X2; [|lra].
  assert (X3 : 1 <= ((1 + q) ^ 2) ^ 2 <= 1 + 4447 / 10 ^ 19) by lra. clear X2. apply D in X3; [|lra].
  assert (X4 : 1 <= (((1 + q) ^ 2) ^ 2) ^ 2 <= 1 + 8895 / 10 ^ 19) by lra. clear X3. apply D in X4; [|lra].
  assert (X5 : 1 <= ((((1 + q) ^ 2) ^ 2) ^ 2) ^ 2 <= 1 + 17795 / 10 ^ 19) by lra. clear X4. apply D in X5; [|lra].
  assert (X6 : 1 <= (((((1 + q) ^ 2) ^ 2) ^ 2) ^ 2) ^ 2 <= 1 + 35595 / 10 ^ 19) by lra. clear X5. apply D in X6; [|lra].
  assert (X7 : 1 <= ((((((1 + q) ^ 2) ^ 2) ^ 2) ^ 2) ^ 2) ^ 2 <= 1 + 71195 / 10 ^ 19) by lra. clear X6. apply D in X7; [|lra].
  assert (X8 : 1 <= (((((((1 + q) ^ 2) ^ 2) ^ 2) ^ 2) ^ 2) ^ 2) ^ 2 <= 1 + 142395 / 10 ^ 19) by lra. clear X7. apply D in X8; [|lra].
  eapply Rle_trans; [exact (proj2 X8)|]. clear. lra.
Qed.
Lemma small_quotient_error k k' n d an ad scale offset :
  (k <= 256)%nat -> (k' <= 256)%nat -> Rabs n <= an <= 4 -> 0 <= ad <= 4 -> 1 / 2 <= Rabs d -> Rabs scale <= 100000 -> Rabs offset <= 100000 ->
  growth binary64 k' * ad < Rabs d /\
  quotient_error binary64 (growth binary64 k * an) (growth binary64 k' * ad) n d scale offset <= / 1000000.
Proof.
  intros Hk Hk' Hn Had Hd Hs Ho.
  assert (U : 0 < binary64 <= / 10 ^ 15).
  { unfold binary64. split; [apply Rinv_0_lt_compat, pow_lt; lra|]. apply Rinv_le_contravar; [apply pow_lt; lra|lra]. }
  pose proof (small_growth k Hk) as G. pose proof (small_growth k' Hk') as G'.
  pose proof (growth_nonneg binary64 k ltac:(lra)) as G0. pose proof (growth_nonneg binary64 k' ltac:(lra)) as G0'.
  pose proof (small_growth 3 ltac:(lia)) as T. pose proof (growth_nonneg binary64 3 ltac:(lra)) as T0.
  set (g := growth binary64 k) in *. set (g' := growth binary64 k') in *.
  assert (A : 0 <= g * an <= 12 / 10 ^ 14) by (pose proof (Rabs_pos n); nra).
  assert (B : 0 <= g' * ad <= 12 / 10 ^ 14) by nra.
  split; [lra|].
  unfold quotient_error.
  replace ((1 + binary64) ^ 3) with (1 + growth binary64 3) by (unfold growth; ring).
  set (t := growth binary64 3) in *. set (a := g * an) in *. set (b := g' * ad) in *.
  assert (Z : 0 <= Rabs (n / d) <= 8).
  { split; [apply Rabs_pos|]. unfold Rdiv. rewrite Rabs_mult, Rabs_inv.
    assert (I : / Rabs d <= / (1 / 2)) by (apply Rinv_le_contravar; lra).
    assert (0 <= / Rabs d) by (apply Rlt_le, Rinv_0_lt_compat; lra).
    pose proof (Rabs_pos n). nra. }
  set (z := Rabs (n / d)) in *.
  assert (Q : 0 <= (a + z * b) / (Rabs d - b) <= 240 / 10 ^ 14).
  { assert (I0 : 0 <= / (Rabs d - b)) by (apply Rlt_le, Rinv_0_lt_compat; lra).
    assert (I : / (Rabs d - b) <= / (9 / 20)) by (apply Rinv_le_contravar; lra).
    assert (N0 : 0 <= a + z * b <= 108 / 10 ^ 14) by nra.
    unfold Rdiv at 1 3. split; [apply Rmult_le_pos; lra|].
    eapply Rle_trans; [apply Rmult_le_compat_l; [lra|exact I]|]. lra. }
  set (q := (a + z * b) / (Rabs d - b)) in *.
  assert (S0 : 0 <= (1 + t) * q + t * z <= 270 / 10 ^ 14) by nra.
  assert (S1 : Rabs scale * ((1 + t) * q + t * z) <= 100000 * (270 / 10 ^ 14)) by (apply Rmult_le_compat; try lra; apply Rabs_pos).
  assert (S2 : binary64 * Rabs offset <= / 10 ^ 15 * 100000) by (apply Rmult_le_compat; try lra; apply Rabs_pos).
  lra.
Qed.
