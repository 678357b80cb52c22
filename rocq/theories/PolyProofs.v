(** Lemmas for the RPC and RSM properties. *)
Require Import ZArith Reals String List Lra Lia Bool.
Require Import Verif.Base Verif.BaseFacts Verif.Vec Verif.VecFacts.
Require Import Verif.RpcModel Verif.RsmModel Verif.PolySpec.
Import ListNotations.
Local Open Scope R_scope.

(** ** RPC *)
Lemma rpc_evaluate_spec c l p h : List.length c = 20%nat -> rpc_evaluate c l p h = Ok (rpc00b c l p h).
Proof.
  intros H. unfold rpc_evaluate. rewrite H. cbn [Nat.ltb Nat.leb].
  do 20 (destruct c as [|? c]; [discriminate|]). destruct c; [|discriminate].
  f_equal. unfold rpc00b, total, monomial. cbn. ring.
Qed.

(** ** Searches *)
Lemma surface_point_location e em x :
  (forall f, em = Some f -> forall w, longitude (f w) = longitude w /\ latitude (f w) = latitude w) ->
  let w := surface_point (constant_elevation e) em x in
  longitude w = fst x /\ latitude w = snd x /\
  w = match em with None => mkGeo (fst x) (snd x) e | Some f => f (mkGeo (fst x) (snd x) e) end.
Proof.
  intros H. unfold surface_point, constant_elevation. cbn. destruct em as [f|]; cbn.
  - destruct (H f eq_refl (mkGeo (fst x) (snd x) e)) as [A B]. cbn in *. now repeat split.
  - now repeat split.
Qed.

(** ** RSM polynomials *)
Lemma seq_snoc n : seq 0 (S n) = seq 0 n ++ [n].
Proof. now rewrite seq_S. Qed.

(** A loop adding [f a_index i] and stepping the index. *)
Lemma loop_sum (f : nat -> nat -> R) n r a :
  fold_left (fun st i => (fst st + f (snd st) i, (snd st + 1)%nat)) (seq 0 n) (r, a)
  = (r + bigsum n (fun i => f (a + i)%nat i), (a + n)%nat).
Proof.
  induction n as [|n IH]; [cbn; f_equal; [ring | lia]|].
  rewrite seq_snoc, fold_left_app, IH. cbn. f_equal; [ring | lia].
Qed.

(** A loop whose body adds [g a_index j] and advances the index by [s]. *)
Lemma loop_stride (body : R * nat -> nat -> R * nat) (g : nat -> nat -> R) s
  (Hb : forall r a j, body (r, a) j = (r + g a j, (a + s)%nat)) n r a :
  fold_left body (seq 0 n) (r, a) = (r + bigsum n (fun j => g (a + s * j)%nat j), (a + s * n)%nat).
Proof.
  induction n as [|n IH]; [cbn; f_equal; [ring | lia]|].
  rewrite seq_snoc, fold_left_app, IH. cbn [fold_left]. rewrite Hb. cbn [bigsum]. f_equal; [ring | lia].
Qed.

Lemma bigsum_ext n f g : (forall i, (i < n)%nat -> f i = g i) -> bigsum n f = bigsum n g.
Proof. intros H. induction n as [|n IH]; cbn; [reflexivity|]. rewrite IH, H by auto with arith. reflexivity. Qed.

Lemma poly_evaluate_spec p v :
  poly_evaluate p v = general_polynomial (max_x p) (max_y p) (max_z p) (coefs p) (vx v) (vy v) (vz v).
Proof.
  unfold poly_evaluate, general_polynomial.
  set (px := (max_x p + 1)%nat). set (py := (max_y p + 1)%nat). set (pz := (max_z p + 1)%nat).
  set (t := fun k j a i => nth a (coefs p) 0 * vx v ^ i * vy v ^ j * vz v ^ k).
  assert (inner : forall k j r a,
    fold_left (fun st i => term p v k j i st) (seq 0 px) (r, a)
    = (r + bigsum px (fun i => t k j (a + i)%nat i), (a + px)%nat)).
  { intros k j r a. rewrite <- (loop_sum (t k j)). reflexivity. }
  assert (middle : forall k r a,
    fold_left (fun st j => fold_left (fun st i => term p v k j i st) (seq 0 px) st) (seq 0 py) (r, a)
    = (r + bigsum py (fun j => bigsum px (fun i => t k j (a + px * j + i)%nat i)), (a + px * py)%nat)).
  { intros k r a. apply (loop_stride _ (fun a j => bigsum px (fun i => t k j (a + i)%nat i)) px).
    intros. apply inner. }
  assert (outer : forall r a,
    fold_left (fun st k => fold_left (fun st j => fold_left (fun st i => term p v k j i st) (seq 0 px) st) (seq 0 py) st)
      (seq 0 pz) (r, a)
    = (r + bigsum pz (fun k => bigsum py (fun j => bigsum px (fun i => t k j (a + (px * py) * k + px * j + i)%nat i))),
       (a + (px * py) * pz)%nat)).
  { intros r a.
    apply (loop_stride _ (fun a k => bigsum py (fun j => bigsum px (fun i => t k j (a + px * j + i)%nat i))) (px * py)%nat).
    intros. apply middle. }
  rewrite outer. cbn [fst]. rewrite Rplus_0_l.
  apply bigsum_ext; intros k _. apply bigsum_ext; intros j _. apply bigsum_ext; intros i _.
  unfold t. f_equal. f_equal. f_equal. f_equal. nia.
Qed.

(** ** RSM sections *)
Lemma clamp_section lo size n v : 0 < size -> (1 <= n)%Z ->
  section_of lo size n v (clamp_index (Rfloor ((v - lo) / size)) n).
Proof.
  intros Hs Hn. unfold section_of, clamp_index. set (q := (v - lo) / size).
  pose proof (Rfloor_spec q) as [F1 F2].
  assert (E : v = lo + q * size) by (unfold q; field; lra).
  destruct (Z.ltb_spec (Rfloor q) 0).
  - split; [lia|]. split; [now left|]. right. cbn.
    assert (IZR (Rfloor q) <= -1) by (apply IZR_le; lia).
    assert (q < 0) by lra. assert (q * size < 0) by nra. lra.
  - rewrite Z.geb_leb. destruct (Z.leb_spec n (Rfloor q)).
    + split; [lia|]. split; [|now left]. right.
      assert (IZR (n - 1) <= IZR (Rfloor q)) by (apply IZR_le; lia). nra.
    + split; [lia|]. split; right.
      * nra.
      * rewrite plus_IZR. nra.
Qed.

Lemma section_unique lo size n v r r' : 0 < size ->
  section_of lo size n v r -> section_of lo size n v r' -> r = r'.
Proof.
  intros Hs [A1 [A2 A3]] [B1 [B2 B3]].
  assert (L : forall a b, (a < b)%Z -> (b = 0%Z \/ lo + IZR b * size <= v) -> (a = (n - 1)%Z \/ v < lo + IZR (a + 1) * size) ->
                (0 <= a < n)%Z -> (0 <= b < n)%Z -> False).
  { intros a b Hab [->|Hb] [->|Ha]; try lia. intros Ra Rb.
    assert (IZR (a + 1) <= IZR b) by (apply IZR_le; lia). nra. }
  destruct (Z.lt_trichotomy r r') as [H|[H|H]]; [exfalso; eauto | exact H | exfalso; eauto].
Qed.

Lemma py_nth_ok {A} (l : list A) i : (0 <= i < Z.of_nat (List.length l))%Z ->
  exists a, nth_error l (Z.to_nat i) = Some a /\ py_nth l i = Ok a.
Proof.
  intros H. unfold py_nth. replace (i <? 0)%Z with false by (symmetry; apply Z.ltb_ge; lia).
  replace (i <? 0)%Z with false by (symmetry; apply Z.ltb_ge; lia).
  destruct (nth_error l (Z.to_nat i)) eqn:E; [eauto|].
  apply nth_error_None in E. lia.
Qed.

(** ** Ground domains *)
Section Domain.
Variable to_geocentric : Geodetic -> Vec.
Variable to_geodetic : Vec -> Geodetic.

Lemma map_res_ok {A B} (f : A -> res B) l : (forall a, In a l -> exists b, f a = Ok b) ->
  exists l', map_res f l = Ok l' /\ Forall2 (fun a b => f a = Ok b) l l'.
Proof.
  induction l as [|a l IH]; intros H; cbn; [eauto|].
  destruct (H a (or_introl eq_refl)) as [b Hb]. rewrite Hb. cbn.
  destruct IH as [l' [E F]]; [intros; apply H; now right|]. rewrite E. cbn. eexists; split; [reflexivity|].
  now constructor.
Qed.

Lemma map_res_forall2 {A B} (f : A -> res B) l l' : map_res f l = Ok l' -> Forall2 (fun a b => f a = Ok b) l l'.
Proof.
  revert l'. induction l as [|a l IH]; cbn; intros l' H; [injection H as <-; constructor|].
  destruct (f a) as [b|] eqn:E; cbn in H; [|discriminate].
  destruct (map_res f l) as [bs|]; cbn in H; [|discriminate]. injection H as <-. constructor; auto.
Qed.

Lemma from_ground_domain_ok form o us v :
  (form = RECTANGULAR -> o <> None /\ us <> None) -> exists g, from_ground_domain to_geodetic form o us v = Ok g.
Proof.
  intros H. destruct form; cbn; [eauto | eauto|].
  destruct (H eq_refl). destruct o; [|congruence]. destruct us as [[? ?]|]; [|congruence]. eauto.
Qed.

(** The bounding box of a non-empty list. *)
Definition inside (b : Bounds) (g : Geodetic) : Prop :=
  b_min_x b <= longitude g <= b_max_x b /\ b_min_y b <= latitude g <= b_max_y b.
Definition touched (b : Bounds) (l : list Geodetic) : Prop :=
  (exists g, In g l /\ longitude g = b_min_x b) /\ (exists g, In g l /\ longitude g = b_max_x b) /\
  (exists g, In g l /\ latitude g = b_min_y b) /\ (exists g, In g l /\ latitude g = b_max_y b).

Lemma bbox_spec l : l <> [] ->
  exists b, fold_left extend_bbox l None = Some b /\ (forall g, In g l -> inside b g) /\ touched b l.
Proof.
  induction l as [|g l IH] using rev_ind; [congruence|]. intros _.
  rewrite fold_left_app. destruct l as [|g0 l].
  - cbn. eexists. split; [reflexivity|]. split.
    + intros g' [<-|[]]. unfold inside; cbn. lra.
    + unfold touched; cbn. repeat split; exists g; split; auto.
  - destruct IH as [b [E [I T]]]; [discriminate|]. rewrite E. cbn [fold_left extend_bbox].
    eexists. split; [reflexivity|]. split.
    + intros g' H. apply in_app_iff in H. destruct H as [H|[<-|[]]].
      * destruct (I g' H) as [I1 I2]. unfold inside; cbn.
        pose proof (Rmin_l (b_min_x b) (longitude g)). pose proof (Rmin_l (b_min_y b) (latitude g)).
        pose proof (Rmax_l (b_max_x b) (longitude g)). pose proof (Rmax_l (b_max_y b) (latitude g)). lra.
      * unfold inside; cbn.
        pose proof (Rmin_r (b_min_x b) (longitude g)). pose proof (Rmin_r (b_min_y b) (latitude g)).
        pose proof (Rmax_r (b_max_x b) (longitude g)). pose proof (Rmax_r (b_max_y b) (latitude g)). lra.
    + destruct T as [[a1 [A1 A2]] [[a3 [A3 A4]] [[a5 [A5 A6]] [a7 [A7 A8]]]]].
      assert (K : forall x, In x (g0 :: l) -> In x ((g0 :: l) ++ [g])) by (intros; apply in_app_iff; now left).
      assert (G : In g ((g0 :: l) ++ [g])) by (apply in_app_iff; right; now left).
      unfold touched; cbn [b_min_x b_min_y b_max_x b_max_y]. repeat split.
      * unfold Rmin. destruct (Rle_dec _ _); [exists a1 | exists g]; auto.
      * unfold Rmax. destruct (Rle_dec _ _); [exists g | exists a3]; auto.
      * unfold Rmin. destruct (Rle_dec _ _); [exists a5 | exists g]; auto.
      * unfold Rmax. destruct (Rle_dec _ _); [exists g | exists a7]; auto.
Qed.

Lemma sum_elevations_total l : sum_elevations l = total (List.map elevation l).
Proof.
  unfold sum_elevations, total.
  assert (H : forall a, fold_left (fun s g => s + elevation g) l a = a + fold_right Rplus 0 (List.map elevation l)).
  { induction l as [|g l IH]; intros a; cbn; [ring|]. rewrite IH. ring. }
  rewrite H. ring.
Qed.
End Domain.

(** ** Modulo *)
Lemma fmod_spec x m : 0 < m -> 0 <= fmod x m < m /\ exists k, fmod x m = x + IZR k * m.
Proof.
  intros Hm. unfold fmod. pose proof (Rfloor_spec (x / m)) as [A B].
  assert (E : x = (x / m) * m) by (field; lra). set (q := x / m) in *. split.
  - rewrite E at 1 2. split; nra.
  - exists (- Rfloor q)%Z. rewrite opp_IZR. ring.
Qed.

Lemma fmod_unique x m y k : 0 < m -> 0 <= y < m -> y = x + IZR k * m -> fmod x m = y.
Proof.
  intros Hm Hy E. destruct (fmod_spec x m Hm) as [A [k' B]].
  assert (D : fmod x m - y = IZR (k' - k) * m) by (rewrite minus_IZR; lra).
  assert (k' = k).
  { assert (-1 < IZR (k' - k) < 1) by (split; nra).
    assert (-1 < k' - k < 1)%Z by (split; apply lt_IZR; tauto || (cbn; lra)). lia. }
  subst. lra.
Qed.

Lemma Forall2_same_length {A B} (P : A -> B -> Prop) l l' : Forall2 P l l' -> List.length l = List.length l'.
Proof. induction 1; cbn; congruence. Qed.
