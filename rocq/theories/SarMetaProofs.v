(** Lemmas about SAR metadata: coefficient placement and chip transforms. *)
Require Import ZArith Reals String List Lra Lia Bool.
Require Import Verif.Base Verif.BaseFacts Verif.Vec Verif.PolySpec Verif.SicdModel Verif.SicdSpec Verif.SicdProofs Verif.TransformModel Verif.TransformSpec Verif.TransformProofs Verif.SarMetaModel Verif.SarMetaSpec.
Import ListNotations.
Local Open Scope R_scope.

Lemma py_index_nonneg n i : (0 <= i < Z.of_nat n)%Z -> py_index n i = Some (Z.to_nat i).
Proof.
  intros H. unfold py_index. replace (0 <=? i)%Z with true by (symmetry; apply Z.leb_le; lia).
  replace (i <? Z.of_nat n)%Z with true by (symmetry; apply Z.ltb_lt; lia). reflexivity.
Qed.
Lemma py_index_outside n i : (i < - Z.of_nat n \/ Z.of_nat n <= i)%Z -> py_index n i = None.
Proof.
  intros H. unfold py_index. destruct (Z.leb_spec 0 i), (Z.ltb_spec i (Z.of_nat n)); cbn; try lia;
  destruct (Z.leb_spec (- Z.of_nat n) i), (Z.ltb_spec i 0); cbn; try lia; reflexivity.
Qed.
Lemma py_index_some n i k : py_index n i = Some k -> (k < n)%nat.
Proof.
  unfold py_index. destruct (Z.leb_spec 0 i), (Z.ltb_spec i (Z.of_nat n)); cbn; intros H'; try (injection H' as <-; lia);
  destruct (Z.leb_spec (- Z.of_nat n) i), (Z.ltb_spec i 0); cbn in H'; try discriminate; injection H' as <-; lia.
Qed.
Lemma replace_length {A} k (v : A) l : List.length (replace_nth k v l) = List.length l.
Proof. revert k. induction l as [|x l IH]; intros [|k]; cbn; auto. Qed.
Lemma replace_same {A} k (v d : A) l : (k < List.length l)%nat -> nth k (replace_nth k v l) d = v.
Proof. revert k. induction l as [|x l IH]; intros [|k] H; cbn in *; try lia; [reflexivity|]. apply IH. lia. Qed.
Lemma replace_other {A} k j (v d : A) l : j <> k -> nth j (replace_nth k v l) d = nth j l d.
Proof. revert k j. induction l as [|x l IH]; intros [|k] [|j] H; cbn; try congruence; try reflexivity. apply IH. congruence. Qed.
Lemma replace_in {A} k (v : A) l x : In x (replace_nth k v l) -> x = v \/ In x l.
Proof.
  revert k. induction l as [|y l IH]; intros k H; [destruct k; contradiction|]. destruct k as [|k]; cbn in H.
  - destruct H as [<-|H]; [now left|right; now right].
  - destruct H as [<-|H]; [right; now left|]. apply IH in H. destruct H; [now left|right; now right].
Qed.
Lemma nth_repeat' {A} (d : A) n k : nth k (repeat d n) d = d.
Proof. revert k. induction n as [|n IH]; intros [|k]; cbn; auto. Qed.

(** Changing one summand. *)
Lemma total_change (f g : nat -> R) n s i : (s <= i < s + n)%nat -> (forall j, j <> i -> f j = g j) ->
  total (List.map f (seq s n)) = total (List.map g (seq s n)) + (f i - g i).
Proof.
  revert s. induction n as [|n IH]; intros s H E; [lia|]. cbn [seq List.map]. rewrite !total_cons.
  destruct (Nat.eq_dec i s) as [->|N].
  - rewrite (map_ext_in f g); [ring|]. intros j Hj. apply in_seq in Hj. apply E. lia.
  - rewrite (IH (S s)); [|lia|exact E]. rewrite (E s) by congruence. ring.
Qed.

(** *** One variable *)
Lemma set_coef1_ok l c : (0 <= exponent1 c < Z.of_nat (List.length l))%Z -> set_coef1 l c = Ok (replace_nth (Z.to_nat (exponent1 c)) (value1 c) l).
Proof. intros H. unfold set_coef1, py_set. now rewrite py_index_nonneg. Qed.

Lemma set_all1 cs : forall l, (forall c, In c cs -> (0 <= exponent1 c < Z.of_nat (List.length l))%Z) ->
  exists l', set_all set_coef1 cs l = Ok l' /\ List.length l' = List.length l /\
  forall k, nth k l' 0 = match given_last (Z.of_nat k) cs with Some v => v | None => nth k l 0 end.
Proof.
  induction cs as [|c cs IH]; intros l H; [exists l; auto|]. cbn [set_all]. rewrite set_coef1_ok by (apply H; now left). cbn [bind].
  pose proof (H c (or_introl eq_refl)) as Hc.
  destruct (IH (replace_nth (Z.to_nat (exponent1 c)) (value1 c) l)) as (l' & E & L & N).
  { intros d Hd. rewrite replace_length. apply H. now right. }
  exists l'. rewrite replace_length in L. split; [exact E|]. split; [exact L|]. intros k. rewrite N. cbn [given_last].
  destruct (given_last (Z.of_nat k) cs) as [v|]; [reflexivity|]. destruct (Z.eqb_spec (exponent1 c) (Z.of_nat k)) as [Ek|Nk].
  - replace (Z.to_nat (exponent1 c)) with k by lia. apply replace_same. lia.
  - apply replace_other. lia.
Qed.

Lemma power_sum_replace l k v x : (k < List.length l)%nat -> power_sum (replace_nth k v l) x = power_sum l x + (v - nth k l 0) * x ^ k.
Proof.
  intros H. unfold power_sum. rewrite replace_length.
  rewrite (total_change (fun i => nth i (replace_nth k v l) 0 * x ^ i) (fun i => nth i l 0 * x ^ i) (List.length l) 0 k); [|lia|].
  - rewrite replace_same by exact H. ring.
  - intros j Hj. now rewrite replace_other.
Qed.

Lemma set_all1_sum cs x : forall l l', NoDup (List.map exponent1 cs) -> (forall c, In c cs -> (0 <= exponent1 c < Z.of_nat (List.length l))%Z) ->
  (forall c, In c cs -> nth (Z.to_nat (exponent1 c)) l 0 = 0) -> set_all set_coef1 cs l = Ok l' ->
  power_sum l' x = power_sum l x + total (List.map (fun c => value1 c * x ^ Z.to_nat (exponent1 c)) cs).
Proof.
  induction cs as [|c cs IH]; intros l l' D H Z0 E; [injection E as <-; cbn; ring|].
  cbn [set_all] in E. pose proof (H c (or_introl eq_refl)) as Hc. rewrite set_coef1_ok in E by exact Hc. cbn [bind] in E.
  inversion D as [|? ? Ni Nd]; subst. cbn [List.map]. rewrite total_cons.
  rewrite (IH (replace_nth (Z.to_nat (exponent1 c)) (value1 c) l) l' Nd); [|..|exact E].
  - rewrite power_sum_replace by lia. rewrite (Z0 c (or_introl eq_refl)). ring.
  - intros d Hd. rewrite replace_length. apply H. now right.
  - intros d Hd. pose proof (H d (or_intror Hd)). rewrite replace_other; [apply Z0; now right|].
    intros F. apply Ni. replace (exponent1 c) with (exponent1 d) by lia. now apply in_map.
Qed.

Lemma set_all1_index cs : forall l, (exists c, In c cs /\ (exponent1 c < - Z.of_nat (List.length l) \/ Z.of_nat (List.length l) <= exponent1 c)%Z) ->
  set_all set_coef1 cs l = Err IndexError.
Proof.
  induction cs as [|c cs IH]; intros l (d & I & H); [contradiction|]. cbn [set_all].
  unfold set_coef1 at 1, py_set. destruct (py_index (List.length l) (exponent1 c)) as [k|] eqn:E; [|reflexivity]. cbn [bind].
  destruct I as [->|I]; [rewrite py_index_outside in E by exact H; discriminate|].
  apply IH. exists d. rewrite replace_length. auto.
Qed.

(** *** Two variables *)
Definition matrix (m n : nat) (l : list (list R)) : Prop := List.length l = m /\ forall r, In r l -> List.length r = n.

Lemma set_coef2_ok m n l c : matrix m n l -> (0 <= exponent2_1 c < Z.of_nat m)%Z -> (0 <= exponent2_2 c < Z.of_nat n)%Z ->
  set_coef2 l c = Ok (replace_nth (Z.to_nat (exponent2_1 c)) (replace_nth (Z.to_nat (exponent2_2 c)) (value2 c) (nth (Z.to_nat (exponent2_1 c)) l [])) l).
Proof.
  intros [M N] Hi Hj. unfold set_coef2, py_get, py_set. rewrite (py_index_nonneg (List.length l)) by (rewrite M; exact Hi).
  rewrite (nth_error_nth' l []) by lia. cbn [bind].
  rewrite py_index_nonneg by (rewrite (N (nth (Z.to_nat (exponent2_1 c)) l [])); [exact Hj|apply nth_In; lia]). reflexivity.
Qed.
Lemma replace_matrix m n l i row : matrix m n l -> List.length row = n -> matrix m n (replace_nth i row l).
Proof.
  intros [M N] R. split; [now rewrite replace_length|]. intros r Hr. apply replace_in in Hr. destruct Hr as [->|Hr]; auto.
Qed.
Lemma power_sum2_replace m n l i j v x y : matrix m n l -> (i < m)%nat -> (j < n)%nat ->
  power_sum2 (replace_nth i (replace_nth j v (nth i l [])) l) n x y = power_sum2 l n x y + (v - nth j (nth i l []) 0) * x ^ i * y ^ j.
Proof.
  intros [M N] Hi Hj. unfold power_sum2. rewrite replace_length.
  rewrite (total_change _ (fun a => total (List.map (fun b => nth b (nth a l []) 0 * x ^ a * y ^ b) (seq 0 n))) (List.length l) 0 i); [|lia|].
  - rewrite replace_same by lia.
    rewrite (total_change (fun b => nth b (replace_nth j v (nth i l [])) 0 * x ^ i * y ^ b) (fun b => nth b (nth i l []) 0 * x ^ i * y ^ b) n 0 j); [|lia|].
    + rewrite replace_same; [ring|]. rewrite (N (nth i l [])); [exact Hj|apply nth_In; lia].
    + intros b Hb. now rewrite replace_other.
  - intros a Ha. now rewrite replace_other.
Qed.

Lemma set_all2_sum m n cs x y : forall l, NoDup (List.map (fun c => (exponent2_1 c, exponent2_2 c)) cs) -> matrix m n l ->
  (forall c, In c cs -> (0 <= exponent2_1 c < Z.of_nat m)%Z /\ (0 <= exponent2_2 c < Z.of_nat n)%Z) ->
  (forall c, In c cs -> nth (Z.to_nat (exponent2_2 c)) (nth (Z.to_nat (exponent2_1 c)) l []) 0 = 0) ->
  exists l', set_all set_coef2 cs l = Ok l' /\ matrix m n l' /\
  power_sum2 l' n x y = power_sum2 l n x y + total (List.map (fun c => value2 c * x ^ Z.to_nat (exponent2_1 c) * y ^ Z.to_nat (exponent2_2 c)) cs).
Proof.
  induction cs as [|c cs IH]; intros l D M H Z0; [exists l; split; [reflexivity|]; split; [exact M|]; cbn; ring|].
  destruct (H c (or_introl eq_refl)) as [Hi Hj]. inversion D as [|? ? Ni Nd]; subst.
  cbn [set_all]. rewrite (set_coef2_ok m n l c M Hi Hj). cbn [bind].
  set (i := Z.to_nat (exponent2_1 c)) in *. set (j := Z.to_nat (exponent2_2 c)) in *.
  assert (Rn : List.length (nth i l []) = n) by (destruct M as [M1 M2]; apply M2, nth_In; unfold i; lia).
  destruct (IH (replace_nth i (replace_nth j (value2 c) (nth i l [])) l) Nd) as (l' & E & M' & P).
  - apply replace_matrix; [exact M|]. now rewrite replace_length.
  - intros d Hd. apply H. now right.
  - intros d Hd. destruct (H d (or_intror Hd)) as [Di Dj].
    destruct (Nat.eq_dec (Z.to_nat (exponent2_1 d)) i) as [Ei|Ni'].
    + rewrite Ei, replace_same by (destruct M as [M1 _]; unfold i; lia).
      rewrite replace_other; [rewrite <- Ei; apply Z0; now right|].
      intros F. apply Ni. apply in_map_iff. exists d. split; [f_equal; unfold i, j in *; lia|exact Hd].
    + rewrite replace_other by exact Ni'. apply Z0. now right.
  - exists l'. split; [exact E|]. split; [exact M'|]. rewrite P. cbn [List.map]. rewrite total_cons.
    rewrite (power_sum2_replace m n) by (try exact M; unfold i, j; lia). pose proof (Z0 c (or_introl eq_refl)) as Zc. fold i j in Zc. rewrite Zc. unfold i, j. ring.
Qed.

Lemma set_coef2_outside m n l c : matrix m n l ->
  (exponent2_1 c < - Z.of_nat m \/ Z.of_nat m <= exponent2_1 c \/ exponent2_2 c < - Z.of_nat n \/ Z.of_nat n <= exponent2_2 c)%Z ->
  set_coef2 l c = Err IndexError.
Proof.
  intros [M N] H. unfold set_coef2, py_get, py_set. rewrite M. destruct (py_index m (exponent2_1 c)) as [k|] eqn:E; [|reflexivity].
  destruct (nth_error l k) as [row|] eqn:Er; [|reflexivity]. cbn [bind]. rewrite (N row) by (eapply nth_error_In; exact Er).
  destruct (py_index n (exponent2_2 c)) as [j|] eqn:Ej; [|reflexivity]. exfalso.
  destruct H as [H|[H|[H|H]]]; [rewrite py_index_outside in E by auto|rewrite py_index_outside in E by auto|rewrite py_index_outside in Ej by auto|rewrite py_index_outside in Ej by auto]; discriminate.
Qed.
Lemma set_coef2_matrix m n l c l' : matrix m n l -> set_coef2 l c = Ok l' -> matrix m n l'.
Proof.
  intros [M N] H. unfold set_coef2, py_get, py_set in H. destruct (py_index (List.length l) (exponent2_1 c)) as [k|] eqn:E; [|discriminate].
  destruct (nth_error l k) as [row|] eqn:Er; [|discriminate]. cbn [bind] in H. destruct (py_index (List.length row) (exponent2_2 c)) as [j|]; [|discriminate].
  cbn [bind] in H. injection H as <-. apply replace_matrix; [split; assumption|]. rewrite replace_length. apply N. eapply nth_error_In; exact Er.
Qed.
Lemma set_coef2_error l c e : set_coef2 l c = Err e -> e = IndexError.
Proof.
  intros H. unfold set_coef2, py_get, py_set in H. destruct (py_index (List.length l) (exponent2_1 c)) as [k|] eqn:E; [|now injection H as <-].
  destruct (nth_error l k) as [row|]; [|now injection H as <-]. cbn [bind] in H. destruct (py_index (List.length row) (exponent2_2 c)) as [j|]; cbn [bind] in H; [discriminate|now injection H as <-].
Qed.
Lemma set_all2_index m n cs : forall l, matrix m n l ->
  (exists c, In c cs /\ (exponent2_1 c < - Z.of_nat m \/ Z.of_nat m <= exponent2_1 c \/ exponent2_2 c < - Z.of_nat n \/ Z.of_nat n <= exponent2_2 c)%Z) ->
  set_all set_coef2 cs l = Err IndexError.
Proof.
  induction cs as [|c cs IH]; intros l M (d & I & H); [contradiction|]. cbn [set_all].
  destruct (set_coef2 l c) as [l1|e] eqn:E; cbn [bind].
  - destruct I as [->|I]; [rewrite (set_coef2_outside m n l d M H) in E; discriminate|]. apply IH; [eapply set_coef2_matrix; eauto|eauto].
  - f_equal. eapply set_coef2_error; eauto.
Qed.

Lemma zero_sum l x : (forall a, In a l -> a = 0) -> power_sum l x = 0.
Proof.
  intros H. unfold power_sum. rewrite (map_ext_in _ (fun _ => 0)).
  - induction (seq 0 (List.length l)) as [|k s IH]; [reflexivity|]. cbn [List.map]. rewrite total_cons, IH. ring.
  - intros k Hk. apply in_seq in Hk. rewrite (H (nth k l 0)); [ring|]. apply nth_In. lia.
Qed.
Lemma repeat_matrix m n : matrix m n (repeat (repeat 0 n) m).
Proof. split; [apply repeat_length|]. intros r Hr. apply repeat_spec in Hr. subst. apply repeat_length. Qed.
Lemma repeat_entry m n i j : nth j (nth i (repeat (repeat 0 n) m) []) 0 = 0.
Proof.
  destruct (le_lt_dec m i) as [H|H].
  - rewrite (nth_overflow (repeat (repeat 0 n) m)) by (rewrite repeat_length; lia). now destruct j.
  - rewrite (nth_indep _ [] (repeat 0 n)) by (rewrite repeat_length; lia). rewrite nth_repeat'. apply nth_repeat'.
Qed.
Lemma repeat_sum2 m n x y : power_sum2 (repeat (repeat 0 n) m) n x y = 0.
Proof.
  unfold power_sum2. rewrite (map_ext _ (fun _ => 0)).
  - induction (seq 0 _) as [|k s IH]; [reflexivity|]. cbn [List.map]. rewrite total_cons, IH. ring.
  - intros i. rewrite (map_ext _ (fun _ => 0)).
    + induction (seq 0 n) as [|k s IH]; [reflexivity|]. cbn [List.map]. rewrite total_cons, IH. ring.
    + intros j. rewrite repeat_entry. ring.
Qed.

(** *** Chip transforms *)
Lemma general_rectangle (x0 y0 x1 y1 : R) : x0 <> x1 -> y0 <> y1 -> general_position (x0, y0) (x1, y0) (x1, y1) (x0, y1).
Proof.
  intros X Y. unfold general_position, collinear. cbn [fst snd].
  assert (P : (x1 - x0) * (y1 - y0) <> 0) by (apply Rmult_integral_contrapositive_currified; lra).
  repeat split; intros F; apply P; lra.
Qed.
