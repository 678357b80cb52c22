(** Lemmas about builders and the factory. *)
Require Import ZArith Reals String Ascii List Bool Lia.
Require Import Verif.Base Verif.Vec Verif.SensorBase Verif.RpcModel Verif.RsmModel Verif.TransformModel.
Require Import Verif.TreModel Verif.TreSpec Verif.TreProofs Verif.BuilderModel Verif.BuilderSpec.
Import ListNotations.
Local Open Scope string_scope.

Lemma bind_ok {A B} (m : res A) (f : A -> res B) b : bind m f = Ok b <-> exists a, m = Ok a /\ f a = Ok b.
Proof. destruct m as [a|e]; cbn; split; [intros H; exists a; tauto | intros [x [E H]]; congruence | discriminate | intros [x [E H]]; discriminate]. Qed.

Lemma map_res_ok {A B} (f : A -> res B) l : forall bs, map_res f l = Ok bs <-> Forall2 (fun a b => f a = Ok b) l bs.
Proof.
  induction l as [|a r IH]; intros bs; cbn [map_res].
  - split; [intros H; injection H as <-; constructor | intros H; inversion H; reflexivity].
  - split.
    + intros H. apply bind_ok in H. destruct H as [b [F H]]. apply bind_ok in H. destruct H as [s [G H]].
      injection H as <-. constructor; [exact F | apply IH; exact G].
    + intros H. inversion H as [|? b ? s F G]; subst. rewrite F. cbn [bind]. apply IH in G. rewrite G. reflexivity.
Qed.

(** What a computation can raise. *)
Definition raises {A} (P : exn -> Prop) (r : res A) : Prop := forall e, r = Err e -> P e.
Lemma raises_ok {A} P (a : A) : raises P (Ok a).
Proof. intros e H. discriminate. Qed.
Lemma raises_err {A} (P : exn -> Prop) e : P e -> @raises A P (Err e).
Proof. intros H x E. injection E as <-. exact H. Qed.
Lemma raises_bind {A B} P (m : res A) (f : A -> res B) : raises P m -> (forall a, raises P (f a)) -> raises P (bind m f).
Proof. intros H G e E. destruct m as [a|x]; cbn [bind] in E; [apply (G a e E) | injection E as <-; apply H; reflexivity]. Qed.
Lemma raises_bind_ok {A B} P (m : res A) (f : A -> res B) : raises P m -> (forall a, m = Ok a -> raises P (f a)) -> raises P (bind m f).
Proof. intros H G e E. destruct m as [a|x]; cbn [bind] in E; [apply (G a eq_refl e E) | injection E as <-; apply H; reflexivity]. Qed.
Lemma raises_map_res {A B} P (f : A -> res B) l : (forall a, In a l -> raises P (f a)) -> raises P (map_res f l).
Proof.
  induction l as [|a r IH]; intros H; [apply raises_ok|]. cbn [map_res].
  apply raises_bind; [apply H; left; reflexivity|]. intros b.
  apply raises_bind; [apply IH; intros x I; apply H; right; exact I|]. intros s. apply raises_ok.
Qed.
Lemma raises_field {A} (P : exn -> Prop) e n (c : string -> option A) : P ValueError -> raises P (get_tre_field_value e n c).
Proof. intros H x E. apply field_error in E. subst. exact H. Qed.

Lemma float_ok cv e n x : float_field cv e n = Ok x <-> number_field cv e n x.
Proof. apply field_value. Qed.
Lemma int_ok cv e n x : int_field cv e n = Ok x <-> integer_field cv e n x.
Proof. apply field_value. Qed.
Lemma vec_ok cv e x y z v : vec_fields cv e x y z = Ok v <-> vector_field cv e x y z v.
Proof.
  unfold vec_fields, vector_field. split.
  - intros H. apply bind_ok in H. destruct H as [a [A H]]. apply bind_ok in H. destruct H as [b [B H]].
    apply bind_ok in H. destruct H as [c [C H]]. injection H as <-. cbn [vx vy vz].
    rewrite <- !float_ok. tauto.
  - intros [A [B C]]. apply float_ok in A. apply float_ok in B. apply float_ok in C. rewrite A, B, C. destruct v; reflexivity.
Qed.

Lemma raises_coefficients (P : exn -> Prop) cv e n : P ValueError -> P IndexError -> raises P (parse_rpc_coefficients cv e n).
Proof.
  intros V I. unfold parse_rpc_coefficients. destruct (find_named e "repeated" n) as [r|]; [|apply raises_err; exact V].
  destruct (attr r "number") as [s|]; [|apply raises_err; exact V].
  destruct (to_int cv s) as [z|]; [|apply raises_err; exact V].
  generalize (repeat 0%R (Z.to_nat z)). induction (children_of r) as [|g gs IH]; intros l; [apply raises_ok|].
  cbn [fill_groups]. apply raises_bind.
  - unfold group_value. destruct (attr g "index"); [|apply raises_err; exact V].
    destruct (to_int cv _); [|apply raises_err; exact V]. destruct (children_of g); [apply raises_err; exact I|].
    destruct (attr _ "value"); [|apply raises_err; exact V]. destruct (to_float cv _); [apply raises_ok | apply raises_err; exact V].
  - intros iv. apply raises_bind; [|exact IH]. unfold SarMetaModel.py_set.
    destruct (SarMetaModel.py_index _ _); [apply raises_ok | apply raises_err; exact I].
Qed.

(** *** Selection *)
Lemma sensor_type_eqb_eq a b : sensor_type_eqb a b = true <-> a = b.
Proof. destruct a, b; cbn; split; congruence. Qed.
Lemma selected_wants md t : selected (selection md) t = true <-> wants md t.
Proof.
  unfold selected, selection, wants. destruct (md_selected md) as [l|].
  - rewrite existsb_exists. split.
    + intros [x [I E]]. apply sensor_type_eqb_eq in E. subst. exact I.
    + intros I. exists t. split; [exact I | apply sensor_type_eqb_eq; reflexivity].
  - split; [tauto|]. intros _. destruct t; reflexivity.
Qed.
Lemma not_selected md t : selected (selection md) t = false <-> ~ wants md t.
Proof. rewrite <- selected_wants. destruct (selected (selection md) t); split; congruence. Qed.

Lemma contains_occurs p s : contains p s = true <-> occurs p s.
Proof.
  induction s as [|c r IH]; cbn [contains].
  - rewrite orb_false_r, prefix_spec. unfold occurs. split.
    + intros [b E]. exists "", b. exact E.
    + intros [a [b E]]. destruct a; [|discriminate]. exists b. exact E.
  - rewrite orb_true_iff, prefix_spec, IH. unfold occurs. split.
    + intros [[b E] | [a [b E]]]; [exists "", b; exact E | exists (String c a), b; rewrite E; reflexivity].
    + intros [[|d a] [b E]]; [left; exists b; exact E | right; exists a, b; cbn in E; injection E as _ E; exact E].
Qed.
Lemma contains_false p s : contains p s = false <-> ~ occurs p s.
Proof. rewrite <- contains_occurs. destruct (contains p s); split; congruence. Qed.

(** *** The last element with a property *)
Lemma find_rev_last {A} (p : A -> bool) (P : A -> Prop) l m : (forall x, p x = true <-> P x) ->
  List.find p (rev l) = Some m <-> last_with P l m.
Proof.
  intros S. rewrite find_split. unfold last_with. split.
  - intros [a [b [E [Q N]]]]. exists (rev b), (rev a). split.
    + rewrite <- (rev_involutive l), E, rev_app_distr. cbn [rev]. rewrite <- app_assoc. reflexivity.
    + split; [apply S; exact Q|]. intros x I C. apply S in C. rewrite <- in_rev in I. rewrite (N x I) in C. discriminate.
  - intros [a [b [E [Q N]]]]. exists (rev b), (rev a). split.
    + rewrite E, rev_app_distr. cbn [rev]. rewrite <- app_assoc. reflexivity.
    + split; [apply S; exact Q|]. intros x I. rewrite <- in_rev in I. destruct (p x) eqn:Px; [|reflexivity].
      exfalso. apply (N x I). apply S. exact Px.
Qed.
Lemma find_rev_none {A} (p : A -> bool) (P : A -> Prop) l : (forall x, p x = true <-> P x) ->
  List.find p (rev l) = None <-> forall x, In x l -> ~ P x.
Proof.
  intros S. split.
  - intros F x I C. apply S in C. pose proof (List.find_none _ _ F x) as N. rewrite <- in_rev in N. rewrite (N I) in C. discriminate.
  - intros H. destruct (List.find p (rev l)) as [m|] eqn:F; [|reflexivity]. apply List.find_some in F. destruct F as [I Q].
    rewrite <- in_rev in I. exfalso. apply (H m I). apply S. exact Q.
Qed.

Definition in_section (r c : Z) (m : SectionModel) : Prop := section_row m = r /\ section_col m = c.
Lemma in_section_test r c m : (Z.eqb (section_row m) r && Z.eqb (section_col m) c)%bool = true <-> in_section r c m.
Proof. rewrite andb_true_iff, !Z.eqb_eq. reflexivity. Qed.

Lemma grid_lookup_ok models r c p : grid_lookup models r c = Ok p <->
  exists m, last_with (in_section r c) models m /\ section_poly m = p.
Proof.
  unfold grid_lookup.
  destruct (List.find _ (rev models)) as [m|] eqn:F.
  - apply (find_rev_last _ _ _ _ (in_section_test r c)) in F. split.
    + intros E; injection E as <-. exists m. split; [exact F | reflexivity].
    + intros [m' [F' <-]]. apply (find_rev_last _ _ _ _ (in_section_test r c)) in F.
      apply (find_rev_last _ _ _ _ (in_section_test r c)) in F'. congruence.
  - split; [discriminate|]. intros [m [F' _]]. apply (find_rev_last _ _ _ _ (in_section_test r c)) in F'. congruence.
Qed.

Lemma one_to_nth n k : (k < Z.to_nat n)%nat -> nth_error (one_to n) k = Some (Z.of_nat k + 1)%Z.
Proof.
  intros L. unfold one_to. rewrite nth_error_map, (nth_error_nth' _ 0%nat) by (rewrite seq_length; exact L).
  rewrite seq_nth by exact L. cbn [option_map]. f_equal. lia.
Qed.
Lemma one_to_in n z : In z (one_to n) <-> (1 <= z <= n)%Z.
Proof.
  unfold one_to. rewrite in_map_iff. split.
  - intros [k [<- I]]. apply in_seq in I. lia.
  - intros H. exists (Z.to_nat z). split; [lia|]. apply in_seq. lia.
Qed.
Lemma forall2_nth {A B} (R : A -> B -> Prop) l m : Forall2 R l m ->
  forall k a, nth_error l k = Some a -> exists b, nth_error m k = Some b /\ R a b.
Proof.
  induction 1 as [|x y l m Rxy _ IH]; intros k a E; [destruct k; discriminate|].
  destruct k as [|k]; cbn in *; [injection E as <-; exists y; split; [reflexivity | exact Rxy] | apply IH; exact E].
Qed.
Lemma forall2_len {A B} (R : A -> B -> Prop) l m : Forall2 R l m -> List.length l = List.length m.
Proof. induction 1; cbn; congruence. Qed.

(** *** The segment loop *)
Section Loop.
Variable M : Type.
Variable bs : Builders M.
Variable decode : string -> res string.
Variable tostring : Element -> string.
Definition unusable (sicd : bool) (t : option string) : Prop :=
  forall x, t = Some x -> ~ occurs "SIDD" x /\ ~ (occurs "SICD" x /\ sicd = true).

Lemma segments_loop sicd ss : forall p0 p,
  precision_from_segments M bs decode tostring sicd ss p0 = Ok p ->
  (exists done rest texts x, ss = (done ++ rest)%list
     /\ Forall2 (fun s t => extract_desdata_xml decode tostring s = Ok t) done (texts ++ [Some x])
     /\ (forall t, In t texts -> unusable sicd t)
     /\ ((occurs "SIDD" x /\ p = b_sidd bs x) \/ (~ occurs "SIDD" x /\ occurs "SICD" x /\ sicd = true /\ p = b_sicd bs x)))
  \/ (exists texts, Forall2 (fun s t => extract_desdata_xml decode tostring s = Ok t) ss texts
     /\ (forall t, In t texts -> unusable sicd t) /\ p = p0).
Proof.
  induction ss as [|s r IH]; intros p0 p H; cbn [precision_from_segments] in H.
  - injection H as <-. right. exists []. split; [constructor|]. split; [intros t []|reflexivity].
  - apply bind_ok in H. destruct H as [t [E H]].
    assert (Skip : unusable sicd t -> precision_from_segments M bs decode tostring sicd r p0 = Ok p ->
      (exists done rest texts x, s :: r = (done ++ rest)%list
         /\ Forall2 (fun s t => extract_desdata_xml decode tostring s = Ok t) done (texts ++ [Some x])
         /\ (forall t, In t texts -> unusable sicd t)
         /\ ((occurs "SIDD" x /\ p = b_sidd bs x) \/ (~ occurs "SIDD" x /\ occurs "SICD" x /\ sicd = true /\ p = b_sicd bs x)))
      \/ (exists texts, Forall2 (fun s t => extract_desdata_xml decode tostring s = Ok t) (s :: r) texts
         /\ (forall t, In t texts -> unusable sicd t) /\ p = p0)).
    { intros U G. destruct (IH p0 p G) as [[done [rest [texts [x [E1 [E2 [E3 E4]]]]]]] | [texts [E1 [E2 E3]]]].
      - left. exists (s :: done), rest, (t :: texts), x. split; [cbn; rewrite E1; reflexivity|].
        split; [cbn [app]; constructor; assumption|]. split; [intros y [<- | I]; [exact U | apply E3; exact I] | exact E4].
      - right. exists (t :: texts). split; [constructor; assumption|]. split; [intros y [<- | I]; [exact U | apply E2; exact I] | exact E3]. }
    destruct t as [[|c x]|].
    + apply Skip; [|exact H]. intros y Y. injection Y as <-. split.
      * intros [a [b Eab]]. destruct a; discriminate.
      * intros [[a [b Eab]] _]. destruct a; discriminate.
    + remember (String c x) as xx.
      destruct (contains "SIDD" xx) eqn:C1.
      * apply contains_occurs in C1. injection H as <-. left. exists [s], r, [], xx. split; [reflexivity|].
        split; [cbn [app]; constructor; [exact E | constructor]|]. split; [intros y []|]. left. split; [exact C1 | reflexivity].
      * apply contains_false in C1. destruct (contains "SICD" xx && sicd)%bool eqn:C2.
        { apply andb_true_iff in C2. destruct C2 as [C2 C3]. apply contains_occurs in C2. injection H as <-.
          left. exists [s], r, [], xx. split; [reflexivity|]. split; [cbn [app]; constructor; [exact E | constructor]|].
          split; [intros y []|]. right. tauto. }
        apply Skip; [|exact H]. intros y Y. injection Y as <-. split; [exact C1|]. intros [O S].
        apply contains_occurs in O. rewrite O, S in C2. discriminate.
    + apply Skip; [|exact H]. intros y Y. discriminate.
Qed.
End Loop.
