(** Properties of the spatial index: C60. *)
Require Import Reals Lra Lia String List Bool.
Require Import Verif.Base Verif.RsmModel Verif.BuilderModel Verif.BuilderProofs Verif.ConfigModel Verif.FeatureModel Verif.GeolocModel Verif.GeolocProofs Verif.IndexModel.
Import ListNotations.
Local Open Scope R_scope.

Section Props.
Context {G : Type}.
Variable sh : Shapely G.
Variable intersects : G -> G -> Prop.
Variable distance : G -> G -> R.
Variable query : list (option G) -> G -> list nat.
Variable query_nearest : list (option G) -> G -> R -> res (list nat).

(** What shapely documents. *)
Definition query_law : Prop := forall gs q, NoDup (query gs q) /\ forall i, In i (query gs q) <-> exists g, nth_error gs i = Some (Some g) /\ intersects q g.
Definition nearest_law : Prop :=
  (forall gs q d, 0 < d -> exists is, query_nearest gs q d = Ok is /\ NoDup is
     /\ forall i, In i is <-> exists g, nth_error gs i = Some (Some g) /\ distance q g <= d /\ forall j h, nth_error gs j = Some (Some h) -> distance q g <= distance q h)
  /\ forall gs q d, d <= 0 -> query_nearest gs q d = Err ValueError.

(** Feature number [i] of the list has image geometry [g]. *)
Definition feature_geometry (allow : bool) (fs : list Feature) (i : nat) (g : G) : Prop :=
  exists f, nth_error fs i = Some f /\ find_image_geometry sh allow (properties f) = Ok (Some g).
(** [l] lists the features with these numbers. *)
Definition listing (fs : list Feature) (is : list nat) (l : list Feature) : Prop := Forall2 (fun i f => nth_error fs i = Some f) is l.

Lemma make_ok fs allow ix : make_index sh fs true (Some allow) = Ok ix <->
  use_image_geometries ix = true /\ features ix = fs /\ Forall2 (fun f g => find_image_geometry sh allow (properties f) = Ok g) fs (tree ix).
Proof.
  unfold make_index. rewrite bind_ok. split.
  - intros [gs [M E]]. injection E as <-. cbn. repeat split. apply map_res_ok, M.
  - intros (U & F & T). exists (tree ix). split; [apply map_res_ok, T|]. destruct ix as [u f t]. cbn in *. subst. reflexivity.
Qed.
Lemma tree_geometry fs allow gs i g : Forall2 (fun f g => find_image_geometry sh allow (properties f) = Ok g) fs gs ->
  nth_error gs i = Some (Some g) <-> feature_geometry allow fs i g.
Proof.
  intros T. unfold feature_geometry. revert i. induction T as [|f o fs gs F T IH]; intros i.
  - split; [destruct i; discriminate | intros [f [E _]]; destruct i; discriminate].
  - destruct i as [|i]; cbn [nth_error].
    + split; [intros E; injection E as ->; exists f; auto | intros [f' [E F']]; injection E as <-; congruence].
    + apply IH.
Qed.
Lemma select_listing (ix : Index G) is l : select ix is = Ok l <-> listing (features ix) is l.
Proof.
  unfold select, listing. rewrite map_res_ok. apply forall2_iff. intros i _ f.
  destruct (nth_error (features ix) i); split; congruence.
Qed.
Lemma select_total (ix : Index G) is : (forall i, In i is -> (i < List.length (features ix))%nat) -> exists l, select ix is = Ok l.
Proof.
  intros H. unfold select. apply map_res_total. intros i I. apply H, nth_error_Some in I. destruct (nth_error (features ix) i) as [f|]; [exists f; reflexivity | congruence].
Qed.
Lemma geometry_bound allow fs i g : feature_geometry allow fs i g -> (i < List.length fs)%nat.
Proof. intros (f & E & _). apply nth_error_Some. congruence. Qed.

(** Building fails exactly when looking up the geometry of some feature fails. *)
Theorem C60_build : forall fs allow, is_ok (make_index sh fs true (Some allow)) <-> forall f, In f fs -> is_ok (find_image_geometry sh allow (properties f)).
Proof.
  intros fs allow. split.
  - intros [ix M] f I. apply make_ok in M as (_ & _ & T). apply In_nth_error in I as [k E]. destruct (forall2_nth _ _ _ T k f E) as [g [_ H]]. exists g. exact H.
  - intros H. destruct (map_res_total (fun f => find_image_geometry sh allow (properties f)) fs H) as [gs M]. unfold make_index. rewrite M. eexists. reflexivity.
Qed.
(** The features intersecting the query, each once. *)
Theorem C60_intersects : forall fs allow ix q, query_law -> make_index sh fs true (Some allow) = Ok ix ->
  exists l is, find_intersects query ix q = Ok l /\ listing fs is l /\ NoDup is
  /\ forall i, In i is <-> exists g, feature_geometry allow fs i g /\ intersects q g.
Proof.
  intros fs allow ix q Law M. apply make_ok in M as (_ & F & T). destruct (Law (tree ix) q) as [ND Q].
  assert (Q' : forall i, In i (query (tree ix) q) <-> exists g, feature_geometry allow fs i g /\ intersects q g).
  { intros i. rewrite Q. split; intros [g [E I]]; exists g; (split; [apply (tree_geometry fs allow (tree ix) i g T), E | exact I]). }
  destruct (select_total ix (query (tree ix) q)) as [l L].
  - intros i I. apply Q' in I as [g [I _]]. rewrite F. eapply geometry_bound, I.
  - exists l, (query (tree ix) q). split; [exact L|]. split; [rewrite <- F; apply select_listing, L|]. split; assumption.
Qed.
(** All nearest features, within the limit of 50 pixels unless another is given. *)
Theorem C60_nearest : forall fs allow ix q limit, nearest_law -> make_index sh fs true (Some allow) = Ok ix ->
  let d := match limit with None => 50 | Some d => d end in
  (d <= 0 -> find_nearest query_nearest ix q limit = Err ValueError)
  /\ (0 < d -> exists l is, find_nearest query_nearest ix q limit = Ok l /\ listing fs is l /\ NoDup is
        /\ forall i, In i is <-> exists g, feature_geometry allow fs i g /\ distance q g <= d /\ forall j h, feature_geometry allow fs j h -> distance q g <= distance q h).
Proof.
  intros fs allow ix q limit [L1 L2] M d. apply make_ok in M as (U & F & T).
  assert (D : find_nearest query_nearest ix q limit = bind (query_nearest (tree ix) q d) (select ix)) by (unfold find_nearest, d; destruct limit; [reflexivity | rewrite U; reflexivity]).
  rewrite D. split; [intros P; rewrite L2 by exact P; reflexivity|]. intros P. destruct (L1 (tree ix) q d P) as (is & E & ND & Q). rewrite E. cbn [bind].
  assert (Q' : forall i, In i is <-> exists g, feature_geometry allow fs i g /\ distance q g <= d /\ forall j h, feature_geometry allow fs j h -> distance q g <= distance q h).
  { intros i. rewrite Q. split; intros (g & Eg & Dg & Mg); exists g; (split; [apply (tree_geometry fs allow (tree ix) i g T), Eg | split; [exact Dg|]]);
      intros j h Hj; apply (Mg j h), (tree_geometry fs allow (tree ix) j h T), Hj. }
  destruct (select_total ix is) as [l L].
  - intros i I. apply Q' in I as (g & I & _). rewrite F. eapply geometry_bound, I.
  - exists l, is. split; [exact L|]. split; [rewrite <- F; apply select_listing, L|]. split; assumption.
Qed.
(** Without image geometries the limit is 1, not 50; only an empty collection gives such an index. *)
Theorem C60_map_limit : forall fs accessor ix q, make_index sh fs false accessor = Ok ix ->
  find_nearest query_nearest ix q None = find_nearest query_nearest ix q (Some 1) /\ fs = [].
Proof.
  intros fs accessor ix q M.
  assert (E : make_index sh fs false accessor = bind (map_res (fun f => match get (members f) "geometry" with Some v => shape sh v | None => Err AttributeError end) fs)
              (fun gs => match gs with [] => Ok (mkIndex false fs []) | _ => Err TypeError end)) by (destruct accessor; reflexivity).
  rewrite E in M. apply bind_ok in M as [gs [W X]]. apply map_res_ok in W. destruct gs; [|discriminate]. injection X as <-. inversion W; subst. split; reflexivity.
Qed.
(** A position that the tree invents is an IndexError. *)
Theorem C60_unknown_position : forall ix q i, In i (query (tree ix) q) -> (List.length (features ix) <= i)%nat ->
  find_intersects query ix q = Err IndexError.
Proof.
  intros ix q i I L. unfold find_intersects, select. induction (query (tree ix) q) as [|j l IH]; [destruct I|]. cbn [map_res].
  destruct (nth_error (features ix) j) as [f|] eqn:E; cbn [bind]; [|reflexivity].
  destruct I as [->|I]; [apply nth_error_None in L; congruence|]. rewrite (IH I). reflexivity.
Qed.
(** An index over map geometries cannot be built for any collection with a feature. *)
Theorem C60_map_geometries_refuted : forall fs use accessor, fs <> [] -> use = false \/ accessor = None -> ~ is_ok (make_index sh fs use accessor).
Proof.
  intros fs use accessor N H [ix M].
  assert (E : make_index sh fs use accessor = bind (map_res (fun f => match get (members f) "geometry" with Some v => shape sh v | None => Err AttributeError end) fs)
              (fun gs => match gs with [] => Ok (mkIndex use fs []) | _ => Err TypeError end)).
  { destruct use, accessor as [a|]; try reflexivity. destruct H; discriminate. }
  rewrite E in M. apply bind_ok in M as [gs [M X]]. apply map_res_ok in M. destruct fs as [|f fs]; [contradiction|]. inversion M; subst. discriminate.
Qed.
End Props.

(** *** Non-vacuity: geometries are numbers that intersect when equal *)
Definition numbers : Shapely R := mkShapely R (fun v => number v) (fun _ => Err ValueError) (fun b => fst (fst (fst b))) JNum (fun _ => ""%string) (fun _ => Err KeyError) (fun _ => false) (fun x => (x, x, x, x)).
Definition hits (p : R -> bool) (gs : list (option R)) : list nat :=
  filter (fun i => match nth_error gs i with Some (Some g) => p g | _ => false end) (seq 0 (List.length gs)).
Definition toy_query (gs : list (option R)) (q : R) : list nat := hits (fun g => if Req_EM_T q g then true else false) gs.
Example C60_query_non_vacuous : query_law eq toy_query.
Proof.
  intros gs q. split; [apply NoDup_filter, seq_NoDup|]. intros i. unfold toy_query, hits. rewrite filter_In, in_seq. split.
  - intros [_ H]. destruct (nth_error gs i) as [[g|]|]; try discriminate. destruct (Req_EM_T q g); [|discriminate]. exists g. auto.
  - intros (g & E & ->). rewrite E. split; [|destruct (Req_EM_T g g); congruence]. split; [lia|]. apply nth_error_Some. congruence.
Qed.
Definition toy_nearest (gs : list (option R)) (q d : R) : res (list nat) :=
  if Rlt_dec 0 d then
    Ok (hits (fun g => (if Rle_dec (Rabs (q - g)) d then true else false)
                       && forallb (fun o => match o with Some h => if Rle_dec (Rabs (q - g)) (Rabs (q - h)) then true else false | None => true end) gs) gs)
  else Err ValueError.
Example C60_nearest_non_vacuous : nearest_law (fun q g => Rabs (q - g)) toy_nearest.
Proof.
  split.
  - intros gs q d P. unfold toy_nearest. destruct (Rlt_dec 0 d); [|contradiction]. eexists. split; [reflexivity|]. split; [apply NoDup_filter, seq_NoDup|].
    intros i. unfold hits. rewrite filter_In, in_seq. split.
    + intros [_ H]. destruct (nth_error gs i) as [[g|]|]; try discriminate. apply andb_prop in H as [A B]. rewrite forallb_forall in B. exists g.
      split; [reflexivity|]. split; [destruct (Rle_dec _ _); [assumption | discriminate]|]. intros j h E. apply nth_error_In in E. specialize (B _ E). cbv beta iota in B.
      destruct (Rle_dec (Rabs (q - g)) (Rabs (q - h))); [assumption | discriminate].
    + intros (g & E & D & M). rewrite E. split; [split; [lia | apply nth_error_Some; congruence]|]. apply andb_true_intro. split; [destruct (Rle_dec _ _); [reflexivity | contradiction]|].
      apply forallb_forall. intros [h|] I; [|reflexivity]. apply In_nth_error in I as [j I]. destruct (Rle_dec _ _) as [|K]; [reflexivity | exfalso; apply K, (M j h I)].
  - intros gs q d P. unfold toy_nearest. destruct (Rlt_dec 0 d); [lra | reflexivity].
Qed.
Example C60_non_vacuous :
  let f := fun x => mkFeature [] [("imageGeometry"%string, JNum x)] in
  exists ix, make_index numbers [f 1; mkFeature [] []; f 2; f 1] true (Some true) = Ok ix /\ tree ix = [Some 1; None; Some 2; Some 1].
Proof. eexists. split; reflexivity. Qed.

Print Assumptions C60_build.
Print Assumptions C60_intersects.
Print Assumptions C60_nearest.
Print Assumptions C60_map_limit.
Print Assumptions C60_unknown_position.
Print Assumptions C60_map_geometries_refuted.
