(** C46: the GDAL configuration environment. *)
Require Import String List Bool Lia.
Require Import Verif.Base Verif.ConfigModel Verif.ConfigSpec Verif.ConfigProofs.
Import ListNotations.
Local Open Scope string_scope.

(** Leaving a with-statement: whatever the body does, every option named in the dictionary has the
    value it had on entry, all others are as the body left them, and the outcome (normal or
    exception) is the body's. *)
Theorem C46_restored : forall g o b st, distinct g o ->
  let inside := snd (enter g o [] st) in
  let left_by_body := fst (exec g b inside) in
  let outcome := snd (exec g b inside) in
  exists st', exec g (With o b) st = (st', outcome)
  /\ (forall k, In k (keys o) -> get_option g st' k = get_option g st k)
  /\ (env_folded g -> forall k, names g o k -> get_option g st' k = get_option g st k)
  /\ (forall k, ~ names g o k -> get_option g st' k = get_option g left_by_body k).
Proof.
  intros g o b st D inside left_by_body outcome.
  destruct (with_exec g o b st D) as [st' [E [H1 H2]]]. exists st'. split; [exact E|]. split; [|split].
  - intros k I. apply get_option_restored. apply H1; exact I.
  - intros EF k N. apply in_map_iff in N. destruct N as [k0 [F I]].
    rewrite <- (get_option_fold g st' k0 k EF F), <- (get_option_fold g st k0 k EF F).
    apply get_option_restored. apply H1; exact I.
  - intros k N. apply get_option_other. apply H2. exact N.
Qed.

(** Inside, the named options have the requested values and the others their previous ones. *)
(** Whatever the options, leaving the environment raises nothing of its own: what the body raised goes
    on, and nothing else. *)
Theorem C46_outcome : forall g o b st, snd (exec g (With o b) st) = snd (exec g b (snd (enter g o [] st))).
Proof.
  intros g o b st. cbn [exec].
  assert (K : forall o old st, (forall k, In k (keys o) -> In k (keys old)) -> snd (leave g o old st) = None).
  { clear. induction o as [|[k v] r IH]; intros old st H; [reflexivity|]. cbn [leave].
    destruct (proj1 (get_in old k) (H k (or_introl eq_refl))) as [x ->]. apply IH. intros k' I. apply H. right. exact I. }
  assert (E : forall o old st k, In k (keys old) \/ In k (keys o) -> In k (keys (fst (enter g o old st)))).
  { clear. unfold enter. induction o as [|[a v] r IH]; intros old st k H; cbn [fold_left enter_step fst snd]; [destruct H as [H|[]]; exact H|].
    apply IH. destruct H as [H|[H|H]]; [left; apply put_keys; right; exact H|left; apply put_keys; left; symmetry; exact H|right; exact H]. }
  specialize (E o [] st). destruct (enter g o [] st) as [old st1]. cbn [fst snd] in *. destruct (exec g b st1) as [st2 raised]. cbn [snd].
  specialize (K o old st2 (fun k I => E k (or_intror I))). destruct (leave g o old st2) as [st3 broken]. cbn [snd] in *. rewrite K. reflexivity.
Qed.

Theorem C46_inside : forall g o st, distinct g o ->
  let inside := snd (enter g o [] st) in
  (forall k v, In (k, v) o -> get_option g inside k = Some v)
  /\ (forall k, ~ names g o k -> get_option g inside k = get_option g st k).
Proof.
  intros g o st D inside. split.
  - intros k v I. unfold get_option, inside. rewrite (enter_value g o [] st k v D I). reflexivity.
  - intros k N. apply get_option_other. unfold inside. apply enter_other. exact N.
Qed.

(** Any nesting and sequence of environments around statements that leave the options alone gives
    back all options, also when an exception passes through. *)
Theorem C46_nested : forall g s st, env_folded g -> quiet g s -> same g (fst (exec g s st)) st.
Proof.
  intros g s. induction s as [f | a IHa b IHb | o b IHb]; intros st EF Q.
  - apply Q.
  - destruct Q as [Qa Qb]. cbn [exec]. specialize (IHa st EF Qa).
    destruct (exec g a st) as [st' [e|]]; cbn [fst] in *; [exact IHa|].
    intros k. rewrite (IHb st' EF Qb k). apply IHa.
  - destruct Q as [D Qb].
    destruct (C46_restored g o b st D) as [st' [E [_ [H1 H2]]]]. cbv zeta in *.
    rewrite E. cbn [fst]. intros k.
    destruct (in_dec string_dec (fold g k) (List.map (fold g) (keys o))) as [I | N].
    + apply H1; assumption.
    + rewrite H2 by exact N. rewrite (IHb _ EF Qb k). destruct (C46_inside g o st D) as [_ K]. apply K. exact N.
Qed.

(** One environment object used in several with-statements one after the other, whatever it
    remembers from before. *)
Theorem C46_reused : forall g o remembered st body, distinct g o ->
  let '(old, inside) := enter g o remembered st in
  exists st', leave g o old (body inside) = (st', None)
  /\ forall k, In k (keys o) -> get_option g st' k = get_option g st k.
Proof.
  intros g o m st body D. destruct (enter g o m st) as [old inside] eqn:E.
  destruct (enter_leave g o m st (body inside) D) as [st' [L [H1 _]]]. rewrite E in L. cbn [fst] in L.
  exists st'. split; [exact L|]. intros k I. apply get_option_restored. apply H1. exact I.
Qed.

(** One object in two nested with-statements loses the outer values: the options keep the
    requested values for good. *)
Theorem C46_reentered : forall g o st, distinct g o ->
  let '(old1, st1) := enter g o [] st in
  let '(old2, st2) := enter g o old1 st1 in
  exists st3 st4, leave g o old2 st2 = (st3, None) /\ leave g o old2 st3 = (st4, None)
  /\ forall k v, In (k, v) o -> get_option g st4 k = Some v.
Proof.
  intros g o st D. destruct (enter g o [] st) as [old1 st1] eqn:E1.
  destruct (enter g o old1 st1) as [old2 st2] eqn:E2.
  assert (O : forall k v, In (k, v) o -> get old2 k = Some (Some v)).
  { intros k v I. pose proof (enter_old g o old1 st1 k D) as H. rewrite E2 in H. cbn [fst] in H.
    rewrite H by (apply in_keys; exists v; exact I). f_equal.
    unfold get_option. pose proof (enter_value g o [] st k v D I) as V. rewrite E1 in V. cbn [snd] in V.
    rewrite V. reflexivity. }
  destruct (leave_spec g o old2 st2 (fun k => match get old2 k with Some v => v | None => None end) D) as [st3 [L3 _]].
  { intros k I. apply in_keys in I. destruct I as [v I]. rewrite (O k v I). reflexivity. }
  destruct (leave_spec g o old2 st3 (fun k => match get old2 k with Some v => v | None => None end) D) as [st4 [L4 [H _]]].
  { intros k I. apply in_keys in I. destruct I as [v I]. rewrite (O k v I). reflexivity. }
  exists st3, st4. split; [exact L3|]. split; [exact L4|].
  intros k v I. unfold get_option. rewrite H by (apply in_keys; exists v; exact I). rewrite (O k v I). reflexivity.
Qed.

(** "Every option has the value it had on entry" needs the names to be different options: two
    spellings of one option leave the first requested value behind. *)
Theorem C46_spelling_refuted :
  exists g o st k, NoDup (keys o) /\ In k (keys o)
    /\ get_option g (fst (exec g (With o (Run (fun s => (s, None)))) st)) k <> get_option g st k.
Proof.
  exists plain_gdal, [("CPL_DEBUG", "ON"); ("cpl_debug", "OFF")], nothing_set, "CPL_DEBUG".
  split; [|split].
  - repeat constructor; cbn; intuition congruence.
  - left; reflexivity.
  - vm_compute. discriminate.
Qed.

(** A value that came from an environment variable is set explicitly afterwards, so later changes of
    the variable are no longer seen. *)
Theorem C46_environment_is_pinned : forall g o b st k v, distinct g o -> In k (keys o) ->
  st (fold g k) = None -> getenv g k = Some v ->
  fst (exec g (With o b) st) (fold g k) = Some v.
Proof.
  intros g o b st k v D I U V. destruct (with_exec g o b st D) as [st' [E [H1 _]]]. rewrite E. cbn [fst].
  rewrite H1 by exact I. unfold get_option. rewrite U. exact V.
Qed.

(** The constructor copies: the caller's dictionaries are not changed by the environment, and
    changes the caller makes later do not reach the environment. *)
Theorem C46_callers_dictionary : forall h r,
  let (h', e) := make_env h r in
  (forall x, x < List.length h -> deref h' x = deref h x)
  /\ deref h' (env_options e) = match r with Some r => deref h r | None => [] end
  /\ (forall x, x < List.length h -> x <> env_options e)
  /\ (forall x d, x < List.length h -> deref (store h' x d) (env_options e) = deref h' (env_options e))
  /\ (forall c h'' x, with_aws_credentials h' e c = Ok h'' -> x < List.length h -> deref h'' x = deref h x).
Proof.
  intros h r. cbn [make_env].
  assert (K : forall c x, x < List.length h -> deref (h ++ [c])%list x = deref h x).
  { intros c x L. unfold deref. apply app_nth1. exact L. }
  assert (V : forall c, deref (h ++ [c])%list (List.length h) = c).
  { intros c. unfold deref. rewrite app_nth2 by lia. replace (List.length h - List.length h) with 0 by lia. reflexivity. }
  cbn [env_options]. split; [intros x L; apply K; exact L|]. split.
  { rewrite V. destruct r as [r|]; [destruct (deref h r); reflexivity | reflexivity]. }
  split; [intros x L; lia|]. split.
  { intros x d L. apply deref_store_other. lia. }
  intros c h'' x E L. destruct c as [c|]; cbn [with_aws_credentials] in E.
  - destruct (aws_options c) as [u|e]; cbn [bind] in E; [|discriminate]. injection E as <-.
    cbn [env_options]. rewrite deref_store_other by lia. apply K; exact L.
  - injection E as <-. apply K; exact L.
Qed.

(** Credentials become three options; other options of the environment stay; a credentials
    dictionary without one of the three entries raises KeyError (and, having no result, changes
    nothing); None is accepted and does nothing. *)
Theorem C46_credentials : forall h e c, env_options e < List.length h ->
  with_aws_credentials h e None = Ok h
  /\ (forall secret id token, get c "SecretAccessKey" = Some secret -> get c "AccessKeyId" = Some id ->
        get c "SessionToken" = Some token ->
        exists h', with_aws_credentials h e (Some c) = Ok h'
        /\ forall k, get (deref h' (env_options e)) k =
             if k =? "AWS_SECRET_ACCESS_KEY" then Some secret
             else if k =? "AWS_ACCESS_KEY_ID" then Some id
             else if k =? "AWS_SESSION_TOKEN" then Some token
             else get (deref h (env_options e)) k)
  /\ ((get c "SecretAccessKey" = None \/ get c "AccessKeyId" = None \/ get c "SessionToken" = None) ->
        with_aws_credentials h e (Some c) = Err KeyError).
Proof.
  intros h e c L. split; [reflexivity|]. split.
  - intros secret id token S I T. eexists. split.
    + cbn [with_aws_credentials]. unfold aws_options. rewrite S, I, T. cbn [bind]. reflexivity.
    + intros k. rewrite deref_store_same by exact L. rewrite update_get. cbn [rev app get].
      destruct (String.eqb_spec k "AWS_SESSION_TOKEN") as [-> | N1]; [reflexivity|].
      destruct (String.eqb_spec k "AWS_ACCESS_KEY_ID") as [-> | N2]; [reflexivity|].
      destruct (String.eqb_spec k "AWS_SECRET_ACCESS_KEY") as [-> | N3]; reflexivity.
  - intros H. cbn [with_aws_credentials]. unfold aws_options.
    destruct (get c "SecretAccessKey"); [|reflexivity].
    destruct (get c "AccessKeyId"); [|reflexivity].
    destruct (get c "SessionToken"); [|reflexivity].
    destruct H as [H | [H | H]]; discriminate.
Qed.

(** An option added to the environment between entering and leaving makes leaving raise KeyError,
    after the options it was entered with have been restored. *)
Theorem C46_options_added_inside : forall g o st body k v more, distinct g o -> ~ In k (keys o) ->
  let '(old, inside) := enter g o [] st in
  exists st', leave g (o ++ (k, v) :: more)%list old (body inside) = (st', Some KeyError)
  /\ forall x, In x (keys o) -> get_option g st' x = get_option g st x.
Proof.
  intros g o st body k v more D N. destruct (enter g o [] st) as [old inside] eqn:E.
  destruct (enter_leave g o [] st (body inside) D) as [st' [L [H1 _]]]. rewrite E in L. cbn [fst] in L.
  exists st'. split.
  - rewrite leave_app.
    + rewrite L. cbn [fst leave]. pose proof (enter_old_other g o [] st k N) as G. rewrite E in G. cbn [fst get] in G.
      rewrite G. reflexivity.
    + intros x I. apply get_in. pose proof (enter_old g o [] st x D I) as G. rewrite E in G. cbn [fst] in G.
      eexists; exact G.
  - intros x I. apply get_option_restored. apply H1. exact I.
Qed.

Lemma set_all_spec g (o : Dict string) : forall st, distinct g o ->
  (forall k v, In (k, v) o ->
     fold_left (fun s kv => set_option g s (fst kv) (Some (snd kv))) o st (fold g k) = Some v)
  /\ (forall x, ~ In x (List.map (fold g) (keys o)) ->
     fold_left (fun s kv => set_option g s (fst kv) (Some (snd kv))) o st x = st x).
Proof.
  induction o as [|[a w] r IH]; intros st D; [split; [intros k v [] | reflexivity]|].
  inversion D as [|? ? D1 D2]; subst. cbn [fold_left fst snd].
  destruct (IH (set_option g st a (Some w)) D2) as [H1 H2]. split.
  - intros k v [E | I]; [injection E as -> ->; rewrite H2 by exact D1; apply set_option_same | apply H1; exact I].
  - intros x N. cbn in N. rewrite H2 by tauto. apply set_option_other. intros E; apply N; left; symmetry; exact E.
Qed.

(** The default configuration sets its twelve options and nothing else. *)
Theorem C46_defaults : forall g st, distinct g default_values ->
  let st' := set_gdal_default_configuration g st in
  (forall k v, In (k, v) default_values -> get_option g st' k = Some v)
  /\ (forall k, ~ names g default_values k -> get_option g st' k = get_option g st k).
Proof.
  intros g st D st'. destruct (set_all_spec g default_values st D) as [H1 H2]. split.
  - intros k v I. unfold get_option, st', set_gdal_default_configuration. change default_configuration with default_values. rewrite (H1 k v I). reflexivity.
  - intros k N. apply get_option_other. apply H2. exact N.
Qed.

Definition two_levels : stmt :=
  With [("AWS_SECRET_ACCESS_KEY", "s"); ("CPL_DEBUG", "ON")]
    (Then (With [("cpl_debug", "OFF")] (Run (fun s => (s, None)))) (Run (fun s => (s, Some RuntimeError)))).
Example C46_non_vacuous :
  quiet plain_gdal two_levels /\ env_folded plain_gdal
  /\ snd (exec plain_gdal two_levels nothing_set) = Some RuntimeError
  /\ distinct plain_gdal default_values
  /\ get_option plain_gdal (snd (enter plain_gdal [("CPL_DEBUG", "ON")] [] nothing_set)) "cpl_debug" = Some "ON".
Proof.
  split; [|split; [|split; [|split]]].
  - split.
    + unfold distinct. cbn [List.map keys fst plain_gdal fold]. repeat constructor; vm_compute; intuition discriminate.
    + split; [split|].
      * unfold distinct. repeat constructor; vm_compute; intuition discriminate.
      * intros st k. reflexivity.
      * intros st k. reflexivity.
  - intros a b _. reflexivity.
  - reflexivity.
  - unfold distinct. vm_compute. repeat constructor; vm_compute; intuition discriminate.
  - reflexivity.
Qed.

Print Assumptions C46_restored.
Print Assumptions C46_inside.
Print Assumptions C46_nested.
Print Assumptions C46_reused.
Print Assumptions C46_reentered.
Print Assumptions C46_spelling_refuted.
Print Assumptions C46_environment_is_pinned.
Print Assumptions C46_callers_dictionary.
Print Assumptions C46_credentials.
Print Assumptions C46_options_added_inside.
Print Assumptions C46_defaults.

(** ** C81: environments of two threads that overlap without being nested *)

(** The first thread enters, the second enters, the first leaves, the second leaves: the options
    while both are inside, after the first has left, and at the end. *)
Definition crossed (g : Gdal) (o1 o2 : Dict string) (st : Options) : Options * Options * Options :=
  let '(old1, s1) := enter g o1 [] st in
  let '(old2, s2) := enter g o2 [] s1 in
  let s3 := fst (leave g o1 old1 s2) in
  (s2, s3, fst (leave g o2 old2 s3)).
Lemma crossed_spec g o1 o2 st : distinct g o1 -> distinct g o2 ->
  exists s1, s1 = snd (enter g o1 [] st) /\ let '(s2, s3, s4) := crossed g o1 o2 st in
  s2 = snd (enter g o2 [] s1)
  /\ (forall k, In k (keys o1) -> s3 (fold g k) = get_option g st k)
  /\ (forall x, ~ In x (List.map (fold g) (keys o1)) -> s3 x = s2 x)
  /\ (forall k, In k (keys o2) -> s4 (fold g k) = get_option g s1 k)
  /\ (forall x, ~ In x (List.map (fold g) (keys o2)) -> s4 x = s3 x).
Proof.
  intros D1 D2. exists (snd (enter g o1 [] st)). split; [reflexivity|]. unfold crossed.
  pose proof (fun s2 => enter_leave g o1 [] st s2 D1) as E1. destruct (enter g o1 [] st) as [old1 s1]. cbn [fst snd] in *.
  pose proof (fun s2 => enter_leave g o2 [] s1 s2 D2) as E2. destruct (enter g o2 [] s1) as [old2 s2]. cbn [fst snd] in *.
  destruct (E1 s2) as (s3 & L3 & A3 & B3). rewrite L3. cbn [fst]. destruct (E2 s3) as (s4 & L4 & A4 & B4). rewrite L4. cbn [fst].
  repeat split; assumption.
Qed.

(** Environments that name different options do not disturb each other: each has its values while
    inside, and all options are as before in the end. *)
Theorem C81_different_options : forall g o1 o2 st, env_folded g -> distinct g o1 -> distinct g o2 ->
  (forall k, names g o1 k -> ~ names g o2 k) ->
  let '(both, second, after) := crossed g o1 o2 st in
  (forall k v, In (k, v) o1 -> get_option g both k = Some v)
  /\ (forall k v, In (k, v) o2 -> get_option g both k = Some v /\ get_option g second k = Some v)
  /\ (forall k, names g o1 k -> get_option g second k = get_option g st k)
  /\ same g after st.
Proof.
  intros g o1 o2 st EF D1 D2 Dj. destruct (crossed_spec g o1 o2 st D1 D2) as (s1 & E1 & C).
  destruct (crossed g o1 o2 st) as [[s2 s3] s4]. destruct C as (E2 & A3 & B3 & A4 & B4).
  assert (I1 : forall k v, In (k, v) o1 -> s1 (fold g k) = Some v) by (intros k v I; rewrite E1; now apply enter_value).
  assert (K1 : forall k v, In (k, v) o1 -> names g o1 k) by (intros k v I; unfold names; apply in_map, in_keys; now exists v).
  assert (K2 : forall k v, In (k, v) o2 -> names g o2 k) by (intros k v I; unfold names; apply in_map, in_keys; now exists v).
  assert (V2 : forall k v, In (k, v) o2 -> s2 (fold g k) = Some v) by (intros k v I; rewrite E2; now apply enter_value).
  assert (R3 : forall k, names g o1 k -> get_option g s3 k = get_option g st k).
  { intros k N. apply in_map_iff in N. destruct N as [k0 [F I]]. rewrite <- (get_option_fold g s3 k0 k EF F), <- (get_option_fold g st k0 k EF F).
    apply get_option_restored. now apply A3. }
  split; [|split; [|split]].
  - intros k v I. unfold get_option. rewrite E2, enter_other, (I1 k v I); [reflexivity|]. exact (Dj k (K1 k v I)).
  - intros k v I. unfold get_option. rewrite (V2 k v I). split; [reflexivity|]. rewrite B3, (V2 k v I); [reflexivity|].
    intros N. exact (Dj k N (K2 k v I)).
  - exact R3.
  - intros k. destruct (in_dec string_dec (fold g k) (List.map (fold g) (keys o2))) as [N2|N2].
    + assert (N1 : ~ names g o1 k) by (intros N; exact (Dj k N N2)).
      pose proof N2 as N. apply in_map_iff in N. destruct N as [k0 [F I]].
      rewrite <- (get_option_fold g s4 k0 k EF F), <- (get_option_fold g st k0 k EF F).
      transitivity (get_option g s1 k0); [apply get_option_restored; now apply A4|]. apply get_option_other. rewrite E1. apply enter_other. rewrite F. exact N1.
    + transitivity (get_option g s3 k); [apply get_option_other; now apply B4|].
      destruct (in_dec string_dec (fold g k) (List.map (fold g) (keys o1))) as [N1|N1]; [now apply R3|].
      apply get_option_other. rewrite B3 by exact N1. rewrite E2, enter_other by exact N2. rewrite E1. now apply enter_other.
Qed.
Print Assumptions C81_different_options.

(** With a common option (two assumed roles, say) neither holds, for any values: once the first thread
    has left, the second works with the outer value, and in the end the first thread's value stays
    set. *)
Theorem C81_common_option : forall g o1 o2 st k v1 v2, distinct g o1 -> distinct g o2 -> In (k, v1) o1 -> In (k, v2) o2 ->
  let '(both, second, after) := crossed g o1 o2 st in
  get_option g both k = Some v2 /\ get_option g second k = get_option g st k /\ get_option g after k = Some v1.
Proof.
  intros g o1 o2 st k v1 v2 D1 D2 I1 I2. destruct (crossed_spec g o1 o2 st D1 D2) as (s1 & E1 & C).
  destruct (crossed g o1 o2 st) as [[s2 s3] s4]. destruct C as (E2 & A3 & B3 & A4 & B4).
  assert (K1 : In k (keys o1)) by (apply in_keys; now exists v1). assert (K2 : In k (keys o2)) by (apply in_keys; now exists v2).
  split; [|split].
  - unfold get_option. rewrite E2, (enter_value g o2 [] s1 k v2 D2 I2). reflexivity.
  - apply get_option_restored. now apply A3.
  - unfold get_option at 1. rewrite (A4 k K2). unfold get_option. rewrite E1, (enter_value g o1 [] st k v1 D1 I1). reflexivity.
Qed.
Print Assumptions C81_common_option.
(** So leaving all environments does not give back the options. *)
Theorem C81_restored_refuted : exists o1 o2 k, let '(_, _, after) := crossed plain_gdal o1 o2 nothing_set in
  distinct plain_gdal o1 /\ distinct plain_gdal o2 /\ get_option plain_gdal after k <> get_option plain_gdal nothing_set k.
Proof.
  exists [("AWS_ACCESS_KEY_ID", "first")], [("AWS_ACCESS_KEY_ID", "second")], "AWS_ACCESS_KEY_ID".
  vm_compute. split; [|split]; [repeat constructor; intros [] | repeat constructor; intros [] | discriminate].
Qed.
Print Assumptions C81_restored_refuted.
Example C81_non_vacuous : let '(both, second, after) := crossed plain_gdal [("CPL_DEBUG", "ON")] [("VSI_CACHE", "YES")] nothing_set in
  (get_option plain_gdal both "cpl_debug", get_option plain_gdal second "VSI_CACHE", get_option plain_gdal after "VSI_CACHE") = (Some "ON", Some "YES", None).
Proof. vm_compute. reflexivity. Qed.

(** The same object entered twice: the option keeps the requested value although it had another before. *)
Definition debug_off : Options := set_option plain_gdal nothing_set "CPL_DEBUG" (Some "OFF").
Example C46_reentered_case :
  let o := [("CPL_DEBUG", "ON")] in
  let '(old1, st1) := enter plain_gdal o [] debug_off in
  let '(old2, st2) := enter plain_gdal o old1 st1 in
  distinct plain_gdal o /\ get_option plain_gdal debug_off "CPL_DEBUG" = Some "OFF" /\
  (exists st3 st4, leave plain_gdal o old2 st2 = (st3, None) /\ leave plain_gdal o old2 st3 = (st4, None) /\ get_option plain_gdal st4 "CPL_DEBUG" = Some "ON") /\
  (exists st3, leave plain_gdal o old1 st1 = (st3, None) /\ get_option plain_gdal st3 "CPL_DEBUG" = Some "OFF").
Proof.
  cbv zeta. destruct (enter plain_gdal [("CPL_DEBUG", "ON")] [] debug_off) as [old1 st1] eqn:E1. vm_compute in E1. injection E1 as <- <-.
  split; [unfold distinct; repeat constructor; vm_compute; tauto|]. split; [reflexivity|]. split; repeat eexists; vm_compute; reflexivity.
Qed.
(** Credentials, and an option added while inside. *)
Example C46_credentials_case :
  let '(h, e) := make_env [[("CPL_DEBUG", "ON")]] (Some 0) in
  let c := [("SecretAccessKey", "s"); ("AccessKeyId", "i"); ("SessionToken", "t")] in
  env_options e < List.length h /\
  (exists h', with_aws_credentials h e (Some c) = Ok h' /\
     get (deref h' (env_options e)) "AWS_SECRET_ACCESS_KEY" = Some "s" /\ get (deref h' (env_options e)) "AWS_ACCESS_KEY_ID" = Some "i" /\
     get (deref h' (env_options e)) "AWS_SESSION_TOKEN" = Some "t" /\ get (deref h' (env_options e)) "CPL_DEBUG" = Some "ON" /\ deref h' 0 = [("CPL_DEBUG", "ON")]) /\
  with_aws_credentials h e (Some [("SecretAccessKey", "s"); ("AccessKeyId", "i")]) = Err KeyError.
Proof. cbv zeta. cbn. split; [lia|]. split; [|reflexivity]. eexists. repeat split; reflexivity. Qed.
Example C46_added_case :
  let '(old, inside) := enter plain_gdal [("CPL_DEBUG", "ON")] [] debug_off in
  exists st', leave plain_gdal [("CPL_DEBUG", "ON"); ("VSI_CACHE", "YES")] old inside = (st', Some KeyError) /\ get_option plain_gdal st' "CPL_DEBUG" = Some "OFF".
Proof. vm_compute. eexists. split; reflexivity. Qed.

