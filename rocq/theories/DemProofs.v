(** Lemmas for the elevation properties (C15 - C18). *)
Require Import ZArith Reals String List Lra Lia Bool.
Require Import Verif.Base Verif.BaseFacts Verif.DemModel Verif.DemSpec.
Import ListNotations.
Local Open Scope R_scope.

(** ** Lists *)
Definition others (k : string) (l : list string) : list string :=
  filter (fun y => negb (String.eqb k y)) l.

Lemma others_in k l x : In x (others k l) <-> In x l /\ x <> k.
Proof.
  unfold others. rewrite filter_In. destruct (String.eqb_spec k x); cbn; intuition congruence.
Qed.

Lemma others_notin k l : ~ In k l -> others k l = l.
Proof.
  induction l as [|x l IH]; cbn; intros H; [reflexivity|].
  destruct (String.eqb_spec k x); cbn; [intuition congruence|]. f_equal. apply IH. tauto.
Qed.

Lemma others_nodup k l : NoDup l -> NoDup (others k l).
Proof. apply NoDup_filter. Qed.

Lemma distinct_nodup l : NoDup (distinct l).
Proof.
  induction l as [|x l IH]; cbn; constructor.
  - fold (others x (distinct l)). rewrite others_in. tauto.
  - now apply others_nodup.
Qed.

Lemma distinct_in l x : In x (distinct l) <-> In x l.
Proof.
  induction l as [|y l IH]; cbn; [tauto|]. fold (others y (distinct l)). rewrite others_in, IH.
  destruct (string_dec y x); intuition congruence.
Qed.

Lemma firstn_others_in k m l :
  NoDup l -> In k (firstn m l) -> others k (firstn m l) = firstn (m - 1) (others k l).
Proof.
  revert m. induction l as [|x l IH]; intros m N H.
  - rewrite firstn_nil in *. destruct (m - 1)%nat; reflexivity.
  - destruct m as [|m]; [easy|]. cbn [firstn] in *. inversion N; subst. cbn [others filter].
    destruct (String.eqb_spec k x).
    + subst. cbn [negb]. fold (others x l) (others x (firstn m l)).
      rewrite !others_notin; [|assumption|].
      * f_equal. lia.
      * intros C. apply H2. rewrite <- (firstn_skipn m l). apply in_app_iff. now left.
    + cbn [negb]. fold (others k l) (others k (firstn m l)).
      destruct H as [H|H]; [congruence|]. rewrite (IH m H3 H).
      destruct m as [|m]; [easy|]. cbn. now rewrite Nat.sub_0_r.
Qed.

Lemma firstn_others_notin k m l :
  ~ In k (firstn m l) -> firstn (m - 1) (others k l) = firstn (m - 1) l.
Proof.
  revert m. induction l as [|x l IH]; intros m H; [reflexivity|].
  destruct m as [|m]; [reflexivity|]. cbn [firstn] in H. cbn [others filter].
  destruct (String.eqb_spec k x); [subst; exfalso; apply H; now left|]. cbn [negb]. fold (others k l).
  replace (S m - 1)%nat with m by lia.
  destruct m as [|m]; [reflexivity|]. cbn [firstn]. f_equal.
  replace m with (S m - 1)%nat by lia. apply IH. intros C. apply H. now right.
Qed.

(** ** The cache *)
Section Cache.
Variable find : Geodetic -> option string.
Variable get_tile : nat -> string -> res Tile.

Definition keys (c : Cache) : list string := List.map fst (rev (entries c)).

Lemma lookup_some k l v : lookup k l = Some v -> In (k, v) l.
Proof.
  induction l as [|[k' v'] l IH]; cbn; [discriminate|].
  destruct (String.eqb_spec k k'); intros H; [left; congruence | right; auto].
Qed.

Lemma lookup_none k l : lookup k l = None <-> ~ In k (List.map fst l).
Proof.
  induction l as [|[k' v'] l IH]; cbn; [tauto|].
  destruct (String.eqb_spec k k'); split; intros H; try discriminate; try intuition congruence; tauto.
Qed.

Lemma remove_key_keys k l : List.map fst (remove_key k l) = others k (List.map fst l).
Proof.
  induction l as [|[k' v'] l IH]; cbn; [reflexivity|].
  destruct (String.eqb_spec k k'); cbn; [assumption | f_equal; assumption].
Qed.

Lemma remove_key_in k l e : In e (remove_key k l) -> In e l.
Proof.
  induction l as [|[k' v'] l IH]; cbn; [tauto|].
  destruct (String.eqb k k'); cbn; tauto.
Qed.

Lemma evict_skipn n l : evict n l = skipn (List.length l - n) l.
Proof.
  induction l as [|e l IH]; [reflexivity|]. cbn [evict].
  destruct (Nat.ltb_spec n (List.length (e :: l))) as [H|H].
  - rewrite IH. cbn [List.length] in *. replace (S (List.length l) - n)%nat with (S (List.length l - n)) by lia. reflexivity.
  - replace (List.length (e :: l) - n)%nat with 0%nat by lia. reflexivity.
Qed.

Lemma evict_in n l e : In e (evict n l) -> In e l.
Proof.
  rewrite evict_skipn. intros H. rewrite <- (firstn_skipn (List.length l - n) l). apply in_app_iff. now right.
Qed.

Lemma others_rev k l : others k (rev l) = rev (others k l).
Proof.
  unfold others. induction l as [|x l IH]; [reflexivity|]. cbn [rev]. rewrite filter_app, IH. cbn.
  destruct (negb (String.eqb k x)); cbn; [reflexivity | now rewrite app_nil_r].
Qed.

(** Effect of a lookup on the keys, most recent first. *)
Lemma get_keys c id :
  keys (fst (get_interpolation_grid get_tile c id)) =
  match snd (get_interpolation_grid get_tile c id) with
  | Ok _ => if in_dec string_dec id (keys c) then id :: others id (keys c)
            else match maxsize c with O => keys c | S n => id :: firstn n (keys c) end
  | Err _ => keys c
  end.
Proof.
  unfold get_interpolation_grid, keys. destruct (lookup id (entries c)) as [v|] eqn:E; cbn.
  - destruct (in_dec string_dec id _) as [i|n].
    + rewrite rev_app_distr. cbn. f_equal.
      rewrite map_rev, remove_key_keys, map_rev. symmetry. apply others_rev.
    + exfalso. apply n. rewrite map_rev, <- in_rev. apply in_map_iff. exists (id, v). split; [reflexivity|].
      now apply lookup_some.
  - destruct (load_grid get_tile _ id) as [v|e]; cbn; [|reflexivity].
    destruct (in_dec string_dec id _) as [i|n].
    + exfalso. rewrite map_rev, <- in_rev in i. now apply lookup_none in E.
    + unfold store. destruct (maxsize c) as [|m]; [reflexivity|].
      rewrite rev_app_distr. cbn. f_equal. rewrite evict_skipn, <- firstn_rev, firstn_map. reflexivity.
Qed.

Lemma get_maxsize c id : maxsize (fst (get_interpolation_grid get_tile c id)) = maxsize c.
Proof.
  unfold get_interpolation_grid. destruct (lookup _ _); [reflexivity|]. now destruct (load_grid _ _ _).
Qed.

(** Every held entry was returned by some earlier load. *)
Definition sound (c : Cache) : Prop :=
  forall k v, In (k, v) (entries c) ->
  exists n, (n < List.length (loads c))%nat /\ load_grid get_tile n k = Ok v.

Lemma get_sound c id : sound c -> sound (fst (get_interpolation_grid get_tile c id)).
Proof.
  intros S k v. unfold get_interpolation_grid. destruct (lookup id (entries c)) as [v0|] eqn:E; cbn.
  - rewrite in_app_iff. cbn. intros [H|[H|[]]].
    + apply (S k v). eapply remove_key_in, H.
    + injection H as <- <-. apply S. now apply lookup_some.
  - destruct (load_grid get_tile (List.length (loads c)) id) as [v0|e] eqn:L; cbn.
    + assert (A : In (k, v) (entries c) \/ (k, v) = (id, v0) ->
                  exists n, (n < List.length (id :: loads c))%nat /\ load_grid get_tile n k = Ok v).
      { intros [H|H].
        - destruct (S k v H) as [n [Hn H']]. exists n. cbn. split; [lia | assumption].
        - injection H as -> ->. exists (List.length (loads c)). cbn. split; [lia | assumption]. }
      intros H. apply A. revert H. unfold store. destruct (maxsize c) as [|m]; [tauto|].
      rewrite in_app_iff. cbn. intros [H|[H|[]]]; [left; eapply evict_in, H | right; congruence].
    + intros H. destruct (S k v H) as [n [Hn H']]. exists n. cbn. split; [lia | assumption].
Qed.

Lemma get_value c id : sound c ->
  let c' := fst (get_interpolation_grid get_tile c id) in
  exists n, (n < List.length (loads c'))%nat /\
    snd (get_interpolation_grid get_tile c id) = load_grid get_tile n id.
Proof.
  intros S. unfold get_interpolation_grid. destruct (lookup id (entries c)) as [v|] eqn:E; cbn.
  - destruct (S id v (lookup_some _ _ _ E)) as [n [Hn H]]. exists n. now split.
  - exists (List.length (loads c)). destruct (load_grid get_tile _ id) as [v|e] eqn:L; cbn; split; try lia; congruence.
Qed.

Lemma get_loads_le c id :
  (List.length (loads c) <= List.length (loads (fst (get_interpolation_grid get_tile c id))))%nat.
Proof.
  unfold get_interpolation_grid. destruct (lookup _ _); cbn; [lia|]. destruct (load_grid _ _ _); cbn; lia.
Qed.

(** ** One call *)
Lemma step_cache c o :
  fst (step find get_tile c o) =
  match truthy (find (location_of o)) with
  | None => c
  | Some id => fst (get_interpolation_grid get_tile c id)
  end.
Proof.
  destruct o as [w|w]; cbn; [unfold set_elevation | unfold describe_region];
    destruct (truthy (find w)) as [id|]; try reflexivity;
    destruct (get_interpolation_grid get_tile c id); reflexivity.
Qed.

Lemma step_maxsize c o : maxsize (fst (step find get_tile c o)) = maxsize c.
Proof. rewrite step_cache. destruct (truthy _); [apply get_maxsize | reflexivity]. Qed.

Lemma step_sound c o : sound c -> sound (fst (step find get_tile c o)).
Proof. intros S. rewrite step_cache. destruct (truthy _); [now apply get_sound | assumption]. Qed.

Lemma step_loads_le c o :
  (List.length (loads c) <= List.length (loads (fst (step find get_tile c o))))%nat.
Proof. rewrite step_cache. destruct (truthy _); [apply get_loads_le | lia]. Qed.

Lemma truthy_some id w : truthy (find w) = Some id -> find w = Some id /\ id <> EmptyString.
Proof. destruct (find w) as [[|a s]|]; cbn; intros H; try discriminate; injection H as <-; now split. Qed.

Lemma step_answer c o : sound c ->
  exists n, (n <= List.length (loads (fst (step find get_tile c o))))%nat /\
    snd (step find get_tile c o) = uncached_answer find (get_tile n) o.
Proof.
  intros S. destruct o as [w|w]; cbn; [unfold set_elevation | unfold describe_region].
  - destruct (truthy (find w)) as [id|] eqn:T.
    + destruct (truthy_some _ _ T) as [F NE]. rewrite F.
      destruct (get_value c id S) as [n [Hn V]].
      destruct (get_interpolation_grid get_tile c id) as [c' r]. cbn in *. exists n. split; [lia|].
      destruct id as [|a s]; [congruence|]. f_equal. subst r. unfold load_grid.
      destruct (get_tile n _) as [t|]; cbn; [|reflexivity]. destruct (make_grid t) as [g|]; cbn; [|reflexivity].
      destruct (g_interp g), (g_sensor g) as [s'|]; try reflexivity. destruct (s' w); reflexivity.
    + exists 0%nat. split; [lia|]. cbn. destruct (find w) as [[|]|]; try discriminate; reflexivity.
  - destruct (truthy (find w)) as [id|] eqn:T.
    + destruct (truthy_some _ _ T) as [F NE]. rewrite F.
      destruct (get_value c id S) as [n [Hn V]].
      destruct (get_interpolation_grid get_tile c id) as [c' r]. cbn in *. exists n. split; [lia|].
      destruct id as [|a s]; [congruence|]. f_equal. subst r. unfold load_grid.
      destruct (get_tile n _) as [t|]; reflexivity.
    + exists 0%nat. split; [lia|]. cbn. destruct (find w) as [[|]|]; try discriminate; reflexivity.
Qed.

(** ** Histories *)
Lemma run_sound c h : sound c -> sound (fst (run find get_tile c h)).
Proof.
  revert c. induction h as [|o h IH]; intros c S; cbn; [assumption|].
  pose proof (step_sound c o S) as S1. destruct (step find get_tile c o) as [c1 a]. cbn in S1.
  specialize (IH c1 S1). destruct (run find get_tile c1 h). exact IH.
Qed.

Lemma run_loads_le c h :
  (List.length (loads c) <= List.length (loads (fst (run find get_tile c h))))%nat.
Proof.
  revert c. induction h as [|o h IH]; intros c; cbn; [lia|].
  pose proof (step_loads_le c o). destruct (step find get_tile c o) as [c1 a]. cbn in *.
  specialize (IH c1). destruct (run find get_tile c1 h). cbn in *. lia.
Qed.

Lemma run_answers c h : sound c ->
  Forall2 (fun o a => exists n, (n <= List.length (loads (fst (run find get_tile c h))))%nat /\
                                a = uncached_answer find (get_tile n) o)
          h (snd (run find get_tile c h)).
Proof.
  revert c. induction h as [|o h IH]; intros c S; cbn; [constructor|].
  pose proof (step_sound c o S) as S1. pose proof (step_answer c o S) as A.
  destruct (step find get_tile c o) as [c1 a]. cbn in S1, A.
  specialize (IH c1 S1). pose proof (run_loads_le c1 h).
  destruct (run find get_tile c1 h) as [c2 l]. cbn in *. constructor; [|exact IH].
  destruct A as [n [Hn A]]. exists n. split; [lia | exact A].
Qed.

Lemma run_app c h1 h2 :
  run find get_tile c (h1 ++ h2) =
  let '(c1, l1) := run find get_tile c h1 in
  let '(c2, l2) := run find get_tile c1 h2 in (c2, l1 ++ l2).
Proof.
  revert c. induction h1 as [|o h1 IH]; intros c; cbn.
  - now destruct (run find get_tile c h2).
  - destruct (step find get_tile c o) as [c1 a]. rewrite IH.
    destruct (run find get_tile c1 h1) as [c2 l1]. now destruct (run find get_tile c2 h2).
Qed.

Lemma run_snoc_cache c h o :
  fst (run find get_tile c (h ++ [o])) = fst (step find get_tile (fst (run find get_tile c h)) o).
Proof.
  rewrite run_app. destruct (run find get_tile c h) as [c1 l1]. cbn.
  now destruct (step find get_tile c1 o).
Qed.

Lemma run_maxsize c h : maxsize (fst (run find get_tile c h)) = maxsize c.
Proof.
  induction h as [|o h IH] using rev_ind; [reflexivity|]. now rewrite run_snoc_cache, step_maxsize.
Qed.

(** Bounded and duplicate free, whatever the factory does. *)
Definition tidy (c : Cache) : Prop := (List.length (keys c) <= maxsize c)%nat /\ NoDup (keys c).

Lemma filter_le {A} (f : A -> bool) l : (List.length (filter f l) <= List.length l)%nat.
Proof. induction l as [|x l IH]; cbn; [lia|]. destruct (f x); cbn; lia. Qed.

Lemma others_length k l : (In k l -> List.length (others k l) < List.length l)%nat.
Proof.
  induction l as [|x l IH]; cbn; [tauto|]. intros [H|H].
  - subst. rewrite String.eqb_refl. cbn. pose proof (filter_le (fun y => negb (String.eqb k y)) l). lia.
  - specialize (IH H). unfold others in IH. destruct (negb (String.eqb k x)); cbn; lia.
Qed.

Lemma nodup_firstn {A} n (l : list A) : NoDup l -> NoDup (firstn n l).
Proof.
  revert n. induction l as [|x l IH]; intros [|n] H; cbn; try constructor.
  - inversion H; subst. intros C. apply H2. rewrite <- (firstn_skipn n l). apply in_app_iff. now left.
  - inversion H; subst. now apply IH.
Qed.

Lemma in_firstn {A} n (l : list A) x : In x (firstn n l) -> In x l.
Proof. intros C. rewrite <- (firstn_skipn n l). apply in_app_iff. now left. Qed.

Lemma get_tidy c id : tidy c -> tidy (fst (get_interpolation_grid get_tile c id)).
Proof.
  intros [L N]. unfold tidy. rewrite get_maxsize, get_keys.
  destruct (snd _); [|now split]. destruct (in_dec string_dec id (keys c)) as [i|ni].
  - split.
    + pose proof (others_length id _ i). cbn. lia.
    + constructor; [rewrite others_in; tauto | now apply others_nodup].
  - destruct (maxsize c) as [|m]; [now split|]. split.
    + cbn. rewrite firstn_length. lia.
    + constructor; [intros C; apply ni; eapply in_firstn, C | now apply nodup_firstn].
Qed.

Lemma run_tidy c h : tidy c -> tidy (fst (run find get_tile c h)).
Proof.
  intros T. induction h as [|o h IH] using rev_ind; [exact T|].
  rewrite run_snoc_cache, step_cache. destruct (truthy _); [now apply get_tidy | exact IH].
Qed.

(** Held tiles are not loaded. *)
Lemma get_held c id : In id (keys c) -> loads (fst (get_interpolation_grid get_tile c id)) = loads c.
Proof.
  unfold keys, get_interpolation_grid. intros H. destruct (lookup id (entries c)) eqn:E; [reflexivity|].
  exfalso. apply lookup_none in E. apply E. now rewrite map_rev, <- in_rev in H.
Qed.

Lemma get_not_held c id : ~ In id (keys c) ->
  loads (fst (get_interpolation_grid get_tile c id)) = id :: loads c.
Proof.
  unfold keys, get_interpolation_grid. intros H. destruct (lookup id (entries c)) as [v|] eqn:E.
  - exfalso. apply H. rewrite map_rev, <- in_rev. apply in_map_iff. exists (id, v). split; [reflexivity|].
    now apply lookup_some.
  - now destruct (load_grid _ _ _).
Qed.
End Cache.

(** ** A factory that always answers a tile id in the same way *)
Section Stable.
Variable find : Geodetic -> option string.
Variable load : string -> res Tile.
Let factory : nat -> string -> res Tile := fun _ => load.

Lemma get_stable_value c id : sound factory c ->
  snd (get_interpolation_grid factory c id) = bind (load id) make_grid.
Proof. intros S. destruct (get_value factory c id S) as [n [_ H]]. exact H. Qed.

Lemma held_keys c h : keys c = [] -> sound factory c ->
  keys (fst (run find factory c h)) = firstn (maxsize c) (distinct (tiles_used find load h)).
Proof.
  intros E Sd. induction h as [|o h IH] using rev_ind.
  - cbn. rewrite E. now destruct (maxsize c).
  - rewrite run_snoc_cache, step_cache.
    assert (U : tiles_used find load (h ++ [o]) = tile_used find load o ++ tiles_used find load h).
    { unfold tiles_used. rewrite rev_app_distr. reflexivity. }
    rewrite U. unfold tile_used at 1.
    destruct (truthy (find (location_of o))) as [id|] eqn:T.
    + destruct (truthy_some find _ _ T) as [F NE]. rewrite F.
      set (c1 := fst (run find factory c h)) in *.
      assert (S1 : sound factory c1) by now apply run_sound, Sd.
      rewrite get_keys, (get_stable_value c1 id S1).
      assert (M : maxsize c1 = maxsize c) by apply run_maxsize.
      destruct id as [|a s]; [congruence|]. set (id := String a s) in *.
      destruct (bind (load id) make_grid) as [g|e]; [|exact IH].
      rewrite M, IH. cbn [app distinct]. fold (others id (distinct (tiles_used find load h))).
      set (D := distinct (tiles_used find load h)).
      assert (N : NoDup D) by apply distinct_nodup.
      destruct (in_dec string_dec id (firstn (maxsize c) D)) as [i|n].
      * destruct (maxsize c) as [|m]; [easy|].
        rewrite (firstn_others_in id (S m) D N i). cbn. now rewrite Nat.sub_0_r.
      * destruct (maxsize c) as [|m]; [now rewrite firstn_O|].
        rewrite (firstn_cons m id). f_equal. rewrite firstn_firstn, Nat.min_l by lia.
        pose proof (firstn_others_notin id (S m) D n) as Q. cbn in Q. now rewrite Nat.sub_0_r in Q.
    + assert (F : match find (location_of o) with None | Some EmptyString => True | _ => False end).
      { destruct (find (location_of o)) as [[|]|]; try discriminate; exact I. }
      destruct (find (location_of o)) as [[|]|]; try contradiction; exact IH.
Qed.
End Stable.

Lemma new_cache_sound g m : sound g (new_cache m).
Proof. intros k v []. Qed.
Lemma new_cache_tidy m : tidy (new_cache m).
Proof. split; cbn; [lia | constructor]. Qed.

(** ** Interpolation *)
Lemma clamp_inside n v : (2 <= n)%nat -> 0 <= v <= INR (n - 1) -> clamp n v = v.
Proof. intros Hn Hv. unfold clamp. rewrite Rmin_left by lra. rewrite Rmax_right by lra. reflexivity. Qed.

Lemma clamp_range n v : (2 <= n)%nat -> 0 <= clamp n v <= INR (n - 1).
Proof.
  intros Hn. unfold clamp. pose proof (pos_INR (n - 1)). split; [apply Rmax_l|].
  apply Rmax_lub; [assumption | apply Rmin_r].
Qed.

Lemma cell_spec n v : (2 <= n)%nat ->
  (cell n v + 1 < n)%nat /\ INR (cell n v) <= clamp n v <= INR (cell n v) + 1.
Proof.
  intros Hn. pose proof (clamp_range n v Hn) as [H0 H1]. unfold cell.
  set (t := clamp n v) in *. pose proof (Rfloor_spec t) as [F1 F2].
  assert (P : (0 <= Rfloor t)%Z) by (apply Rfloor_ge_Z; exact H0).
  assert (I : INR (Z.to_nat (Rfloor t)) = IZR (Rfloor t)) by (rewrite INR_IZR_INZ, Z2Nat.id by lia; reflexivity).
  split; [lia|].
  destruct (Nat.le_gt_cases (Z.to_nat (Rfloor t)) (n - 2)) as [L|G].
  - rewrite Nat.min_l by assumption. rewrite I. lra.
  - rewrite Nat.min_r by lia.
    assert (INR (n - 1) = INR (n - 2) + 1) by (rewrite <- S_INR; f_equal; lia).
    assert (INR (n - 1) <= INR (Z.to_nat (Rfloor t))) by (apply le_INR; lia).
    rewrite I in *. lra.
Qed.

Lemma cell_weights n v : (2 <= n)%nat ->
  let u := clamp n v - INR (cell n v) in 0 <= u <= 1.
Proof. intros Hn. destruct (cell_spec n v Hn). cbn. lra. Qed.

Lemma bilinear_bounds a w h x y lo hi : (2 <= w)%nat -> (2 <= h)%nat ->
  (forall i j, (i < w)%nat -> (j < h)%nat -> lo <= value_T a i j <= hi) ->
  lo <= bilinear a w h x y <= hi.
Proof.
  intros Hw Hh B. unfold bilinear.
  destruct (cell_spec w x Hw) as [Ci _]. destruct (cell_spec h y Hh) as [Cj _].
  pose proof (cell_weights w x Hw) as U. pose proof (cell_weights h y Hh) as V. cbn in U, V.
  set (i := cell w x) in *. set (j := cell h y) in *.
  set (u := clamp w x - INR i) in *. set (v := clamp h y - INR j) in *.
  pose proof (B i j ltac:(lia) ltac:(lia)) as B00.
  pose proof (B (i + 1)%nat j ltac:(lia) ltac:(lia)) as B10.
  pose proof (B i (j + 1)%nat ltac:(lia) ltac:(lia)) as B01.
  pose proof (B (i + 1)%nat (j + 1)%nat ltac:(lia) ltac:(lia)) as B11.
  set (p := value_T a i j) in *. set (q := value_T a (i + 1) j) in *.
  set (r := value_T a i (j + 1)) in *. set (s := value_T a (i + 1) (j + 1)) in *.
  assert (0 <= (1 - u) * (1 - v)) by (apply Rmult_le_pos; lra).
  assert (0 <= u * (1 - v)) by (apply Rmult_le_pos; lra).
  assert (0 <= (1 - u) * v) by (apply Rmult_le_pos; lra).
  assert (0 <= u * v) by (apply Rmult_le_pos; lra).
  assert (E : (1 - u) * (1 - v) + u * (1 - v) + (1 - u) * v + u * v = 1) by ring.
  set (k1 := (1 - u) * (1 - v)) in *. set (k2 := u * (1 - v)) in *.
  set (k3 := (1 - u) * v) in *. set (k4 := u * v) in *. split.
  - assert (k1 * lo <= k1 * p) by (apply Rmult_le_compat_l; lra).
    assert (k2 * lo <= k2 * q) by (apply Rmult_le_compat_l; lra).
    assert (k3 * lo <= k3 * r) by (apply Rmult_le_compat_l; lra).
    assert (k4 * lo <= k4 * s) by (apply Rmult_le_compat_l; lra).
    replace lo with ((k1 + k2 + k3 + k4) * lo) by (rewrite E; ring). lra.
  - assert (k1 * p <= k1 * hi) by (apply Rmult_le_compat_l; lra).
    assert (k2 * q <= k2 * hi) by (apply Rmult_le_compat_l; lra).
    assert (k3 * r <= k3 * hi) by (apply Rmult_le_compat_l; lra).
    assert (k4 * s <= k4 * hi) by (apply Rmult_le_compat_l; lra).
    replace hi with ((k1 + k2 + k3 + k4) * hi) by (rewrite E; ring). lra.
Qed.

(** On an integer coordinate the weight selects one post. *)
Lemma node_weight n k : (k < n)%nat -> (2 <= n)%nat ->
  (cell n (INR k) = k /\ clamp n (INR k) - INR (cell n (INR k)) = 0) \/
  (cell n (INR k) + 1 = k)%nat /\ clamp n (INR k) - INR (cell n (INR k)) = 1.
Proof.
  intros Hk Hn.
  assert (C : clamp n (INR k) = INR k).
  { apply clamp_inside; [assumption|]. split; [apply pos_INR | apply le_INR; lia]. }
  unfold cell. rewrite C. rewrite INR_IZR_INZ, Rfloor_IZR, Nat2Z.id, <- INR_IZR_INZ.
  destruct (Nat.le_gt_cases k (n - 2)) as [L|G].
  - left. rewrite Nat.min_l by assumption. split; [reflexivity | lra].
  - right. rewrite Nat.min_r by lia. split; [lia|].
    replace k with (S (n - 2)) by lia. rewrite S_INR. lra.
Qed.

Lemma bilinear_node a w h i j : (2 <= w)%nat -> (2 <= h)%nat -> (i < w)%nat -> (j < h)%nat ->
  bilinear a w h (INR i) (INR j) = value_T a i j.
Proof.
  intros Hw Hh Hi Hj. unfold bilinear.
  destruct (node_weight w i Hi Hw) as [[E1 E2]|[E1 E2]];
  destruct (node_weight h j Hj Hh) as [[F1 F2]|[F1 F2]];
  rewrite E2, F2; rewrite ?E1, ?F1; ring.
Qed.

(** Affine surfaces are reproduced everywhere inside the grid. *)
Lemma bilinear_affine a w h A B C x y : (2 <= w)%nat -> (2 <= h)%nat ->
  (forall i j, (i < w)%nat -> (j < h)%nat -> value_T a i j = A + B * INR i + C * INR j) ->
  bilinear a w h x y = A + B * clamp w x + C * clamp h y.
Proof.
  intros Hw Hh H. unfold bilinear.
  destruct (cell_spec w x Hw) as [Ci _]. destruct (cell_spec h y Hh) as [Cj _].
  rewrite !H by lia. rewrite !plus_INR. cbn [INR]. ring.
Qed.

(** Between two neighbouring rows and columns the value is the bilinear blend of the four
    surrounding posts. *)
Lemma bilinear_cell a w h (i j : nat) u v : (i + 1 < w)%nat -> (j + 1 < h)%nat ->
  0 <= u < 1 -> 0 <= v < 1 ->
  bilinear a w h (INR i + u) (INR j + v) =
  (1 - v) * ((1 - u) * value_T a i j + u * value_T a (i + 1) j) +
  v * ((1 - u) * value_T a i (j + 1) + u * value_T a (i + 1) (j + 1)).
Proof.
  intros Hi Hj Hu Hv. unfold bilinear.
  assert (K : forall n k t, (k + 1 < n)%nat -> 0 <= t < 1 ->
                clamp n (INR k + t) = INR k + t /\ cell n (INR k + t) = k).
  { intros n k t Hk Ht.
    assert (C : clamp n (INR k + t) = INR k + t).
    { apply clamp_inside; [lia|]. split; [pose proof (pos_INR k); lra|].
      assert (INR k + 1 <= INR (n - 1)) by (rewrite <- S_INR; apply le_INR; lia). lra. }
    split; [exact C|]. unfold cell. rewrite C.
    assert (F : Rfloor (INR k + t) = Z.of_nat k).
    { apply Rfloor_unique. rewrite INR_IZR_INZ. lra. }
    rewrite F, Nat2Z.id. lia. }
  destruct (K w i u Hi Hu) as [E1 E2]. destruct (K h j v Hj Hv) as [F1 F2].
  rewrite E1, E2, F1, F2. ring.
Qed.

(** ** String replacement *)
Lemma substring_all s : forall m, (String.length s <= m)%nat -> substring 0 m s = s.
Proof.
  induction s as [|a s IH]; intros m H; destruct m; cbn in *; try reflexivity; try lia.
  f_equal. apply IH. lia.
Qed.

Lemma starts_with_app p s : starts_with p (String.append p s) = true.
Proof. induction p as [|a p IH]; cbn; [reflexivity|]. now rewrite Ascii.eqb_refl. Qed.
