Require Import ZArith Reals String List Bool Lia.
Require Import Verif.Base Verif.Text Verif.TextFacts Verif.CoordModel Verif.DisplayModel Verif.SarMetaModel Verif.SarMetaProofs
  Verif.TreModel Verif.TreSpec Verif.TreProofs Verif.BuilderModel Verif.BuilderSpec Verif.BuilderProofs Verif.EncodeModel Verif.EncodeSpec.
Import ListNotations.
Local Open Scope string_scope.

(** The private copy: everything allocated before is as it was. *)
Record Private (h0 h : Heap) (d l : nat) (k : Kwargs) (o : list string) : Prop := mkPrivate {
  p_dict : get_dict h d = k; p_ref : kw_options k = l; p_list : get_list h l = o;
  p_d : (List.length (dicts h0) <= d < List.length (dicts h))%nat;
  p_l : (List.length (lists h0) <= l < List.length (lists h))%nat;
  p_dicts : forall i, (i < List.length (dicts h0))%nat -> get_dict h i = get_dict h0 i;
  p_lists : forall i, (i < List.length (lists h0))%nat -> get_list h i = get_list h0 i }.

Lemma deepcopy_private h d : exists l, let '(h', d') := deepcopy h d in
  Private h h' d' l (with_options (get_dict h d) l) (get_list h (kw_options (get_dict h d))).
Proof.
  exists (List.length (lists h)). unfold deepcopy, new_list, new_dict. cbn.
  constructor; unfold get_dict, get_list; cbn.
  - rewrite app_nth2, Nat.sub_diag by lia. reflexivity.
  - reflexivity.
  - rewrite app_nth2, Nat.sub_diag by lia. reflexivity.
  - rewrite app_length. cbn. lia.
  - rewrite app_length. cbn. lia.
  - intros i I. apply app_nth1. exact I.
  - intros i I. apply app_nth1. exact I.
Qed.
Lemma private_append h0 h d l k o s : Private h0 h d l k o -> Private h0 (append_option h d s) d l k (o ++ [s])%list.
Proof.
  intros [D F L Pd Pl Ds Ls]. unfold append_option. rewrite D, F, L. constructor; unfold get_dict, get_list in *; cbn.
  - exact D.
  - exact F.
  - apply replace_same. lia.
  - exact Pd.
  - rewrite replace_length. exact Pl.
  - exact Ds.
  - intros i I. rewrite replace_other by lia. apply Ls, I.
Qed.
Lemma private_size h0 h d l k o s : Private h0 h d l k o -> Private h0 (set_dict h d (with_size (get_dict h d) s)) d l (with_size k s) o.
Proof.
  intros [D F L Pd Pl Ds Ls]. unfold set_dict. constructor; unfold get_dict, get_list in *; cbn.
  - rewrite replace_same by lia. rewrite D. reflexivity.
  - exact F.
  - exact L.
  - rewrite replace_length. exact Pd.
  - exact Pl.
  - intros i I. rewrite replace_other by lia. apply Ds, I.
  - exact Ls.
Qed.

Lemma split_one {A} (o : list A) a b r : (o ++ a :: b :: r = (o ++ [a]) ++ b :: r)%list.
Proof. rewrite <- app_assoc. reflexivity. Qed.

Section Factory.
Context {U : Type}.
Variable update : U -> request -> U * res unit.
Variable encode : U -> string.
Variable show_R : R -> string.

Lemma checked_igeolo_ok itw w s : checked_igeolo show_R itw w = Ok s ->
  exists a b c d, itw (bx w) (by_ w) = Ok a /\ itw (bx w + bw w)%Z (by_ w) = Ok b
    /\ itw (bx w + bw w)%Z (by_ w + bh w)%Z = Ok c /\ itw (bx w) (by_ w + bh w)%Z = Ok d
    /\ s = to_dms_string show_R a ++ to_dms_string show_R b ++ to_dms_string show_R c ++ to_dms_string show_R d.
Proof.
  unfold checked_igeolo. cbv zeta. cbn [map_res fst snd].
  destruct (itw (bx w) (by_ w)) as [a|]; cbn; [|discriminate].
  destruct (itw (bx w + bw w)%Z (by_ w)) as [b|]; cbn; [|discriminate].
  destruct (itw (bx w + bw w)%Z (by_ w + bh w)%Z) as [c|]; cbn; [|discriminate].
  destruct (itw (bx w) (by_ w + bh w)%Z) as [d|]; cbn; [|discriminate].
  intros E. injection E as <-. exists a, b, c, d. repeat split. 
Qed.

Lemma add_location_private fac h0 h d l k o w : Private h0 h d l k o ->
  let '(h', r) := add_location show_R fac h d w in
  exists o', Private h0 h' d l k (o ++ o')%list /\ (r = Ok tt -> location_options show_R fac w o').
Proof.
  intros P. unfold add_location, location_options. destruct (f_sensor fac) as [itw|].
  2: { exists []. rewrite app_nil_r. split; [exact P | reflexivity]. }
  destruct (f_format fac); cbn [is_nitf].
  2-4: exists []; rewrite app_nil_r; split; [exact P | reflexivity].
  destruct (checked_igeolo show_R itw w) as [s|e] eqn:E.
  - exists ["ICORDS=G"; "IGEOLO=" ++ s]. split.
    + rewrite (split_one o). apply private_append, private_append, P.
    + intros _. destruct (checked_igeolo_ok _ _ _ E) as (a & b & c & d' & A & B & C & D & ->).
      exists a, b, c, d'. repeat split; assumption.
  - exists ["ICORDS=G"]. split; [apply private_append, P | discriminate].
Qed.

Lemma add_sar_private fac h0 h u d l k o q : Private h0 h d l k o ->
  let '(h', u', r) := add_sar update encode fac h u d q in
  exists o', Private h0 h' d l k (o ++ o')%list /\ (r = Ok tt -> sar_options update encode fac u q o' u').
Proof.
  intros P. unfold add_sar, sar_options. destruct u as [v|].
  2: { exists []. rewrite app_nil_r. split; [exact P | split; reflexivity]. }
  destruct (f_format fac); cbn [is_nitf].
  2-4: exists []; rewrite app_nil_r; split; [exact P | split; reflexivity].
  destruct (update v q) as [v' [[]|e]].
  - eexists. split; [|intros _; exists v'; repeat split].
    rewrite !split_one.
    do 5 apply private_append. exact P.
  - exists []. rewrite app_nil_r. split; [exact P | discriminate].
Qed.

Lemma private_defaults fac (st : State U) sc t o h (u : option U) d l k o' : defaults_are fac st sc t o -> Private (heap st) h d l k o' ->
  defaults_are fac (mkState h u) sc t o.
Proof.
  intros [l0 (D & L & A & B)] P. exists l0. cbn [heap].
  rewrite (p_dicts _ _ _ _ _ _ P) by exact A. rewrite (p_lists _ _ _ _ _ _ P) by exact B.
  pose proof (p_d _ _ _ _ _ _ P). pose proof (p_l _ _ _ _ _ _ P). repeat split; try assumption; lia.
Qed.

Lemma prepare_spec fac (st : State U) q token sc t o : defaults_are fac st sc t o ->
  let '(st', r) := prepare update encode show_R fac st q token in
  defaults_are fac st' sc t o
  /\ forall a, r = Ok a -> exists o1 o2, location_options show_R fac (fst q) o1 /\ sar_options update encode fac (updater st) q o2 (updater st')
       /\ a = mkArgs (temp_name fac token) (fst q) sc t (f_format fac) (snd q) (o ++ o1 ++ o2).
Proof.
  intros D. pose proof D as [l0 (E & L & A & B)]. unfold prepare.
  destruct (deepcopy_private (heap st) (f_defaults fac)) as [l P]. destruct (deepcopy (heap st) (f_defaults fac)) as [h1 d].
  rewrite E in P. cbn [kw_options] in P. rewrite L in P. unfold with_options in P. cbn in P.
  set (h2 := match snd q with Some s => set_dict h1 d (with_size (get_dict h1 d) s) | None => h1 end).
  assert (P2 : Private (heap st) h2 d l (mkKwargs sc t (f_format fac) (snd q) l) o).
  { unfold h2. destruct (snd q) as [s|]; [|exact P]. apply (private_size _ _ _ _ _ _ s) in P. exact P. }
  clearbody h2. clear P h1.
  pose proof (add_location_private fac _ _ _ _ _ _ (fst q) P2) as Q.
  destruct (add_location show_R fac h2 d (fst q)) as [h3 [[]|e]].
  2: { destruct Q as [o1 [P3 _]]. split; [eapply private_defaults; eassumption | discriminate]. }
  destruct Q as [o1 [P3 S1]]. specialize (S1 eq_refl).
  pose proof (add_sar_private fac _ _ (updater st) _ _ _ _ q P3) as Q.
  destruct (add_sar update encode fac h3 (updater st) d q) as [[h4 u] [[]|e]]; destruct Q as [o2 [P4 S2]].
  2: { split; [eapply private_defaults; eassumption | discriminate]. }
  specialize (S2 eq_refl). split; [eapply private_defaults; eassumption|].
  intros a Ea. injection Ea as <-. exists o1, o2. split; [exact S1|]. split; [exact S2|].
  unfold call_args. rewrite (p_dict _ _ _ _ _ _ P4). cbn. rewrite (p_list _ _ _ _ _ _ P4), app_assoc. reflexivity.
Qed.
End Factory.

Section Requests.
Context {U : Type}.
Variable update : U -> request -> U * res unit.
Variable encode : U -> string.
Variable show_R : R -> string.
Variable g : Gdal.
Variable others : Call -> Files -> Files.

Notation tile := (create_encoded_tile update encode show_R g others).

Lemma tile_state fac st fs q token st' fs' calls r : tile fac st fs q token = (st', fs', calls, r) ->
  st' = fst (prepare update encode show_R fac st q token).
Proof.
  unfold create_encoded_tile. destruct (prepare _ _ _ _ _ _ _) as [st1 [a|e]].
  - destruct (g_translate g _ a) as [fs1 [u|e]].
    + destruct (read_tile _ _ _ _) as [[[c f] o] x]. destruct (clean_up _ _ _ _ _) as [[c' f'] y]. intros E. now injection E.
    + intros E; now injection E.
  - intros E; now injection E.
Qed.
Lemma read_calls fs n : let '(calls, _, _, _) := read_tile g others fs n in forall a, ~ In (Translate a) calls /\ (forall m, ~ In (Delete m) calls).
Proof.
  unfold read_tile. destruct (g_open g _ n) as [[]|]; [|cbn; intuition discriminate|cbn; intuition discriminate].
  destruct (g_stat g _ n); [|cbn; intuition discriminate]. destruct (g_read g _ n _); cbn; intuition discriminate.
Qed.
Lemma tile_translate fac st fs q token st' fs' calls r a : tile fac st fs q token = (st', fs', calls, r) -> In (Translate a) calls ->
  snd (prepare update encode show_R fac st q token) = Ok a.
Proof.
  unfold create_encoded_tile. destruct (prepare _ _ _ _ _ _ _) as [st1 [b|e]].
  - destruct (g_translate g _ b) as [fs1 [u|e]].
    + pose proof (read_calls fs1 (a_name b)) as C. destruct (read_tile _ _ _ _) as [[[c f] o] x]. unfold clean_up.
      set (z := if o then others (Close (a_name b)) f else f).
      destruct (if o then g_close g z (a_name b) else Ok tt).
      * destruct (g_delete g _ _) as [f2 y]. intros E. injection E as <- <- <- <-. intros [H | H]; [injection H as ->; reflexivity|].
        apply in_app_or in H as [H|H]; [exfalso; exact (proj1 (C a) H)|]. destruct o; cbn in H; intuition discriminate.
      * intros E. injection E as <- <- <- <-. intros [H | H]; [injection H as ->; reflexivity|].
        apply in_app_or in H as [H|H]; [exfalso; exact (proj1 (C a) H)|]. cbn in H; intuition discriminate.
    + intros E. injection E as <- <- <- <-. intros [H | []]. injection H as ->. reflexivity.
  - intros E. injection E as <- <- <- <-. intros [].
Qed.
End Requests.

Section History.
Context {U : Type}.
Variable update : U -> request -> U * res unit.
Variable encode : U -> string.
Variable show_R : R -> string.
Lemma serve_defaults fac l : forall st sc t o, defaults_are fac st sc t o -> defaults_are fac (serve update encode show_R fac st l) sc t o.
Proof.
  induction l as [|[[[[g others] fs] q] token] r IH]; intros st sc t o D; cbn [serve]; [exact D|].
  destruct (create_encoded_tile update encode show_R g others fac st fs q token) as [[[st1 fs1] c] x] eqn:E.
  apply IH. apply tile_state in E. subst st1. pose proof (prepare_spec update encode show_R fac st q token sc t o D) as P.
  destruct (prepare _ _ _ _ _ _ _). exact (proj1 P).
Qed.

(** The updater has seen some of the requests. *)
Lemma prepare_updater fac st q token : let st' := fst (prepare update encode show_R fac st q token) in
  updater st' = updater st \/ exists u, updater st = Some u /\ updater st' = Some (fst (update u q)).
Proof.
  unfold prepare. destruct (deepcopy _ _) as [h1 d]. destruct (add_location _ _ _ _ _) as [h3 [[]|e]]; [|left; reflexivity].
  unfold add_sar. destruct (updater st) as [u|]; [|left; reflexivity]. destruct (is_nitf (f_format fac)); [|left; reflexivity].
  right. exists u. split; [reflexivity|]. destruct (update u q) as [u1 [[]|e]]; reflexivity.
Qed.
Lemma serve_updater fac l : forall st, match updater st with
  | None => updater (serve update encode show_R fac st l) = None
  | Some u => exists qs, updater (serve update encode show_R fac st l) = Some (fold_left (fun u q => fst (update u q)) qs u)
  end.
Proof.
  induction l as [|[[[[g others] fs] q] token] r IH]; intros st; cbn [serve].
  - destruct (updater st) as [u|]; [exists []; reflexivity | reflexivity].
  - destruct (create_encoded_tile update encode show_R g others fac st fs q token) as [[[st1 fs1] c] x] eqn:E.
    apply tile_state in E. subst st1. pose proof (prepare_updater fac st q token) as P. cbv zeta in P.
    specialize (IH (fst (prepare update encode show_R fac st q token))). destruct P as [P | [u [E P]]].
    + rewrite P in IH. exact IH.
    + rewrite E. rewrite P in IH. destruct IH as [qs IH]. exists (q :: qs). exact IH.
Qed.
End History.
