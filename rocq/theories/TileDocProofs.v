(** Lemmas about tiles that carry a SICD or SIDD document. *)
Require Import ZArith Reals String Ascii List Bool Lia.
Require Import Verif.Base Verif.TreModel Verif.BuilderModel Verif.EncodeModel Verif.EncodeSpec Verif.EncodeProofs Verif.EncodeProps Verif.EncodeSensorProps
  Verif.SicdModel Verif.SarMetaModel Verif.SarMetaProps Verif.SchemaModel Verif.SchemaSpec Verif.SchemaProofs Verif.SchemaProps
  Verif.SarDocModel Verif.SarDocProofs Verif.SarDocProps Verif.TileDocModel.
Import ListNotations.
Local Open Scope string_scope.

(** *** Objects with the same slots *)
Section Same.
Context {F D T : Type}.
Variable L : Lexical F D T.

Lemma field_index_of fs : NoDup (map attr fs) -> forall i f, nth_error fs i = Some f -> field_index (attr f) fs = Some i.
Proof.
  induction fs as [|g fs IH]; intros ND i f E; [destruct i; discriminate|]. cbn [map] in ND. inversion_clear ND as [|? ? N ND']. destruct i as [|i]; cbn [nth_error] in E; cbn [field_index].
  - injection E as ->. rewrite String.eqb_refl. reflexivity.
  - destruct (String.eqb_spec (attr g) (attr f)) as [Eq|_].
    + exfalso. apply N. rewrite Eq. apply in_map. apply nth_error_In in E. exact E.
    + rewrite (IH ND' i f E). reflexivity.
Qed.
Lemma same_slots ok c (o o' : Obj F D T) : shaped L formats ok (TClass c) o -> shaped L formats ok (TClass c) o' -> (forall a, get_slot formats o a = get_slot formats o' a) -> o = o'.
Proof.
  intros H H' G. destruct o as [v|c1 s1]; [destruct H as [[] _]|]. destruct o' as [v|c2 s2]; [destruct H' as [[] _]|].
  apply shaped_inst in H as [E (k & Ek & H)]. apply shaped_inst in H' as [E' (k' & Ek' & H')]. injection E as <-. injection E' as <-. rewrite Ek in Ek'. injection Ek' as <-. f_equal.
  assert (ND : NoDup (map attr (c_fields k))).
  { destruct C96_tables as (K & _). apply find_some in Ek as [I _]. rewrite Forall_forall in K. apply (K k I). }
  pose proof (Forall2_same_length _ _ _ H) as N. pose proof (Forall2_same_length _ _ _ H') as N'.
  apply (nth_ext s1 s2 [] []); [congruence|]. intros i Hi. rewrite N in Hi. destruct (nth_error (c_fields k) i) as [f|] eqn:Ef; [|apply nth_error_None in Ef; lia].
  specialize (G (attr f)). cbn [get_slot] in G. rewrite Ek, (field_index_of _ ND i f Ef) in G. injection G as G. exact G.
Qed.
End Same.

(** *** An update forgets the updates before it *)
Section Sicd.
Context {F D T : Type}.
Variable L : Lexical F D T.
Hypothesis LO : lexical_ok L.

Lemma sicd_update_parts v (o im : Obj F D T) r0 c0 b size o' : In v ["sicd121"; "sicd130"] -> shaped L formats (stable L formats) (TClass (v ++ ".SICD")) o ->
  get formats o "image_data" = Ok im -> sicd_update_object formats r0 c0 o (b, size) = Ok o' ->
  shaped L formats (stable L formats) (TClass (v ++ ".ImageDataType")) im /\
  shaped L formats (stable L formats) (TClass (v ++ ".SICD")) o' /\ (forall a, a <> "image_data" -> get_slot formats o' a = get_slot formats o a) /\
  exists im', get formats o' "image_data" = Ok im' /\ shaped L formats (stable L formats) (TClass (v ++ ".ImageDataType")) im' /\
    (forall a, ~ In a ["first_row"; "first_col"; "num_rows"; "num_cols"] -> get_slot formats im' a = get_slot formats im a) /\
    get_slot formats im' "first_row" = Ok [Leaf (VInt (r0 + by_ b))] /\ get_slot formats im' "first_col" = Ok [Leaf (VInt (c0 + bx b))] /\
    get_slot formats im' "num_rows" = Ok [Leaf (VInt (bh b))] /\ get_slot formats im' "num_cols" = Ok [Leaf (VInt (bw b))].
Proof.
  intros Iv H Gi E. unfold sicd_update_object in E. cbn [fst snd] in E. destruct (match size with Some _ => _ | None => _ end); [discriminate|]. rewrite Gi in E. cbn [bind] in E.
  assert (Fi : exists f, field_of formats (v ++ ".SICD") "image_data" = Some f /\ ty f = TClass (v ++ ".ImageDataType") /\ mult f = One /\ default f = NoDefault /\ kind f = Element).
  { cbn [In] in Iv. decompose [or] Iv; subst; try contradiction; eexists; (split; [vm_compute; reflexivity|]); repeat split. }
  destruct Fi as (fi & Efi & Tfi & Mfi & Dfi & Kfi).
  assert (Fn : forall a, In a ["first_row"; "first_col"; "num_rows"; "num_cols"] ->
    exists f, field_of formats (v ++ ".ImageDataType") a = Some f /\ ty f = TPrim PInt /\ mult f = One /\ default f = NoDefault /\ kind f = Element).
  { intros a Ia. cbn [In] in Iv, Ia. decompose [or] Iv; decompose [or] Ia; subst; try contradiction; eexists; (split; [vm_compute; reflexivity|]); repeat split. }
  destruct (get_field L formats _ _ o _ fi H Efi) as (s & Gs & _ & Hs). rewrite (slot_of_get formats o _ _ Gi) in Gs. injection Gs as <-.
  inversion_clear Hs as [|? ? Hi _]. rewrite Tfi in Hi.
  assert (Set1 : forall a (i : Obj F D T) z, In a ["first_row"; "first_col"; "num_rows"; "num_cols"] -> shaped L formats (stable L formats) (TClass (v ++ ".ImageDataType")) i ->
    exists i', set_slot formats i a [Leaf (VInt z)] = Ok i' /\ shaped L formats (stable L formats) (TClass (v ++ ".ImageDataType")) i' /\ get_slot formats i' a = Ok [Leaf (VInt z)] /\
      (forall b, b <> a -> get_slot formats i' b = get_slot formats i b)).
  { intros a i z Ia Hi'. destruct (Fn a Ia) as (f & Ef & Tf & Mf & Df & Kf). apply (set_field L formats _ _ i a f [Leaf (VInt z)] Hi' Ef).
    - unfold slot_ok. rewrite Df, Mf. split; [cbn; lia|]. rewrite Kf. discriminate.
    - rewrite Tf. constructor; [apply held_int, LO|constructor]. }
  destruct (Set1 "first_row" im (r0 + by_ b)%Z ltac:(cbn; tauto) Hi) as (i1 & S1 & H1 & G1 & O1). rewrite S1 in E. cbn [bind] in E.
  destruct (Set1 "first_col" i1 (c0 + bx b)%Z ltac:(cbn; tauto) H1) as (i2 & S2 & H2 & G2 & O2). rewrite S2 in E. cbn [bind] in E.
  destruct (Set1 "num_rows" i2 (bh b) ltac:(cbn; tauto) H2) as (i3 & S3 & H3 & G3 & O3). rewrite S3 in E. cbn [bind] in E.
  destruct (Set1 "num_cols" i3 (bw b) ltac:(cbn; tauto) H3) as (i4 & S4 & H4 & G4 & O4). rewrite S4 in E. cbn [bind] in E.
  destruct (set_field L formats _ _ o "image_data" fi [i4] H Efi) as (o'' & So & Ho & Go & Oo).
  { unfold slot_ok. rewrite Dfi, Mfi. split; [cbn; lia|]. rewrite Kfi. discriminate. }
  { rewrite Tfi. constructor; [exact H4|constructor]. }
  rewrite So in E. injection E as ->. split; [exact Hi|]. split; [exact Ho|]. split; [exact Oo|]. exists i4. split; [apply get_of_slot, Go|]. split; [exact H4|]. split.
  { intros a Na. cbn [In] in Na. rewrite (O4 a), (O3 a), (O2 a), (O1 a); [reflexivity|intros ->; apply Na; tauto..]. }
  split; [rewrite (O4 "first_row"), (O3 "first_row"), (O2 "first_row") by discriminate; exact G1|].
  split; [rewrite (O4 "first_col"), (O3 "first_col") by discriminate; exact G2|]. split; [rewrite (O4 "num_rows") by discriminate; exact G3|exact G4].
Qed.
(** The document after an update depends on the document before it only outside of the image data. *)
Lemma sicd_update_again num v (o : Obj F D T) d r0 c0 q q' o1 : In v ["sicd121"; "sicd130"] -> shaped L formats (stable L formats) (TClass (v ++ ".SICD")) o -> sicd_meta num formats o = Ok d ->
  sicd_update_object formats r0 c0 o q = Ok o1 -> sicd_update_object formats r0 c0 o1 q' = sicd_update_object formats r0 c0 o q'.
Proof.
  intros Iv H M E. destruct q as [b size], q' as [b' size'].
  assert (Gi : exists im, get formats o "image_data" = Ok im).
  { unfold sicd_update_object in E. destruct (match snd _ with Some _ => _ | None => _ end); [discriminate|]. destruct (get formats o "image_data") as [im|]; [|discriminate]. exists im. reflexivity. }
  destruct Gi as [im Gi]. destruct (sicd_update_parts v o im r0 c0 b size o1 Iv H Gi E) as (Hi & H1 & O1 & im1 & Gi1 & Hi1 & Oi1 & _).
  assert (M1 : exists d1, sicd_meta num formats o1 = Ok d1).
  { assert (Z : size = None \/ size = Some (bw b, bh b)).
    { unfold sicd_update_object in E. cbn [fst snd] in E. destruct size as [[w h]|]; [|left; reflexivity]. destruct (Z.eqb_spec w (bw b)) as [->|]; [|discriminate]. destruct (Z.eqb_spec h (bh b)) as [->|]; [|discriminate]. right. reflexivity. }
    destruct (sicd_update_held F D T L num v o d b r0 c0 size LO Iv H M Z) as (o1' & E' & _ & M1). rewrite E in E'. injection E' as <-. eauto. }
  destruct M1 as [d1 M1].
  destruct (match size' with Some (w, h) => (negb (w =? bw b') || negb (h =? bh b'))%Z | None => false end) eqn:Z.
  { unfold sicd_update_object. cbn [fst snd]. rewrite Z. reflexivity. }
  assert (Z' : size' = None \/ size' = Some (bw b', bh b')).
  { destruct size' as [[w h]|]; [|left; reflexivity]. apply orb_false_iff in Z as [Z1 Z2]. apply negb_false_iff, Z.eqb_eq in Z1, Z2. subst. right. reflexivity. }
  destruct (sicd_update_held F D T L num v o d b' r0 c0 size' LO Iv H M Z') as (oa & Ea & _).
  destruct (sicd_update_held F D T L num v o1 d1 b' r0 c0 size' LO Iv H1 M1 Z') as (ob & Eb & _). rewrite Ea, Eb. f_equal.
  destruct (sicd_update_parts v o im r0 c0 b' size' oa Iv H Gi Ea) as (_ & Ha & Oa & ia & Ga & Hia & Oia & A1 & A2 & A3 & A4).
  destruct (sicd_update_parts v o1 im1 r0 c0 b' size' ob Iv H1 Gi1 Eb) as (_ & Hb & Ob & ib & Gb & Hib & Oib & B1 & B2 & B3 & B4).
  assert (ib = ia).
  { apply (same_slots L _ _ ib ia Hib Hia). intros a. destruct (in_dec string_dec a ["first_row"; "first_col"; "num_rows"; "num_cols"]) as [I|N].
    - cbn [In] in I. decompose [or] I; try contradiction; subst a; congruence.
    - rewrite (Oib a N), (Oia a N), (Oi1 a N). reflexivity. }
  subst ib. apply (same_slots L _ _ ob oa Hb Ha). intros a. destruct (string_dec a "image_data") as [->|N].
  - rewrite (slot_of_get formats oa _ _ Ga), (slot_of_get formats ob _ _ Gb). reflexivity.
  - rewrite (Ob a N), (Oa a N), (O1 a N). reflexivity.
Qed.
Lemma sicd_run_shaped num v r0 c0 : In v ["sicd121"; "sicd130"] -> forall qs (o : Obj F D T) d, shaped L formats (stable L formats) (TClass (v ++ ".SICD")) o -> sicd_meta num formats o = Ok d ->
  forall q, sicd_update_object formats r0 c0 (sicd_run_object formats r0 c0 o qs) q = sicd_update_object formats r0 c0 o q.
Proof.
  intros Iv. induction qs as [|[b size] qs IH]; intros o d H M q; [reflexivity|]. cbn [sicd_run_object fold_left]. unfold sicd_step_object at 2.
  destruct (sicd_update_object formats r0 c0 o (b, size)) as [o1|e] eqn:E; cbn [fst]; [|apply (IH o d H M)].
  assert (Z : size = None \/ size = Some (bw b, bh b)).
  { unfold sicd_update_object in E. cbn [fst snd] in E. destruct size as [[w h]|]; [|left; reflexivity]. destruct (Z.eqb_spec w (bw b)) as [->|]; [|discriminate]. destruct (Z.eqb_spec h (bh b)) as [->|]; [|discriminate]. right. reflexivity. }
  destruct (sicd_update_held F D T L num v o d b r0 c0 size LO Iv H M Z) as (o1' & E' & H1 & M1). rewrite E in E'. injection E' as <-.
  unfold sicd_run_object in IH. rewrite (IH o1 _ H1 M1 q). apply (sicd_update_again num v o d r0 c0 (b, size) q o1 Iv H M E).
Qed.
End Sicd.

(** *** The text in the options of a tile *)
Lemma tile_text U (update : U -> request -> U * res unit) encode show_R fac (st0 : State U) scales t options u0 : defaults_are fac st0 scales t options -> updater st0 = Some u0 -> f_format fac = Nitf ->
  forall history g others fs q token st' fs' calls r a,
  create_encoded_tile update encode show_R g others fac (serve update encode show_R fac st0 history) fs q token = (st', fs', calls, r) -> In (Translate a) calls ->
  exists qs v, update (fold_left (fun u q => fst (update u q)) qs u0) q = (v, Ok tt) /\ In ("DES=XML_DATA_CONTENT=" ++ f_header fac ++ encode v) (a_options a).
Proof.
  intros De Eu Fn history g others fs q token st' fs' calls r a E I.
  destruct (C53_requests _ _ _ _ _ _ _ _ _ De history _ _ _ _ _ _ _ _ _ _ E I) as (o1 & o2 & Lo & So & ->).
  pose proof (serve_updater update encode show_R fac history st0) as V. rewrite Eu in V. destruct V as [qs V].
  unfold sar_options in So. rewrite V, Fn in So. destruct So as (v & Uv & _ & ->). exists qs, v. split; [exact Uv|]. cbn [a_options].
  apply in_or_app; right. apply in_or_app; right. cbn. tauto.
Qed.
