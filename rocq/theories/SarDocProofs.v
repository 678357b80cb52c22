(** Lemmas about reading and changing SICD and SIDD documents. *)
Require Import ZArith Reals String List Bool Lia.
Require Import Verif.Base Verif.Vec Verif.SicdModel Verif.SarMetaModel Verif.SchemaModel Verif.SchemaSpec Verif.SchemaProofs Verif.SarDocModel.
Import ListNotations.
Local Open Scope string_scope.

Section Access.
Context {F D T : Type}.
Notation Value := (Value F D T).
Notation Obj := (Obj F D T).
Variable L : Lexical F D T.
Variable S : Schema.

(** *** Fields by name *)

Definition field_of (c a : string) : option Field :=
  match find_class S c with
  | None => None
  | Some k => match field_index a (c_fields k) with None => None | Some i => nth_error (c_fields k) i end
  end.
Lemma field_index_nth a : forall fs i, field_index a fs = Some i -> exists f, nth_error fs i = Some f /\ attr f = a.
Proof.
  induction fs as [|f fs IH]; intros i E; [discriminate|]. cbn in E. destruct (String.eqb_spec (attr f) a) as [<-|_].
  - injection E as <-. exists f. split; reflexivity.
  - destruct (field_index a fs) as [j|]; [|discriminate]. injection E as <-. destruct (IH j eq_refl) as (g & Eg & Ag). exists g. split; assumption.
Qed.

Lemma get_field ok c o a f : shaped L S ok (TClass c) o -> field_of c a = Some f ->
  exists s, get_slot S o a = Ok s /\ slot_ok L f s /\ Forall (shaped L S ok (ty f)) s.
Proof.
  intros H E. destruct o as [v|c' slots]; [destruct H as [[] _]|]. apply shaped_inst in H as [Ec (k & Ek & R)]. injection Ec as <-.
  unfold field_of in E. cbn [get_slot]. rewrite Ek in *. destruct (field_index a (c_fields k)) as [i|]; [|discriminate].
  exists (nth i slots []). split; [reflexivity|]. assert (Hi : (i < List.length slots)%nat).
  { rewrite (Forall2_same_length _ _ _ R). apply nth_error_Some. congruence. }
  apply (Forall2_nth _ _ _ R i); [|exact E]. apply nth_error_nth'. exact Hi.
Qed.

Lemma set_field ok c o a f s : shaped L S ok (TClass c) o -> field_of c a = Some f -> slot_ok L f s -> Forall (shaped L S ok (ty f)) s ->
  exists o', set_slot S o a s = Ok o' /\ shaped L S ok (TClass c) o' /\ get_slot S o' a = Ok s /\ (forall b, b <> a -> get_slot S o' b = get_slot S o b).
Proof.
  intros H E Hs Ha. destruct o as [v|c' slots]; [destruct H as [[] _]|]. apply shaped_inst in H as [Ec (k & Ek & R)]. injection Ec as <-.
  unfold field_of in E. cbn [set_slot get_slot]. rewrite Ek in *. destruct (field_index a (c_fields k)) as [i|] eqn:Ei; [|discriminate].
  destruct (field_index_nth a _ _ Ei) as (f' & Ef' & Af). rewrite E in Ef'. injection Ef' as <-.
  assert (Hi : (i < List.length slots)%nat) by (rewrite (Forall2_same_length _ _ _ R); apply nth_error_Some; congruence).
  eexists. split; [reflexivity|]. split; [|split].
  - apply shaped_inst. split; [reflexivity|]. exists k. split; [exact Ek|]. clear Ei Ek. revert slots R Hi E. generalize (c_fields k). clear k.
    induction i as [|i IH]; intros fs slots R Hi E.
    + inversion R as [|s0 f0 sr fr H0 R' E1 E2]; subst; [cbn in Hi; lia|]. cbn in E. injection E as ->. cbn. constructor; [split; assumption|exact R'].
    + inversion R as [|s0 f0 sr fr H0 R' E1 E2]; subst; [cbn in Hi; lia|]. cbn in E. cbn [firstn skipn app]. constructor; [exact H0|].
      apply IH; [exact R'|cbn in Hi; lia|exact E].
  - cbn [get_slot]. rewrite Ek, Ei. f_equal. rewrite app_nth2; rewrite firstn_length_le; try lia. rewrite Nat.sub_diag. reflexivity.
  - intros b Nb. cbn [get_slot]. rewrite Ek. destruct (field_index b (c_fields k)) as [j|] eqn:Ej; [|reflexivity]. f_equal.
    assert (Nij : i <> j).
    { intros <-. destruct (field_index_nth b _ _ Ej) as (g & Eg & Ag). rewrite E in Eg. injection Eg as <-. congruence. }
    destruct (Nat.lt_ge_cases j i) as [Lt|Ge].
    + rewrite app_nth1 by (rewrite firstn_length_le; lia). rewrite <- (firstn_skipn i slots) at 2. rewrite app_nth1 by (rewrite firstn_length_le; lia). reflexivity.
    + rewrite app_nth2 by (rewrite firstn_length_le; lia). rewrite firstn_length_le by lia.
      replace (j - i)%nat with (Datatypes.S (j - i - 1)) by lia. cbn [nth].
      rewrite <- (firstn_skipn (Datatypes.S i) slots) at 2. rewrite app_nth2 by (rewrite firstn_length_le; lia). rewrite firstn_length_le by lia.
      f_equal. lia.
Qed.

Lemma get_of_slot (o : Obj) a x : get_slot S o a = Ok [x] -> get S o a = Ok x.
Proof. intros E. unfold get. rewrite E. reflexivity. Qed.
Lemma get_other (o o' : Obj) a b : (forall b, b <> a -> get_slot S o' b = get_slot S o b) -> b <> a -> get S o' b = get S o b.
Proof. intros H N. unfold get. rewrite (H b N). reflexivity. Qed.
Lemma slot_of_get (o : Obj) a x : get S o a = Ok x -> get_slot S o a = Ok [x].
Proof. unfold get. destruct (get_slot S o a) as [[|y [|z r]]|]; cbn; intros E; try discriminate. injection E as <-. reflexivity. Qed.

(** *** Required parts *)

(** The type of a part that is always there. *)
Definition child (c a : string) : option Ty :=
  match field_of c a with
  | Some f => if (required f && is_one f && match default f with NoDefault => true | _ => false end)%bool then Some (ty f) else None
  | None => None
  end.
Lemma complete_slot c o a s : typed L S (TClass c) o -> complete S o -> get_slot S o a = Ok s ->
  exists f, field_of c a = Some f /\ (required f = true -> s <> []) /\ Forall (fun x : Obj => complete S x) s.
Proof.
  intros H C G. destruct o as [v|c' slots]; [destruct H as [[] _]|]. apply shaped_inst in H as [Ec (k & Ek & R)]. injection Ec as <-.
  destruct (complete_inst S c slots C) as (k' & Ek' & Q). rewrite Ek in Ek'. injection Ek' as <-.
  cbn [get_slot] in G. unfold field_of. rewrite Ek in *. destruct (field_index a (c_fields k)) as [i|] eqn:Ei; [|discriminate].
  destruct (field_index_nth a _ _ Ei) as (f & Ef & _). exists f. split; [exact Ef|]. apply (Q i f Ef).
  injection G as <-. apply nth_error_nth'. rewrite (Forall2_same_length _ _ _ R). apply nth_error_Some. congruence.
Qed.
Lemma got c a t o : child c a = Some t -> typed L S (TClass c) o -> complete S o ->
  exists x, get S o a = Ok x /\ typed L S t x /\ complete S x.
Proof.
  unfold child. intros E H C. destruct (field_of c a) as [f|] eqn:Ef; [|discriminate].
  destruct (required f) eqn:Rq; [|discriminate]. destruct (is_one f) eqn:O; [|discriminate]. destruct (default f) eqn:Df; try discriminate. injection E as <-.
  destruct (get_field (value_ok S) c o a f H Ef) as (s & G & So & Fs). destruct (complete_slot c o a s H C G) as (f' & Ef' & Nn & Cs).
  rewrite Ef in Ef'. injection Ef' as <-. specialize (Nn Rq). unfold slot_ok in So. rewrite Df in So. unfold is_one in O.
  destruct (mult f); try discriminate. destruct So as [Le _]. destruct s as [|x [|y r]]; [contradiction| |cbn in Le; lia].
  exists x. split; [apply get_of_slot, G|]. inversion_clear Fs. inversion_clear Cs. split; assumption.
Qed.
(** Lists. *)
Definition children (c a : string) : option Ty :=
  match field_of c a with Some f => match mult f with Many => Some (ty f) | _ => None end | None => None end.
Lemma got_all c a t o : children c a = Some t -> typed L S (TClass c) o -> complete S o ->
  exists s, get_slot S o a = Ok s /\ Forall (typed L S t) s /\ Forall (fun x : Obj => complete S x) s.
Proof.
  unfold children. intros E H C. destruct (field_of c a) as [f|] eqn:Ef; [|discriminate]. destruct (mult f); try discriminate. injection E as <-.
  destruct (get_field (value_ok S) c o a f H Ef) as (s & G & So & Fs). destruct (complete_slot c o a s H C G) as (f' & _ & _ & Cs).
  exists s. split; [exact G|]. split; assumption.
Qed.

(** *** Readers *)
Variable num : F -> R.
Notation number := (number num).
Lemma number_ok (x : Obj) : typed L S (TPrim PFloat) x -> exists r, number x = Ok r.
Proof. destruct x as [v|c s]; intros [E H]; [|discriminate]. destruct v; try contradiction. eexists. reflexivity. Qed.
Lemma integer_ok (x : Obj) : typed L S (TPrim PInt) x -> exists r, integer x = Ok r.
Proof. destruct x as [v|c s]; intros [E H]; [|discriminate]. destruct v; try contradiction. eexists. reflexivity. Qed.
Lemma enum_ok_value e (x : Obj) : typed L S (TEnum e) x -> exists m, enum_value x = Ok m /\ In m (values S e).
Proof. destruct x as [v|c s]; intros [E H]; [|discriminate]. destruct v; try contradiction. destruct H as [-> I]. eexists. split; [reflexivity|exact I]. Qed.
Lemma get_number_ok c a o : child c a = Some (TPrim PFloat) -> typed L S (TClass c) o -> complete S o -> exists r, get_number num S o a = Ok r.
Proof. intros E H C. destruct (got c a _ o E H C) as (x & G & Tx & _). unfold get_number. rewrite G. apply number_ok, Tx. Qed.
Lemma get_integer_ok c a o : child c a = Some (TPrim PInt) -> typed L S (TClass c) o -> complete S o -> exists r, get_integer S o a = Ok r.
Proof. intros E H C. destruct (got c a _ o E H C) as (x & G & Tx & _). unfold get_integer. rewrite G. apply integer_ok, Tx. Qed.

Definition all_children (c : string) (l : list (string * Ty)) : Prop := Forall (fun p => child c (fst p) = Some (snd p)) l.
Definition vector_class (c : string) : Prop := all_children c [("x", TPrim PFloat); ("y", TPrim PFloat); ("z", TPrim PFloat)].
Lemma vector_ok c o : vector_class c -> typed L S (TClass c) o -> complete S o -> exists v, vector num S o = Ok v.
Proof.
  intros V H C. inversion_clear V as [|? ? X V1]. inversion_clear V1 as [|? ? Y V2]. inversion_clear V2 as [|? ? Z V3]. cbn [fst snd] in *.
  destruct (get_number_ok c "x" o X H C) as [x Ex]. destruct (get_number_ok c "y" o Y H C) as [y Ey]. destruct (get_number_ok c "z" o Z H C) as [z Ez].
  unfold vector. rewrite Ex, Ey, Ez. eexists. reflexivity.
Qed.
Lemma collect_all {A B} (g : A -> res B) l : Forall (fun a => exists b, g a = Ok b) l -> exists r, collect g l = Ok r.
Proof. induction 1 as [|a l [b E] _ [r IH]]; [eexists; reflexivity|]. cbn. rewrite E. cbn. rewrite IH. eexists. reflexivity. Qed.
Definition poly1_class (c k : string) : Prop :=
  all_children c [("order1", TPrim PInt)] /\ children c "coef" = Some (TClass k) /\ all_children k [("exponent1", TPrim PInt); ("value", TPrim PFloat)].
Lemma poly1_ok c k o : poly1_class c k -> typed L S (TClass c) o -> complete S o -> exists p, poly1 num S o = Ok p.
Proof.
  intros (A & B & K) H C. inversion_clear A as [|? ? X _]. inversion_clear K as [|? ? E K1]. inversion_clear K1 as [|? ? V _]. cbn [fst snd] in *.
  destruct (get_integer_ok c _ o X H C) as [n En]. destruct (got_all c _ _ o B H C) as (s & Es & Ts & Cs).
  destruct (collect_all (coef1 num S) s) as [l El].
  { rewrite Forall_forall in *. intros y Iy. destruct (get_integer_ok k _ y E (Ts y Iy) (Cs y Iy)) as [e Ee].
    destruct (get_number_ok k _ y V (Ts y Iy) (Cs y Iy)) as [v Ev]. unfold coef1. rewrite Ee, Ev. eexists. reflexivity. }
  unfold poly1. rewrite En. cbn [bind]. rewrite Es. cbn [bind]. rewrite El. eexists. reflexivity.
Qed.
Definition poly2_class (c k : string) : Prop :=
  all_children c [("order1", TPrim PInt); ("order2", TPrim PInt)] /\ children c "coef" = Some (TClass k)
  /\ all_children k [("exponent1", TPrim PInt); ("exponent2", TPrim PInt); ("value", TPrim PFloat)].
Lemma poly2_ok c k o : poly2_class c k -> typed L S (TClass c) o -> complete S o -> exists p, poly2 num S o = Ok p.
Proof.
  intros (A & B & K) H C. inversion_clear A as [|? ? X A1]. inversion_clear A1 as [|? ? Y _].
  inversion_clear K as [|? ? E K1]. inversion_clear K1 as [|? ? E' K2]. inversion_clear K2 as [|? ? V _]. cbn [fst snd] in *.
  destruct (get_integer_ok c _ o X H C) as [n En]. destruct (get_integer_ok c _ o Y H C) as [m Em]. destruct (got_all c _ _ o B H C) as (s & Es & Ts & Cs).
  destruct (collect_all (coef2 num S) s) as [l El].
  { rewrite Forall_forall in *. intros y Iy. destruct (get_integer_ok k _ y E (Ts y Iy) (Cs y Iy)) as [e Ee]. destruct (get_integer_ok k _ y E' (Ts y Iy) (Cs y Iy)) as [e' Ee'].
    destruct (get_number_ok k _ y V (Ts y Iy) (Cs y Iy)) as [v Ev]. unfold coef2. rewrite Ee, Ee', Ev. eexists. reflexivity. }
  unfold poly2. rewrite En, Em. cbn [bind]. rewrite Es. cbn [bind]. rewrite El. eexists. reflexivity.
Qed.
Definition xyzpoly_class (c p k : string) : Prop :=
  all_children c [("x", TClass p); ("y", TClass p); ("z", TClass p)] /\ poly1_class p k.
Lemma xyzpoly_ok c p k o : xyzpoly_class c p k -> typed L S (TClass c) o -> complete S o -> exists v, xyzpoly num S o = Ok v.
Proof.
  intros [A P] H C. inversion_clear A as [|? ? X A1]. inversion_clear A1 as [|? ? Y A2]. inversion_clear A2 as [|? ? Z _]. cbn [fst snd] in *.
  destruct (got c _ _ o X H C) as (x & Gx & Tx & Cx). destruct (got c _ _ o Y H C) as (y & Gy & Ty & Cy). destruct (got c _ _ o Z H C) as (z & Gz & Tz & Cz).
  destruct (poly1_ok p k x P Tx Cx) as [px Ex]. destruct (poly1_ok p k y P Ty Cy) as [py Ey]. destruct (poly1_ok p k z P Tz Cz) as [pz Ez].
  unfold xyzpoly. rewrite Gx. cbn [bind]. rewrite Ex. cbn [bind]. rewrite Gy. cbn [bind]. rewrite Ey. cbn [bind]. rewrite Gz. cbn [bind]. rewrite Ez. eexists. reflexivity.
Qed.
Definition corner_class (c : string) : Prop := all_children c [("row", TPrim PFloat); ("col", TPrim PFloat)].
Lemma corner_ok c o : corner_class c -> typed L S (TClass c) o -> complete S o -> exists p, corner num S o = Ok p.
Proof.
  intros A H C. inversion_clear A as [|? ? X A1]. inversion_clear A1 as [|? ? Y _]. cbn [fst snd] in *.
  destruct (get_number_ok c _ o X H C) as [x Ex]. destruct (get_number_ok c _ o Y H C) as [y Ey]. unfold corner. rewrite Ex, Ey. eexists. reflexivity.
Qed.
End Access.

(** *** Changes *)
Section Changes.
Context {F D T : Type}.
Notation Value := (Value F D T).
Notation Obj := (Obj F D T).
Variable L : Lexical F D T.
Variable S : Schema.
Variable num : F -> R.

(** What the SICD builder reads when only the image data is another. *)
Lemma sicd_changed (o o' im im' : Obj) d r c nr nc :
  get S o "image_data" = Ok im -> get S o' "image_data" = Ok im' -> (forall b, b <> "image_data" -> get_slot S o' b = get_slot S o b) ->
  get S im' "scppixel" = get S im "scppixel" -> get_integer S im' "first_row" = Ok r -> get_integer S im' "first_col" = Ok c ->
  get_integer S im' "num_rows" = Ok nr -> get_integer S im' "num_cols" = Ok nc ->
  sicd_meta num S o = Ok d -> sicd_meta num S o' = Ok (with_image_data d (mkImageData nr nc r c)).
Proof.
  intros Ei Ei' O Px R C NR NC M. assert (G : forall b, b <> "image_data" -> get S o' b = get S o b) by (intros b; apply get_other, O).
  unfold sicd_meta in *. cbn [get_path] in *. rewrite !(G "geo_data"), !(G "grid"), !(G "position"), !(G "image_formation"), !(G "scpcoa") by discriminate.
  assert (Ep : pfa_of num S o' = pfa_of num S o) by (unfold pfa_of; rewrite (G "pfa") by discriminate; reflexivity).
  assert (Ea : az_sf_of num S o' = az_sf_of num S o) by (unfold az_sf_of; rewrite (G "rg_az_comp") by discriminate; reflexivity).
  assert (Er : inca_of num S o' = inca_of num S o) by (unfold inca_of; rewrite (G "rma") by discriminate; reflexivity).
  rewrite Ep, Ea, Er, Ei'. rewrite Ei in M. cbn [bind] in *. rewrite Px, R, C, NR, NC.
  repeat match type of M with
         | bind ?e _ = Ok _ => destruct e; cbn [bind] in *; [|discriminate]
         | match ?e with _ => _ end = Ok _ => destruct e; [|discriminate]
         end.
  injection M as <-. reflexivity.
Qed.

(** What the SIDD builder reads when only DownstreamReprocessing is another. *)
Lemma sidd_changed (o o' : Obj) d c :
  (forall b, b <> "downstream_reprocessing" -> get_slot S o' b = get_slot S o b) -> chip_of num S o' = Ok (Some c) ->
  sidd_meta num S o = Ok d -> sidd_meta num S o' = Ok (with_chip d c).
Proof.
  intros O C M. assert (G : forall b, b <> "downstream_reprocessing" -> get S o' b = get S o b) by (intros b; apply get_other, O).
  unfold sidd_meta in *. rewrite (G "measurement") by discriminate. rewrite C.
  repeat match type of M with bind ?e _ = Ok _ => destruct e; cbn [bind] in *; [|discriminate] end.
  injection M as <-. reflexivity.
Qed.

(** Reading back what was set. *)
Lemma back_set : forall fs slots i f (s : list Obj), nth_error fs i = Some f -> (i < List.length slots)%nat ->
  back L S (firstn i slots ++ s :: skipn (Datatypes.S i) slots) fs
  = (firstn i (back L S slots fs) ++ map (reread L S (ty f)) s :: skipn (Datatypes.S i) (back L S slots fs))%list.
Proof.
  induction fs as [|g fs IH]; intros slots i f s E H; [destruct i; discriminate|].
  destruct slots as [|s0 slots]; [cbn in H; lia|]. destruct i as [|i].
  - cbn in E. injection E as ->. reflexivity.
  - cbn in E. change (map (reread L S (ty g)) s0 :: back L S (firstn i slots ++ s :: skipn (Datatypes.S i) slots) fs
      = map (reread L S (ty g)) s0 :: (firstn i (back L S slots fs) ++ map (reread L S (ty f)) s :: skipn (Datatypes.S i) (back L S slots fs)))%list.
    f_equal. apply (IH slots i f s E). cbn in H. lia.
Qed.
Lemma reread_set ok c o a f s o' : shaped L S ok (TClass c) o -> field_of S c a = Some f -> set_slot S o a s = Ok o' ->
  set_slot S (reread L S (TClass c) o) a (map (reread L S (ty f)) s) = Ok (reread L S (TClass c) o').
Proof.
  intros H E G. destruct o as [v|c' slots]; [destruct H as [[] _]|]. apply shaped_inst in H as [Ec (k & Ek & R)]. injection Ec as <-.
  unfold field_of in E. cbn [set_slot] in G. rewrite Ek in *. destruct (field_index a (c_fields k)) as [i|] eqn:Ei; [|discriminate]. injection G as <-.
  rewrite !(reread_class L S c k _ _ Ek). cbn [set_slot]. rewrite Ek, Ei. f_equal. f_equal. symmetry. apply back_set; [exact E|].
  rewrite (Forall2_same_length _ _ _ R). apply nth_error_Some. congruence.
Qed.
End Changes.

(** Parts that may be absent. *)
Section Optional.
Context {F D T : Type}.
Variable L : Lexical F D T.
Variable S : Schema.
Definition maybe (c a : string) : option Ty := match field_of S c a with Some f => Some (ty f) | None => None end.
Lemma got_optional c a t (o x : Obj F D T) : maybe c a = Some t -> typed L S (TClass c) o -> complete S o -> get S o a = Ok x -> typed L S t x /\ complete S x.
Proof.
  unfold maybe. intros E H C G. destruct (field_of S c a) as [f|] eqn:Ef; [|discriminate]. injection E as <-. apply slot_of_get in G.
  destruct (get_field L S (value_ok S) c o a f H Ef) as (s & G' & _ & Fs). destruct (complete_slot L S c o a _ H C G) as (f' & _ & _ & Cs).
  rewrite G in G'. injection G' as <-. inversion_clear Fs. inversion_clear Cs. split; assumption.
Qed.
End Optional.

(** *** New objects and what is read back of them *)
Section New_objects.
Context {F D T : Type}.
Notation Obj := (Obj F D T).
Variable L : Lexical F D T.
Variable S : Schema.

Lemma reread_get ok c o a f s : shaped L S ok (TClass c) o -> field_of S c a = Some f -> get_slot S o a = Ok s ->
  get_slot S (reread L S (TClass c) o) a = Ok (map (reread L S (ty f)) s).
Proof.
  intros H E G. destruct o as [v|c' slots]; [destruct H as [[] _]|]. apply shaped_inst in H as [Ec (k & Ek & R)]. injection Ec as <-.
  unfold field_of in E. cbn [get_slot] in G. rewrite Ek in *. destruct (field_index a (c_fields k)) as [i|] eqn:Ei; [|discriminate]. injection G as <-.
  rewrite (reread_class L S c k _ _ Ek). cbn [get_slot]. rewrite Ek, Ei. f_equal. clear - R E. revert slots i R E. generalize (c_fields k). clear k.
  induction l as [|g fs IH]; intros slots i R E; [destruct i; discriminate|]. inversion R as [|s0 f0 sr fr _ R' E1 E2]; subst. destruct i as [|i].
  - cbn in E. injection E as ->. reflexivity.
  - cbn in E. cbn [back nth]. apply IH; assumption.
Qed.
Lemma reread_get_one ok c o a f x : shaped L S ok (TClass c) o -> field_of S c a = Some f -> get S o a = Ok x ->
  get S (reread L S (TClass c) o) a = Ok (reread L S (ty f) x).
Proof. intros H E G. apply get_of_slot. rewrite (reread_get ok c o a f [x] H E (slot_of_get S o a x G)). reflexivity. Qed.
(** Names that are not fields are not fields afterwards either. *)
Lemma get_no_field ok c (o : Obj) a : shaped L S ok (TClass c) o -> field_of S c a = None -> get_slot S o a = Err AttributeError.
Proof.
  intros H E. destruct o as [v|c' slots]; [reflexivity|]. apply shaped_inst in H as [Ec (k & Ek & R)]. injection Ec as <-.
  unfold field_of in E. cbn [get_slot]. rewrite Ek in *. destruct (field_index a (c_fields k)) as [i|] eqn:Ei; [|reflexivity].
  destruct (field_index_nth a _ _ Ei) as (g & Eg & _). congruence.
Qed.
Lemma reread_no_field ok c (o : Obj) a : shaped L S ok (TClass c) o -> field_of S c a = None -> get_slot S (reread L S (TClass c) o) a = Err AttributeError.
Proof.
  intros H E. destruct o as [v|c' slots]; [reflexivity|]. apply shaped_inst in H as [Ec (k & Ek & R)]. injection Ec as <-.
  unfold field_of in E. rewrite (reread_class L S c k _ _ Ek). cbn [get_slot]. rewrite Ek in *. destruct (field_index a (c_fields k)) as [i|] eqn:Ei; [|reflexivity].
  destruct (field_index_nth a _ _ Ei) as (g & Eg & _). congruence.
Qed.

(** Elements without a default. *)
Definition plain (f : Field) : Prop := kind f = Element /\ mult f <> Tokens /\ default f = NoDefault.
Definition plain_class (c : string) : Prop := exists k, find_class S c = Some k /\ Forall plain (c_fields k).
Lemma plain_slot f s : plain f -> (List.length s <= 1)%nat -> slot_ok L f s.
Proof. intros (K & M & Df) Le. unfold slot_ok. rewrite Df. split; [destruct (mult f); [exact Le|exact I|contradiction]|]. rewrite K. discriminate. Qed.
Lemma construct_ok ok c args : plain_class c ->
  (forall a s f, In (a, s) args -> field_of S c a = Some f -> (List.length s <= 1)%nat /\ Forall (shaped L S ok (ty f)) s) ->
  (exists k, find_class S c = Some k /\ NoDup (map attr (c_fields k))) ->
  shaped L S ok (TClass c) (construct S c args).
Proof.
  intros (k & Ek & P) H (k' & Ek' & ND). rewrite Ek in Ek'. injection Ek' as <-. unfold construct. rewrite Ek. apply shaped_inst. split; [reflexivity|].
  exists k. split; [exact Ek|].
  assert (X : forall f, In f (c_fields k) -> field_of S c (attr f) = Some f).
  { intros f I. unfold field_of. rewrite Ek. clear - ND I. induction (c_fields k) as [|g fs IH]; [destruct I|]. cbn [map] in ND. inversion_clear ND as [|? ? N ND'].
    cbn [field_index]. destruct I as [->|I].
    - rewrite String.eqb_refl. reflexivity.
    - destruct (String.eqb_spec (attr g) (attr f)) as [E|_]; [exfalso; apply N; rewrite E; apply in_map, I|]. specialize (IH ND' I).
      destruct (field_index (attr f) fs) as [i|]; [exact IH|discriminate]. }
  clear Ek ND. induction (c_fields k) as [|f fs IH]; [constructor|]. inversion_clear P as [|? ? Pf P']. cbn [map]. constructor.
  - destruct (find _ args) as [[a s]|] eqn:Ef.
    + apply find_some in Ef as [I Ea]. apply String.eqb_eq in Ea. cbn [fst snd] in *. subst a.
      destruct (H (attr f) s f I (X f (or_introl eq_refl))) as [Le Fs]. split; [apply plain_slot; assumption|exact Fs].
    + destruct Pf as (K & M & Df). rewrite Df. split; [apply plain_slot; [repeat split; assumption|cbn; lia]|constructor].
  - apply IH; [exact P'|]. intros g I. apply X. right. exact I.
Qed.
Lemma construct_get c args a f : field_of S c a = Some f ->
  get_slot S (construct S c args : Obj) a = Ok (match find (fun p => String.eqb (fst p) a) args with Some p => snd p | None => default_slot (default f) end).
Proof.
  unfold field_of, construct. intros E. destruct (find_class S c) as [k|] eqn:Ek; [|discriminate]. cbn [get_slot]. rewrite Ek.
  destruct (field_index a (c_fields k)) as [i|] eqn:Ei; [|discriminate]. destruct (field_index_nth a _ _ Ei) as (g & Eg & Ag). rewrite E in Eg. injection Eg as <-.
  f_equal. apply nth_error_nth. rewrite (map_nth_error _ _ _ E), Ag. reflexivity.
Qed.
End New_objects.
