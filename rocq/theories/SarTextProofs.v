(** Lemmas about what is read of the elements of a document. *)
Require Import ZArith Reals String List Bool Lia.
Require Import Verif.Base Verif.Vec Verif.SarMetaModel Verif.SchemaModel Verif.SchemaSpec Verif.SchemaProofs Verif.SchemaProps Verif.SarDocModel Verif.SarDocProofs
  Verif.SarTextSpec.
Import ListNotations.
Local Open Scope string_scope.

(** *** Local names are enough *)
Definition local (f : Field) : string := snd (qname f).
Definition locally_distinct (k : Class) : bool := distinct String.eqb (map local (filter is_element (c_fields k))).
Lemma formats_local : forallb locally_distinct (classes formats) = true.
Proof. vm_compute. reflexivity. Qed.
Lemma local_names c k : find_class formats c = Some k -> NoDup (map local (filter is_element (c_fields k))).
Proof.
  intros E. apply find_some in E as [I _]. pose proof formats_local as A. rewrite forallb_forall in A. specialize (A k I).
  apply (distinct_sound String.eqb); [apply String.eqb_refl|exact A].
Qed.
Lemma NoDup_same {A B} (g : A -> B) l : NoDup (map g l) -> forall a b, In a l -> In b l -> g a = g b -> a = b.
Proof.
  induction l as [|c l IH]; intros N a b Ia Ib E; [destruct Ia|]. inversion_clear N as [|? ? Nc N'].
  destruct Ia as [<-|Ia], Ib as [<-|Ib]; auto.
  - exfalso. apply Nc. rewrite E. now apply in_map.
  - exfalso. apply Nc. rewrite <- E. now apply in_map.
Qed.

Section Reading.
Context {F D T : Type}.
Notation Value := (Value F D T).
Notation Obj := (Obj F D T).
Variable L : Lexical F D T.
Variable num : F -> R.
Notation parse := (parse L formats).

Lemma children_read k f : NoDup (map local (filter is_element (c_fields k))) -> In f (c_fields k) -> is_element f = true ->
  forall xs seen parsed, parse_children parse k xs seen = Ok parsed ->
  Forall2 (fun y v => parse (ty f) y = Ok v) (filter (fun y => String.eqb (snd (tag y)) (local f)) xs)
          (map snd (filter (fun p => qname_eqb (fst p) (qname f)) parsed)).
Proof.
  intros N If Ef. induction xs as [|y r IH]; intros seen parsed E; cbn [parse_children] in E; [injection E as <-; constructor|].
  destruct (find_element k (tag y)) as [g|] eqn:Fe; [|discriminate]. destruct (_ && _)%bool; [discriminate|].
  destruct (parse (ty g) y) as [o|] eqn:Ep; [|discriminate]. cbn [bind] in E.
  destruct (parse_children parse k r (qname g :: seen)) as [l|] eqn:El; [|discriminate]. cbn [bind] in E. injection E as <-.
  specialize (IH _ _ El). apply find_some in Fe as [Ig Fe]. apply andb_true_iff in Fe as [Eg Q]. apply qname_eqb_spec in Q.
  cbn [filter fst]. destruct (String.eqb_spec (snd (tag y)) (local f)) as [El'|Nl].
  - assert (g = f) as ->.
    { apply (NoDup_same local _ N); [now apply filter_In|now apply filter_In|]. unfold local in *. now rewrite Q. }
    rewrite qname_eqb_refl. cbn [map snd]. constructor; [exact Ep|exact IH].
  - rewrite qname_eqb_neq; [exact IH|]. intros X. apply Nl. unfold local. now rewrite <- X, Q.
Qed.

Lemma slot_filled c a f x o s : field_of formats c a = Some f -> parse (TClass c) x = Ok o -> get_slot formats o a = Ok s ->
  exists k parsed, find_class formats c = Some k /\ In f (c_fields k) /\ parse_children parse k (contents x) [] = Ok parsed /\
    fill L formats (let '(Node _ l _ _) := x in l) (text_of x) parsed f = Ok s.
Proof.
  intros Ff P G. destruct x as [q l text ys]. unfold field_of in Ff. destruct (find_class formats c) as [k|] eqn:Ek; [|discriminate].
  rewrite (parse_class L formats c k q l text ys Ek) in P. cbn [contents text_of].
  destruct (parse_children parse k ys []) as [parsed|] eqn:Ep; [|discriminate]. cbn [bind] in P.
  destruct (collect (fill L formats l text parsed) (c_fields k)) as [slots|] eqn:Ec; [|discriminate]. cbn [bind] in P. injection P as <-.
  cbn [get_slot] in G. rewrite Ek in G. destruct (field_index a (c_fields k)) as [i|]; [|discriminate]. injection G as <-.
  exists k, parsed. split; [reflexivity|]. split; [eapply nth_error_In, Ff|]. split; [exact Ep|].
  apply collect_ok in Ec. apply (Forall2_nth _ _ _ Ec i); [|exact Ff]. apply nth_error_nth'. rewrite (Forall2_same_length _ _ _ Ec). apply nth_error_Some. congruence.
Qed.

Lemma elements_slot c a f x o s : field_of formats c a = Some f -> kind f = Element -> parse (TClass c) x = Ok o -> get_slot formats o a = Ok s ->
  Forall2 (fun y v => parse (ty f) y = Ok v) (part x (local f)) s.
Proof.
  intros Ff K P G. destruct (slot_filled c a f x o s Ff P G) as (k & parsed & Ek & If & Ep & Fl). unfold fill in Fl. rewrite K in Fl. injection Fl as <-.
  apply (children_read k f (local_names c k Ek) If) with (seen := []) (parsed := parsed); [|exact Ep]. unfold is_element. now rewrite K.
Qed.
Lemma attribute_slot c a n t x o v : field_of formats c a = Some (mkField a Attribute ("", n) t One true NoDefault) -> parse (TClass c) x = Ok o -> get formats o a = Ok v ->
  exists s, attribute_of x n = Some s /\ v = Leaf (read L formats t s).
Proof.
  intros Ff P G. apply slot_of_get in G. destruct (slot_filled c a _ x o _ Ff P G) as (k & parsed & _ & _ & _ & Fl). unfold fill in Fl. cbn [kind qname default] in Fl.
  assert (X : find_text ("", n) (let '(Node _ l _ _) := x in l) = attribute_of x n).
  { destruct x as [q l text ys]. unfold find_text, attribute_of. f_equal. clear. induction l as [|[[a1 a2] b] l IH]; [reflexivity|]. cbn [find fst snd].
    unfold qname_eqb at 1. cbn [fst snd]. rewrite (andb_comm (String.eqb a2 n)), IH. reflexivity. }
  rewrite X in Fl. destruct (attribute_of x n) as [s|]; cbn [default_slot] in Fl; [|discriminate Fl].
  exists s. split; [reflexivity|]. unfold settle, read_slot in Fl. cbn [default mult ty] in Fl. congruence.
Qed.
Lemma content_slot c a t x o v : (exists q r, field_of formats c a = Some (mkField a Content q t One r NoDefault)) -> parse (TClass c) x = Ok o -> get formats o a = Ok v ->
  v = Leaf (read L formats t (text_of x)).
Proof.
  intros (q & r & Ff) P G. apply slot_of_get in G. destruct (slot_filled c a _ x o _ Ff P G) as (k & parsed & _ & _ & _ & Fl). unfold fill in Fl. cbn [kind default] in Fl.
  destruct (String.eqb (text_of x) ""); cbn [default_slot] in Fl; [discriminate Fl|]. unfold settle, read_slot in Fl. cbn [default mult ty] in Fl. congruence.
Qed.

(** *** Paths *)
Lemma elements_app : forall p n x, elements x (p ++ [n]) = flat_map (fun y => part y n) (elements x p).
Proof.
  assert (E1 : forall l : list Xml, flat_map (fun y => [y]) l = l) by (induction l as [|y l IH]; cbn; congruence).
  induction p as [|m p IH]; intros n x; cbn [app elements].
  - cbn [flat_map]. now rewrite app_nil_r, E1.
  - induction (part x m) as [|y l IHl]; [reflexivity|]. cbn [flat_map]. rewrite flat_map_app, IH, IHl. reflexivity.
Qed.
(** The object [o] has been read of the element at the path [p]. *)
Definition reads (x : Xml) (p : list string) (t : Ty) (o : Obj) : Prop := exists y, elements x p = [y] /\ parse t y = Ok o.
Definition element_field (c a : string) : option (string * Ty) :=
  match field_of formats c a with Some f => match kind f with Element => Some (local f, ty f) | _ => None end | None => None end.
Lemma reads_child x p c o a v n t : reads x p (TClass c) o -> element_field c a = Some (n, t) -> get formats o a = Ok v -> reads x (p ++ [n]) t v.
Proof.
  intros (y & E & P) Fe G. unfold element_field in Fe. destruct (field_of formats c a) as [f|] eqn:Ff; [|discriminate].
  destruct (kind f) eqn:K; try discriminate. injection Fe as <- <-. apply slot_of_get in G.
  pose proof (elements_slot c a f y o [v] Ff K P G) as R. inversion R as [|z v' zs vs Pz Rz E1 E2]. subst. inversion Rz; subst.
  exists z. rewrite elements_app, E. cbn [flat_map]. now rewrite app_nil_r.
Qed.
Lemma reads_children x p c o a s n t : reads x p (TClass c) o -> element_field c a = Some (n, t) -> get_slot formats o a = Ok s ->
  exists y, elements x p = [y] /\ parse (TClass c) y = Ok o /\ Forall2 (fun e v => parse t e = Ok v) (part y n) s.
Proof.
  intros (y & E & P) Fe G. unfold element_field in Fe. destruct (field_of formats c a) as [f|] eqn:Ff; [|discriminate].
  destruct (kind f) eqn:K; try discriminate. injection Fe as <- <-. exists y. split; [exact E|]. split; [exact P|]. now apply (elements_slot c a f y o s).
Qed.

(** *** Values *)
Lemma simple_parse t y o : text_type t -> parse t y = Ok o -> contents y = [] /\ (o = Leaf (VStr "") \/ o = Leaf (read L formats t (text_of y))).
Proof.
  intros X P. destruct y as [q l text ys]. destruct t; try destruct X; cbn [parse SchemaModel.parse] in P; (destruct ys; [|discriminate]); injection P as <-; cbn [contents text_of];
    (split; [reflexivity|]); destruct (String.eqb text ""); auto.
Qed.
Lemma read_number s r : number num (Leaf (read L formats (TPrim PFloat) s)) = Ok r -> says_number L num s r.
Proof.
  cbn [number read read_prim]. destruct (read_float L s) as [f|] eqn:E; cbn [option_map value_number]; [|discriminate]. intros H. injection H as <-. exists f. auto.
Qed.
Lemma read_integer s z : integer (Leaf (read L formats (TPrim PInt) s)) = Ok z -> says_integer L s z.
Proof. cbn [integer read read_prim]. unfold says_integer. destruct (read_int L s) as [f|] eqn:E; cbn [option_map]; congruence. Qed.
Lemma reads_number x p o r : reads x p (TPrim PFloat) o -> number num o = Ok r -> number_at L num x p r.
Proof.
  intros (y & E & P) H. apply simple_parse in P as [C [->| ->]]; [discriminate| |exact I]. exists y. split; [exact E|]. split; [exact C|]. now apply read_number.
Qed.
Lemma reads_integer x p o z : reads x p (TPrim PInt) o -> integer o = Ok z -> integer_at L x p z.
Proof.
  intros (y & E & P) H. apply simple_parse in P as [C [->| ->]]; [discriminate| |exact I]. exists y. split; [exact E|]. split; [exact C|]. now apply read_integer.
Qed.
Lemma member_collapse e s m : member formats e s = Some m -> collapse s = m.
Proof. intros H. apply find_some in H as [_ H]. apply String.eqb_eq in H. congruence. Qed.
Lemma reads_word x p e o m : reads x p (TEnum e) o -> enum_value o = Ok m -> word_at x p m.
Proof.
  intros (y & E & P) H. apply simple_parse in P as [C [->| ->]]; [discriminate| |exact I]. exists y. split; [exact E|]. split; [exact C|].
  cbn [enum_value read] in H. destruct (member formats e (text_of y)) as [m'|] eqn:M; [|discriminate]. injection H as <-. now apply (member_collapse e).
Qed.

Lemma get_number_at x p c o a n r : reads x p (TClass c) o -> element_field c a = Some (n, TPrim PFloat) -> get_number num formats o a = Ok r -> number_at L num x (p ++ [n]) r.
Proof. intros R E G. unfold get_number in G. destruct (get formats o a) as [v|] eqn:Gv; [|discriminate]. eapply reads_number; [eapply reads_child; eassumption|exact G]. Qed.
Lemma get_integer_at x p c o a n z : reads x p (TClass c) o -> element_field c a = Some (n, TPrim PInt) -> get_integer formats o a = Ok z -> integer_at L x (p ++ [n]) z.
Proof. intros R E G. unfold get_integer in G. destruct (get formats o a) as [v|] eqn:Gv; [|discriminate]. eapply reads_integer; [eapply reads_child; eassumption|exact G]. Qed.
Lemma get_word_at x p c o a n e m : reads x p (TClass c) o -> element_field c a = Some (n, TEnum e) -> get_enum formats o a = Ok m -> word_at x (p ++ [n]) m.
Proof. intros R E G. unfold get_enum in G. destruct (get formats o a) as [v|] eqn:Gv; [|discriminate]. eapply reads_word; [eapply reads_child; eassumption|exact G]. Qed.

Definition vector_class (c : string) : Prop :=
  element_field c "x" = Some ("X", TPrim PFloat) /\ element_field c "y" = Some ("Y", TPrim PFloat) /\ element_field c "z" = Some ("Z", TPrim PFloat).
Lemma vector_read x p c o v : reads x p (TClass c) o -> vector_class c -> vector num formats o = Ok v -> vector_at L num x p v.
Proof.
  intros R (X & Y & Z) H. unfold vector in H. destruct (get_number num formats o "x") as [a|] eqn:A; [|discriminate].
  destruct (get_number num formats o "y") as [b|] eqn:B; [|discriminate]. destruct (get_number num formats o "z") as [d|] eqn:C; [|discriminate].
  injection H as <-. cbn [vx vy vz]. repeat split; eapply get_number_at; eassumption.
Qed.
Definition pixel_class (c : string) : Prop := element_field c "col" = Some ("Col", TPrim PFloat) /\ element_field c "row" = Some ("Row", TPrim PFloat).
Lemma pixel_read x p c o v : reads x p (TClass c) o -> pixel_class c -> corner num formats o = Ok v -> pixel_at L num x p v.
Proof.
  intros R (X & Y) H. unfold corner in H. destruct (get_number num formats o "col") as [a|] eqn:A; [|discriminate].
  destruct (get_number num formats o "row") as [b|] eqn:B; [|discriminate]. injection H as <-. split; eapply get_number_at; eassumption.
Qed.

(** *** Polynomials *)
Definition attribute_class (c a : string) : Prop := field_of formats c a = Some (mkField a Attribute ("", a) (TPrim PInt) One true NoDefault).
Lemma attribute_read y c o a z : parse (TClass c) y = Ok o -> attribute_class c a -> get_integer formats o a = Ok z -> attribute_integer L y a z.
Proof.
  intros P A G. unfold get_integer in G. destruct (get formats o a) as [v|] eqn:Gv; [|discriminate]. cbn [bind] in G.
  destruct (attribute_slot c a a _ y o v A P Gv) as (s & E & ->). exists s. split; [exact E|]. now apply read_integer.
Qed.
Definition content_class (c : string) : Prop := exists q r, field_of formats c "value" = Some (mkField "value" Content q (TPrim PFloat) One r NoDefault).
Lemma content_read y c o r : parse (TClass c) y = Ok o -> content_class c -> get_number num formats o "value" = Ok r -> says_number L num (text_of y) r.
Proof.
  intros P A G. unfold get_number in G. destruct (get formats o "value") as [v|] eqn:Gv; [|discriminate]. cbn [bind] in G.
  rewrite (content_slot c "value" _ y o v A P Gv) in G. now apply read_number.
Qed.
Lemma Forall2_map_res {A B C} (g : B -> res C) (Q : A -> B -> Prop) (R : A -> C -> Prop) : (forall a b c, Q a b -> g b = Ok c -> R a c) ->
  forall la lb lc, Forall2 Q la lb -> collect g lb = Ok lc -> Forall2 R la lc.
Proof.
  intros H la lb lc F2. revert lc. induction F2 as [|a b la lb q F2 IH]; intros lc E; cbn [collect] in E; [injection E as <-; constructor|].
  destruct (g b) as [c|] eqn:G; [|discriminate]. cbn [bind] in E. destruct (collect g lb) as [cs|] eqn:Ec; [|discriminate]. injection E as <-. constructor; eauto.
Qed.
Definition poly1_class (c : string) : Prop := attribute_class c "order1" /\
  exists k, element_field c "coef" = Some ("Coef", TClass k) /\ attribute_class k "exponent1" /\ content_class k.
Lemma poly1_read x p c o q : reads x p (TClass c) o -> poly1_class c -> poly1 num formats o = Ok q -> poly1_at L num x p q.
Proof.
  intros R (O1 & k & Ck & E1 & V) H. unfold poly1 in H. destruct (get_integer formats o "order1") as [n|] eqn:N; [|discriminate]. cbn [bind] in H.
  destruct (get_slot formats o "coef") as [cs|] eqn:G; [|discriminate]. cbn [bind] in H. destruct (collect (coef1 num formats) cs) as [l|] eqn:C; [|discriminate]. injection H as <-.
  destruct (reads_children x p c o "coef" cs _ _ R Ck G) as (y & Ey & P & F2). exists y. split; [exact Ey|]. split; [eapply attribute_read; eassumption|].
  cbn [coefs1]. eapply Forall2_map_res; [|exact F2|exact C]. intros e v cf Pe Hc. cbn in Pe. unfold coef1 in Hc.
  destruct (get_integer formats v "exponent1") as [i|] eqn:I1; [|discriminate]. cbn [bind] in Hc. destruct (get_number num formats v "value") as [r|] eqn:I2; [|discriminate].
  injection Hc as <-. cbn [exponent1 value1]. split; [eapply attribute_read; eassumption|eapply content_read; eassumption].
Qed.
Definition poly2_class (c : string) : Prop := attribute_class c "order1" /\ attribute_class c "order2" /\
  exists k, element_field c "coef" = Some ("Coef", TClass k) /\ attribute_class k "exponent1" /\ attribute_class k "exponent2" /\ content_class k.
Lemma poly2_read x p c o q : reads x p (TClass c) o -> poly2_class c -> poly2 num formats o = Ok q -> poly2_at L num x p q.
Proof.
  intros R (O1 & O2 & k & Ck & E1 & E2 & V) H. unfold poly2 in H. destruct (get_integer formats o "order1") as [n|] eqn:N; [|discriminate]. cbn [bind] in H.
  destruct (get_integer formats o "order2") as [m|] eqn:M; [|discriminate]. cbn [bind] in H.
  destruct (get_slot formats o "coef") as [cs|] eqn:G; [|discriminate]. cbn [bind] in H. destruct (collect (coef2 num formats) cs) as [l|] eqn:C; [|discriminate]. injection H as <-.
  destruct (reads_children x p c o "coef" cs _ _ R Ck G) as (y & Ey & P & F2). exists y. split; [exact Ey|]. split; [eapply attribute_read; eassumption|].
  split; [eapply attribute_read; eassumption|].
  cbn [coefs2]. eapply Forall2_map_res; [|exact F2|exact C]. intros e v cf Pe Hc. cbn in Pe. unfold coef2 in Hc.
  destruct (get_integer formats v "exponent1") as [i|] eqn:I1; [|discriminate]. cbn [bind] in Hc. destruct (get_integer formats v "exponent2") as [j|] eqn:I3; [|discriminate]. cbn [bind] in Hc.
  destruct (get_number num formats v "value") as [r|] eqn:I2; [|discriminate].
  injection Hc as <-. cbn [exponent2_1 exponent2_2 value2]. split; [eapply attribute_read; eassumption|]. split; [eapply attribute_read; eassumption|eapply content_read; eassumption].
Qed.
Definition xyz_class (c : string) : Prop := exists k, poly1_class k /\
  element_field c "x" = Some ("X", TClass k) /\ element_field c "y" = Some ("Y", TClass k) /\ element_field c "z" = Some ("Z", TClass k).
Lemma xyz_read x p c o q : reads x p (TClass c) o -> xyz_class c -> xyzpoly num formats o = Ok q -> xyz_at L num x p q.
Proof.
  intros R (k & K & X & Y & Z) H. unfold xyzpoly in H.
  destruct (get formats o "x") as [a|] eqn:A; [|discriminate]. cbn [bind] in H. destruct (poly1 num formats a) as [a'|] eqn:A'; [|discriminate]. cbn [bind] in H.
  destruct (get formats o "y") as [b|] eqn:B; [|discriminate]. cbn [bind] in H. destruct (poly1 num formats b) as [b'|] eqn:B'; [|discriminate]. cbn [bind] in H.
  destruct (get formats o "z") as [d|] eqn:C; [|discriminate]. cbn [bind] in H. destruct (poly1 num formats d) as [d'|] eqn:C'; [|discriminate]. cbn [bind] in H.
  injection H as <-. repeat split; cbn [poly_x poly_y poly_z]; eapply poly1_read; try eassumption; eapply reads_child; eassumption.
Qed.
(** A part that is not a list is there at most once. *)
Definition single_field (c a : string) : option (string * Ty) :=
  match field_of formats c a with Some f => if is_one f then element_field c a else None | None => None end.
Lemma reads_absent x p c o a s n t : reads x p (TClass c) o -> single_field c a = Some (n, t) -> get_slot formats o a = Ok s -> (forall v, s <> [v]) ->
  elements x (p ++ [n]) = [].
Proof.
  intros R Sf G N. unfold single_field in Sf. destruct (field_of formats c a) as [f|] eqn:Ff; [|discriminate]. destruct (is_one f) eqn:O; [|discriminate].
  destruct (reads_children x p c o a s n t R Sf G) as (y & Ey & P & F2). destruct (slot_filled c a f y o s Ff P G) as (k & parsed & Ek & If & Ep & Fl).
  unfold element_field in Sf. rewrite Ff in Sf. destruct (kind f) eqn:K; try discriminate. unfold fill in Fl. rewrite K in Fl. injection Fl as <-.
  destruct (find_class_ok formats C96_tables c k Ek) as [(_ & ND & _) _].
  assert (Ie : is_element f = true) by (unfold is_element; now rewrite K).
  pose proof (proj1 (parse_children_one parse k f ND If Ie O _ _ _ Ep)) as Le. rewrite elements_app, Ey. cbn [flat_map]. rewrite app_nil_r.
  destruct (filter _ parsed) as [|q [|q' r]]; cbn [map List.length] in *; [now inversion F2|exfalso; eapply N; reflexivity|lia].
Qed.
Lemma reads_root x c o : parse (TClass c) x = Ok o -> reads x [] (TClass c) o.
Proof. intros P. exists x. split; [reflexivity|exact P]. Qed.
End Reading.
