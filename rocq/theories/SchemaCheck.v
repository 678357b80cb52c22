(** Deciding whether an object is typed and complete, and a lexical mapping with exact decimal
    numbers: tools for examples with whole documents. *)
Require Import ZArith NArith String Ascii List Bool Lia Eqdep_dec.
Require Import Verif.Base Verif.Text Verif.TextFacts Verif.SchemaModel Verif.SchemaSpec Verif.SchemaProofs Verif.SchemaProps.
Import ListNotations.
Local Open Scope string_scope.

(** *** Words *)
Fixpoint no_space (s : string) : bool := match s with "" => true | String c r => (negb (is_space c) && no_space r)%bool end.
Definition word_b (s : string) : bool := (negb (String.eqb s "") && no_space s)%bool.
Lemma word_b_sound s : word_b s = true -> is_word s.
Proof.
  unfold word_b. intros H. apply andb_true_iff in H as [N H]. split; [intros ->; discriminate|]. clear N.
  induction s as [|c s IH]; intros i d G; [destruct i; discriminate|]. cbn in H. apply andb_true_iff in H as [Hc H]. destruct i as [|i]; cbn in G.
  - injection G as <-. apply negb_true_iff, Hc.
  - apply (IH H i d G).
Qed.
Lemma word_b_complete s : is_word s -> word_b s = true.
Proof.
  intros [N H]. unfold word_b. destruct (String.eqb_spec s "") as [->|_]; [contradiction|]. cbn [negb andb]. clear N.
  induction s as [|c s IH]; [reflexivity|]. cbn [no_space]. rewrite (H 0%nat c eq_refl). apply IH. intros i d G. apply (H (S i) d G).
Qed.

(** *** Checks *)
Section Checks.
Context {F D T : Type}.
Notation Obj := (Obj F D T).
Notation Value := (Value F D T).
Variable L : Lexical F D T.
Variable S : Schema.

Definition value_b (t : Ty) (v : Value) : bool :=
  match t, v with
  | TPrim PStr, VStr _ | TPrim PInt, VInt _ | TPrim PFloat, VFloat _ | TPrim PBool, VBool _
  | TPrim PDate, VDate _ | TPrim PDateTime, VDateTime _ => true
  | TEnum e, VEnum e' m | TEnumOrStr e, VEnum e' m => (String.eqb e' e && existsb (String.eqb m) (values S e))%bool
  | TEnumOrStr e, VStr s => negb (existsb (String.eqb (collapse s)) (values S e))
  | _, _ => false
  end.
Lemma existsb_In m l : existsb (String.eqb m) l = true <-> In m l.
Proof. rewrite existsb_exists. split; [intros (x & I & E); apply String.eqb_eq in E; subst; exact I|intros I; exists m; split; [exact I|apply String.eqb_refl]]. Qed.
Lemma value_b_sound t v : value_b t v = true -> text_type t /\ value_ok S t v.
Proof.
  destruct t as [[]|e|e|c], v; cbn; intros H; try discriminate; split; try exact I.
  - apply andb_true_iff in H as [A B]. apply String.eqb_eq in A. apply existsb_In in B. auto.
  - intros C. apply existsb_In in C. rewrite C in H. discriminate.
  - apply andb_true_iff in H as [A B]. apply String.eqb_eq in A. apply existsb_In in B. auto.
Qed.
Definition slot_b (f : Field) (s : list Obj) : bool :=
  match default f with
  | NoDefault =>
    (match mult f with
     | One => Nat.leb (List.length s) 1
     | Many => true
     | Tokens => forallb (fun o => word_b (leaf_text L o)) s
     end
     && (negb (is_content f) || match s with [] => true | _ => negb (String.eqb (slot_text L s) "") end))%bool
  | EmptyString => Nat.eqb (List.length s) 1
  | FixedInt z => match s with [Leaf (VInt z')] => (z =? z')%Z | _ => false end
  | FixedBool b => match s with [Leaf (VBool b')] => Bool.eqb b b' | _ => false end
  end.
Lemma slot_b_sound f s : slot_b f s = true -> slot_ok L f s.
Proof.
  unfold slot_b, slot_ok. destruct (default f).
  - intros H. apply andb_true_iff in H as [A B]. split.
    + destruct (mult f); [apply Nat.leb_le, A|exact I|]. apply Forall_forall. intros o Io. rewrite forallb_forall in A. apply word_b_sound, A, Io.
    + intros K N E. unfold is_content in B. rewrite K, E in B. destruct s; [contradiction|discriminate].
  - apply Nat.eqb_eq.
  - destruct s as [|[[]|] [|]]; try discriminate. intros E. apply Z.eqb_eq in E. subst. reflexivity.
  - destruct s as [|[[]|] [|]]; try discriminate. intros E. apply Bool.eqb_prop in E. subst. reflexivity.
Qed.
Fixpoint typed_b (t : Ty) (o : Obj) : bool :=
  match o with
  | Leaf v => value_b t v
  | Inst c slots =>
    match t, find_class S c with
    | TClass c', Some k =>
      (String.eqb c' c &&
       (fix all (ss : list (list Obj)) (fs : list Field) : bool :=
          match ss, fs with
          | [], [] => true
          | s :: sr, f :: fr =>
            (slot_b f s && (fix each (os : list Obj) : bool := match os with [] => true | o :: r => typed_b (ty f) o && each r end) s && all sr fr)%bool
          | _, _ => false
          end) slots (c_fields k))%bool
    | _, _ => false
    end
  end.
Lemma typed_b_sound o : forall t, typed_b t o = true -> typed L S t o.
Proof.
  induction o as [v|c slots IH] using Obj_deep; intros t H.
  - apply value_b_sound, H.
  - cbn [typed_b] in H. destruct t as [| | |c']; try discriminate. destruct (find_class S c) as [k|] eqn:Ek; [|discriminate].
    apply andb_true_iff in H as [E H]. apply String.eqb_eq in E. subst c'. apply shaped_inst. split; [reflexivity|]. exists k. split; [exact Ek|]. clear Ek.
    revert H. generalize (c_fields k). induction IH as [|s sr Hs _ IHr]; intros [|f fr] H; try discriminate; constructor.
    + apply andb_true_iff in H as [H _]. apply andb_true_iff in H as [A B]. split; [apply slot_b_sound, A|]. clear A. induction Hs as [|o s Ho _ IHs]; constructor.
      * apply andb_true_iff in B as [B _]. apply Ho, B.
      * apply andb_true_iff in B as [_ B]. apply IHs, B.
    + apply andb_true_iff in H as [_ H]. apply IHr, H.
Qed.
Fixpoint complete_b (o : Obj) : bool :=
  match o with
  | Leaf _ => true
  | Inst c slots =>
    match find_class S c with
    | None => false
    | Some k =>
      (fix all (ss : list (list Obj)) (fs : list Field) : bool :=
         match ss, fs with
         | s :: sr, f :: fr =>
           ((negb (required f) || match s with [] => false | _ => true end)
            && (fix each (os : list Obj) : bool := match os with [] => true | o :: r => complete_b o && each r end) s && all sr fr)%bool
         | _, _ => true
         end) slots (c_fields k)
    end
  end.
Lemma complete_b_sound o : complete_b o = true -> complete S o.
Proof.
  induction o as [v|c slots IH] using Obj_deep; intros H; [exact I|].
  cbn [complete_b complete] in *. destruct (find_class S c) as [k|]; [|discriminate]. exists k. split; [reflexivity|].
  revert H. generalize (c_fields k). induction IH as [|s sr Hs _ IHr]; intros [|f fr] H; try exact I.
  apply andb_true_iff in H as [H R]. apply andb_true_iff in H as [A B]. split; [|split; [|apply IHr, R]].
  - intros Rq. rewrite Rq in A. destruct s; [discriminate|discriminate].
  - clear A R. induction Hs as [|o s Ho _ IHs]; [exact I|]. apply andb_true_iff in B as [B1 B2]. split; [apply Ho, B1|apply IHs, B2].
Qed.
End Checks.

(** *** Exact decimal numbers *)

(** [m] times ten to the [e]. *)
Definition Decimal : Set := (Z * Z)%type.
Definition exponent_mark (c : ascii) : bool := match c with "E"%char | "e"%char => true | _ => false end.
Definition point_mark (c : ascii) : bool := match c with "."%char => true | _ => false end.
(** The text before the first such character, and the text after it. *)
Fixpoint split_at (p : ascii -> bool) (s : string) : string * option string :=
  match s with
  | "" => ("", None)
  | String c r => if p c then ("", Some r) else let '(a, b) := split_at p r in (String c a, b)
  end.
Definition read_unsigned (s : string) : option Decimal :=
  let '(a, b) := split_at point_mark s in
  let b := match b with Some b => b | None => "" end in
  option_map (fun n => (Z.of_N n, (- Z.of_nat (String.length b))%Z)) (read_dec (a ++ b)).
Definition read_mantissa (s : string) : option Decimal :=
  match s with
  | String "-" r => option_map (fun d => (- fst d, snd d)%Z) (read_unsigned r)
  | String "+" r => read_unsigned r
  | _ => read_unsigned s
  end.
Definition read_signed (s : string) : option Z := match s with String "+" r => read_Z r | _ => read_Z s end.
Definition read_decimal (s : string) : option Decimal :=
  let '(m, e) := split_at exponent_mark s in
  match read_mantissa m, match e with Some e => read_signed e | None => Some 0%Z end with
  | Some (n, k), Some z => Some (n, (k + z)%Z)
  | _, _ => None
  end.
Definition show_decimal (d : Decimal) : string := show_Z (fst d) ++ "E" ++ show_Z (snd d).
(** Dates and times are any words. *)
Definition Word : Set := { s : string | word_b s = true }.
Definition read_word (s : string) : option Word :=
  match bool_dec (word_b s) true with left p => Some (exist _ s p) | right _ => None end.
Definition exact : Lexical Decimal Word Word :=
  mkLexical show_Z read_Z show_decimal read_decimal (@proj1_sig _ _) read_word (@proj1_sig _ _) read_word.

Lemma read_word_shown w : read_word (proj1_sig w) = Some w.
Proof.
  destruct w as [s p]. unfold read_word. cbn [proj1_sig]. destruct (bool_dec (word_b s) true) as [q|N]; [|contradiction].
  f_equal. f_equal. apply UIP_dec, bool_dec.
Qed.
Lemma split_at_app p : forall a c r, (forall i d, String.get i a = Some d -> p d = false) -> p c = true -> split_at p (a ++ String c r) = (a, Some r).
Proof.
  induction a as [|d a IH]; intros c r N P; cbn; [rewrite P; reflexivity|]. rewrite (N 0%nat d eq_refl), IH; [reflexivity| |exact P].
  intros i x G. apply (N (S i) x G).
Qed.
Lemma split_at_none p : forall a, (forall i d, String.get i a = Some d -> p d = false) -> split_at p a = (a, None).
Proof. induction a as [|d a IH]; intros N; cbn; [reflexivity|]. rewrite (N 0%nat d eq_refl), IH; [reflexivity|]. intros i x G. apply (N (S i) x G). Qed.
Lemma show_N_digits n : forall i c, String.get i (show_N n) = Some c -> digit_val c <> None.
Proof. intros i c G. apply (read_acc_word (show_N n) 0 n) with (i := i); [apply read_show|exact G]. Qed.
Lemma digit_marks c : digit_val c <> None -> exponent_mark c = false /\ point_mark c = false.
Proof. destruct c as [[] [] [] [] [] [] [] []]; cbn; intros H; split; try reflexivity; exfalso; apply H; reflexivity. Qed.
Lemma show_Z_marks z : forall i c, String.get i (show_Z z) = Some c -> exponent_mark c = false.
Proof.
  unfold show_Z. destruct (z <? 0)%Z; intros i c G; [destruct i as [|i]; cbn in G; [injection G as <-; reflexivity|]|]; apply digit_marks, (show_N_digits _ i c G).
Qed.
Lemma append_empty s : s ++ "" = s.
Proof. induction s as [|c s IH]; [reflexivity|]. cbn. rewrite IH. reflexivity. Qed.
Lemma read_show_unsigned n : read_unsigned (show_N n) = Some (Z.of_N n, 0%Z).
Proof.
  unfold read_unsigned. rewrite split_at_none by (intros i c G; apply digit_marks, (show_N_digits n i c G)). rewrite append_empty.
  rewrite (read_dec_acc _ (show_nonempty _)), read_show. reflexivity.
Qed.
Lemma show_N_first n : exists c r, show_N n = String c r /\ digit_val c <> None.
Proof.
  destruct (show_N n) as [|c r] eqn:E; [exfalso; apply (show_nonempty n), E|]. exists c, r. split; [reflexivity|].
  apply (show_N_digits n 0 c). rewrite E. reflexivity.
Qed.
Lemma read_show_mantissa z : read_mantissa (show_Z z) = Some (z, 0%Z).
Proof.
  unfold show_Z. destruct (Z.ltb_spec z 0).
  - cbn [read_mantissa]. rewrite read_show_unsigned. cbn. f_equal. f_equal. lia.
  - destruct (show_N_first (Z.to_N z)) as (c & r & E & Dc).
    assert (X : read_unsigned (String c r) = Some (z, 0%Z)) by (rewrite <- E, read_show_unsigned; f_equal; f_equal; lia).
    rewrite E. unfold read_mantissa. destruct c as [[] [] [] [] [] [] [] []]; try exact X; exfalso; apply Dc; reflexivity.
Qed.
Lemma read_show_signed z : read_signed (show_Z z) = Some z.
Proof.
  assert (X : read_Z (show_Z z) = Some z) by (apply (proj1 decimal_ok)).
  unfold read_signed. destruct (show_Z z) as [|c r] eqn:E; [exact X|]. destruct c as [[] [] [] [] [] [] [] []]; try exact X. exfalso.
  unfold show_Z in E. destruct (z <? 0)%Z; [discriminate|]. destruct (show_N_first (Z.to_N z)) as (c & r' & E' & Dc). rewrite E' in E. injection E as -> _. apply Dc. reflexivity.
Qed.
Lemma is_word_app a b : is_word a -> (forall i c, String.get i b = Some c -> is_space c = false) -> is_word (a ++ b).
Proof.
  intros [N H] B. split; [destruct a; [contradiction|discriminate]|]. clear N. induction a as [|c a IH]; [exact B|].
  intros [|i] d G; cbn in G; [injection G as <-; apply (H 0%nat c eq_refl)|]. apply (IH (fun i x G => H (S i) x G) i d G).
Qed.
Lemma exact_ok : lexical_ok exact.
Proof.
  destruct decimal_ok as (RI & NI & _ & _ & _ & _ & _ & _ & WI & _).
  repeat split; cbn [exact show_int read_int show_float read_float show_date read_date show_datetime read_datetime].
  - exact RI.
  - intros [m e]. unfold read_decimal, show_decimal. cbn [fst snd append]. rewrite split_at_app by (apply show_Z_marks || reflexivity).
    rewrite read_show_mantissa, read_show_signed. reflexivity.
  - apply read_word_shown.
  - apply read_word_shown.
  - apply WI.
  - apply WI.
  - intros C. apply (f_equal String.length) in C. unfold show_decimal in C. destruct (show_Z (fst f)); discriminate.
  - intros i c G. unfold show_decimal in G.
    assert (W : is_word (show_Z (fst f) ++ "E" ++ show_Z (snd f))).
    { apply is_word_app; [apply WI|]. intros [|j] d Gd; cbn in Gd; [injection Gd as <-; reflexivity|apply (proj2 (WI (snd f)) j d Gd)]. }
    apply (proj2 W i c G).
  - intros C. destruct d as [s p]. cbn in C. subst s. discriminate.
  - intros i c G. destruct d as [s p]. apply (proj2 (word_b_sound s p) i c G).
  - intros C. destruct t as [s p]. cbn in C. subst s. discriminate.
  - intros i c G. destruct t as [s p]. apply (proj2 (word_b_sound s p) i c G).
Qed.
