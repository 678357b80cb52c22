(** Deciding whether a document is valid, with the exact decimal numbers of SchemaCheck.v: a tool for
    examples with whole documents. *)
Require Import ZArith Reals String Ascii List Bool Lia Lra.
Require Import Verif.Base Verif.Text Verif.SchemaModel Verif.SchemaSpec Verif.SchemaProofs Verif.SchemaCheck Verif.SarDocProps Verif.XsdModel Verif.XsdSpec Verif.XsdProofs.
Import ListNotations.
Local Open Scope string_scope.

(** Texts denote the values they are read as; every text matches every pattern. *)
Definition exact_texts : XsdTexts Decimal Word Word :=
  mkXsdTexts (fun s z => read_int exact s = Some z) (fun s f => read_float exact s = Some f)
    (fun s d => read_date exact s = Some d) (fun s t => read_datetime exact s = Some t) (fun _ _ => True) decimal_value.
Lemma exact_agrees : agrees exact_texts exact.
Proof.
  destruct exact_ok as (A & _ & B & _ & C & _ & E & _). unfold agrees. cbn [exact_texts int_text double_text date_text datetime_text].
  repeat split; auto.
Qed.

(** Comparing a decimal number with an integer. *)
Definition int_le_decimal (l : Z) (d : Decimal) : bool :=
  if (0 <=? snd d)%Z then (l <=? fst d * 10 ^ snd d)%Z else (l * 10 ^ (- snd d) <=? fst d)%Z.
Definition decimal_le_int (d : Decimal) (h : Z) : bool :=
  if (0 <=? snd d)%Z then (fst d * 10 ^ snd d <=? h)%Z else (fst d <=? h * 10 ^ (- snd d))%Z.
Definition decimal_lt_int (d : Decimal) (h : Z) : bool :=
  if (0 <=? snd d)%Z then (fst d * 10 ^ snd d <? h)%Z else (fst d <? h * 10 ^ (- snd d))%Z.
Lemma power_int e : (0 <= e)%Z -> powerRZ 10 e = IZR (10 ^ e).
Proof. intros H. rewrite <- (Z2Nat.id e H). rewrite <- pow_powerRZ, <- pow_IZR. reflexivity. Qed.
Lemma decimal_scaled m e : (e < 0)%Z -> (0 < IZR (10 ^ (- e)))%R /\ decimal_value (m, e) = (IZR m / IZR (10 ^ (- e)))%R.
Proof.
  intros H. assert (P : (0 < 10 ^ (- e))%Z) by (apply Z.pow_pos_nonneg; lia). apply IZR_lt in P. split; [exact P|]. unfold decimal_value. cbn [fst snd].
  rewrite <- (power_int (- e)) by lia. replace e with (- - e)%Z at 1 by lia. rewrite powerRZ_neg'. reflexivity.
Qed.
Lemma int_le_decimal_sound l d : int_le_decimal l d = true -> (IZR l <= decimal_value d)%R.
Proof.
  destruct d as [m e]. unfold int_le_decimal. cbn [fst snd]. destruct (Z.leb_spec 0 e) as [P|N]; intros H; apply Z.leb_le, IZR_le in H.
  - unfold decimal_value. cbn [fst snd]. rewrite (power_int e P), <- mult_IZR. exact H.
  - destruct (decimal_scaled m e N) as [Q ->]. rewrite mult_IZR in H. apply Rmult_le_reg_r with (1 := Q). unfold Rdiv. rewrite Rmult_assoc, Rinv_l; lra.
Qed.
Lemma decimal_le_int_sound d h : decimal_le_int d h = true -> (decimal_value d <= IZR h)%R.
Proof.
  destruct d as [m e]. unfold decimal_le_int. cbn [fst snd]. destruct (Z.leb_spec 0 e) as [P|N]; intros H; apply Z.leb_le, IZR_le in H.
  - unfold decimal_value. cbn [fst snd]. rewrite (power_int e P), <- mult_IZR. exact H.
  - destruct (decimal_scaled m e N) as [Q ->]. rewrite mult_IZR in H. apply Rmult_le_reg_r with (1 := Q). unfold Rdiv. rewrite Rmult_assoc, Rinv_l; lra.
Qed.
Lemma decimal_lt_int_sound d h : decimal_lt_int d h = true -> (decimal_value d < IZR h)%R.
Proof.
  destruct d as [m e]. unfold decimal_lt_int. cbn [fst snd]. destruct (Z.leb_spec 0 e) as [P|N]; intros H; apply Z.ltb_lt, IZR_lt in H.
  - unfold decimal_value. cbn [fst snd]. rewrite (power_int e P), <- mult_IZR. exact H.
  - destruct (decimal_scaled m e N) as [Q ->]. rewrite mult_IZR in H. apply Rmult_lt_reg_r with (1 := Q). unfold Rdiv. rewrite Rmult_assoc, Rinv_l; lra.
Qed.

Section Check.
Variable empty_lists : bool.
Definition longest_b {A} (m : option nat) (length : A -> nat) (a : A) : bool := match m with Some n => Nat.leb (length a) n | None => true end.
Lemma longest_b_sound {A} m (length : A -> nat) a : longest_b m length a = true -> longest m length a.
Proof. destruct m; cbn; [apply Nat.leb_le|trivial]. Qed.
Fixpoint simple_b (s : Simple) (text : string) : bool :=
  match s with
  | SString c m _ => longest_b m String.length (if c then collapse text else text)
  | SEnum c vs => existsb (String.eqb (if c then collapse text else text)) vs
  | SInt lo hi =>
    match read_int exact text with
    | Some z => (match lo with Some l => l <=? z | None => true end && match hi with Some h => z <=? h | None => true end)%bool%Z
    | None => false
    end
  | SDouble lo hi =>
    match read_float exact text with
    | Some f => (match lo with Some l => int_le_decimal l f | None => true end
                 && match hi with Some (h, true) => decimal_le_int f h | Some (h, false) => decimal_lt_int f h | None => true end)%bool
    | None => false
    end
  | SBoolean only =>
    match read_bool (collapse text), only with Some b, Some b' => Bool.eqb b b' | Some _, None => true | None, _ => false end
  | SDate => match read_date exact text with Some _ => true | None => false end
  | SDateTime => match read_datetime exact text with Some _ => true | None => false end
  | SList s m => (forallb (simple_b s) (words text) && longest_b m (@List.length string) (words text) && (empty_lists || match words text with [] => false | _ => true end))%bool
  | SUnion a b => if simple_b a text then true else simple_b b text
  end.
Lemma simple_b_sound s : forall text, simple_b s text = true -> valid_simple exact_texts empty_lists s text.
Proof.
  induction s as [c m ps|c vs|lo hi|lo hi|only| | |s IH m|a IHa b IHb]; intros text H; cbn [simple_b valid_simple] in *.
  - split; [apply longest_b_sound, H|]. destruct ps; [left; reflexivity|right; left; exact I].
  - apply existsb_In, H.
  - destruct (read_int exact text) as [z|] eqn:E; [|discriminate]. exists z. split; [exact E|]. apply andb_true_iff in H as [A B].
    split; [destruct lo; [apply Z.leb_le, A|exact I]|destruct hi; [apply Z.leb_le, B|exact I]].
  - destruct (read_float exact text) as [z|] eqn:E; [|discriminate]. exists z. split; [exact E|]. apply andb_true_iff in H as [A B].
    split; [destruct lo; [apply int_le_decimal_sound, A|exact I]|destruct hi as [[h []]|]; [apply decimal_le_int_sound, B|apply decimal_lt_int_sound, B|exact I]].
  - unfold read_bool in H. cbn [In]. destruct (String.eqb_spec (collapse text) "true") as [<-|]; [left|].
    { split; [tauto|]. destruct only as [[]|]; discriminate. }
    destruct (String.eqb_spec (collapse text) "1") as [<-|]; [left|].
    { split; [tauto|]. destruct only as [[]|]; discriminate. }
    destruct (String.eqb_spec (collapse text) "false") as [<-|]; [right|].
    { split; [tauto|]. destruct only as [[]|]; discriminate. }
    destruct (String.eqb_spec (collapse text) "0") as [<-|]; [right|discriminate]. split; [tauto|]. destruct only as [[]|]; discriminate.
  - destruct (read_date exact text) as [d|] eqn:E; [|discriminate]. exists d. exact E.
  - destruct (read_datetime exact text) as [d|] eqn:E; [|discriminate]. exists d. exact E.
  - apply andb_true_iff in H as [H C]. apply andb_true_iff in H as [A B]. split; [|split; [apply longest_b_sound, B|]].
    + apply Forall_forall. intros w Iw. rewrite forallb_forall in A. apply IH, A, Iw.
    + apply orb_true_iff in C as [C|C]; [left; exact C|right]. destruct (words text); [discriminate|discriminate].
  - destruct (simple_b a text) eqn:E; [left; apply IHa, E|right; apply IHb, H].
Qed.

(** The elements that a particle takes from the front of a list, as many as it can, and the others. *)
Notation Checked := (QName * (XTy -> bool))%type.
Fixpoint span (q : QName) (vs : list Checked) : list Checked * list Checked :=
  match vs with
  | [] => ([], [])
  | v :: r => if qname_eqb (fst v) q then let '(a, b) := span q r in (v :: a, b) else ([], vs)
  end.
Fixpoint take (p : Particle) (vs : list Checked) : option (list Checked) :=
  match p with
  | PElement q t least most =>
    let '(a, b) := span q vs in
    if (forallb (fun v => snd v t) a && Nat.leb least (List.length a) && longest_b most (@List.length Checked) a)%bool then Some b else None
  | PSequence ps =>
    (fix each (ps : list Particle) (vs : list Checked) : option (list Checked) :=
       match ps with [] => Some vs | p :: r => match take p vs with Some vs' => each r vs' | None => None end end) ps vs
  | PChoice ps =>
    (fix any (ps : list Particle) : option (list Checked) :=
       match ps with
       | [] => None
       | p :: r =>
         match take p vs with
         | Some b => if Nat.ltb (List.length b) (List.length vs) then Some b else match any r with Some b' => Some b' | None => Some b end
         | None => any r
         end
       end) ps
  | POptional p => match take p vs with Some b => Some b | None => Some vs end
  end.
Definition checked (v : Checked) : Judged := (fst v, fun t => snd v t = true).
Lemma span_spec q : forall vs a b, span q vs = (a, b) -> vs = (a ++ b)%list /\ Forall (fun v => fst v = q) a.
Proof.
  induction vs as [|v vs IH]; intros a b E; cbn [span] in E; [injection E as <- <-; split; [reflexivity|constructor]|].
  destruct (qname_eqb (fst v) q) eqn:Q; [|injection E as <- <-; split; [reflexivity|constructor]].
  destruct (span q vs) as [a' b'] eqn:Es. injection E as <- <-. destruct (IH _ _ eq_refl) as [-> H]. split; [reflexivity|]. constructor; [apply qname_eqb_spec, Q|exact H].
Qed.
Lemma take_sound p : forall vs b, take p vs = Some b -> exists a, vs = (a ++ b)%list /\ matches p (map checked a).
Proof.
  induction p as [q t l m|ps IH|ps IH|p IH] using Particle_deep; intros vs b E; cbn [take] in E.
  - destruct (span q vs) as [a b'] eqn:Es. destruct (span_spec q vs a b' Es) as [-> H]. destruct (_ && _)%bool eqn:C; [|discriminate]. injection E as <-.
    apply andb_true_iff in C as [C C3]. apply andb_true_iff in C as [C1 C2]. exists a. split; [reflexivity|]. split.
    + rewrite Forall_map. apply Forall_forall. intros v Iv. rewrite Forall_forall in H. rewrite forallb_forall in C1. split; [apply (H v Iv)|apply (C1 v Iv)].
    + rewrite map_length. split; [apply Nat.leb_le, C2|]. destruct m; cbn in *; [rewrite map_length; apply Nat.leb_le, C3|exact I].
  - revert vs E. induction IH as [|p ps Hp _ IHs]; intros vs E; [injection E as ->; exists []; split; reflexivity|].
    destruct (take p vs) as [vs'|] eqn:Ep; [|discriminate]. destruct (Hp vs vs' Ep) as (a & -> & Ma). destruct (IHs vs' E) as (a' & -> & Ma').
    exists (a ++ a')%list. split; [apply app_assoc|]. apply matches_sequence. rewrite map_app. do 2 eexists. split; [reflexivity|]. split; [exact Ma|exact Ma'].
  - revert E. induction IH as [|p ps Hp _ IHs]; intros E; [discriminate|].
    set (r := (fix any (ps : list Particle) : option (list Checked) := _) ps) in *. change (match take p vs with
      | Some b => if Nat.ltb (List.length b) (List.length vs) then Some b else match r with Some b' => Some b' | None => Some b end
      | None => r end = Some b) in E.
    assert (R : r = Some b -> exists a, vs = (a ++ b)%list /\ matches (PChoice (p :: ps)) (map checked a)).
    { intros E'. destruct (IHs E') as (a & Ea & Ma). exists a. split; [exact Ea|]. apply matches_choice. right. exact Ma. }
    destruct (take p vs) as [b0|] eqn:Ep; [|apply (R E)]. destruct (Hp vs b0 Ep) as (a & Ea & Ma).
    assert (Q : b0 = b -> exists a, vs = (a ++ b)%list /\ matches (PChoice (p :: ps)) (map checked a)).
    { intros <-. exists a. split; [exact Ea|]. apply matches_choice. left. exact Ma. }
    destruct (Nat.ltb _ _); [injection E as E; apply Q, E|]. clearbody r. destruct r as [b'|].
    + injection E as ->. apply R. reflexivity.
    + injection E as E. apply Q, E.
  - destruct (take p vs) as [b'|] eqn:Ep.
    + injection E as <-. destruct (IH vs b' Ep) as (a & Ea & Ma). exists a. split; [exact Ea|right; exact Ma].
    + injection E as <-. exists []. split; [reflexivity|left; reflexivity].
Qed.

Definition attribute_b (attributes : list (QName * string)) (a : XAttribute) : bool :=
  match find_text (xa_name a) attributes with Some s => simple_b (xa_type a) s | None => negb (xa_required a) end.
Fixpoint valid_b (x : Xml) : XTy -> bool :=
  let '(Node _ attributes text children) := x in
  let checks := map (fun y => (tag y, valid_b y)) children in
  fun t =>
  match t with
  | XSimple s => match children with [] => simple_b s text | _ => false end
  | XComplex n =>
    match find_xclass all_types n with
    | Some k =>
      match take (x_particle k) checks with
      | Some [] => if match x_text k with Some s => simple_b s text | None => true end then forallb (attribute_b attributes) (x_attributes k) else false
      | _ => false
      end
    | None => false
    end
  end.
Lemma valid_b_sound x : forall t, valid_b x t = true -> valid exact_texts empty_lists all_types x t.
Proof.
  induction x as [q a text kids IH] using Xml_deep. intros t H. destruct t as [s|n].
  - cbn [valid_b valid] in *. destruct kids; [|discriminate]. split; [reflexivity|apply simple_b_sound, H].
  - cbn [valid_b valid] in *. destruct (find_xclass all_types n) as [k|]; [|discriminate]. exists k. split; [reflexivity|].
    destruct (take (x_particle k) _) as [[|]|] eqn:Et; try discriminate. destruct (take_sound _ _ _ Et) as (vs & Ev & M). rewrite app_nil_r in Ev. subst vs.
    destruct (match x_text k with Some s => simple_b s text | None => true end) eqn:Ex; [|discriminate]. split; [|split].
    + apply (matches_mono _ _ _ M). clear - IH. induction IH as [|y kids Hy _ IHk]; cbn [map]; constructor; [|exact IHk]. cbn [checked fst snd]. split; [reflexivity|]. intros t _ V. apply Hy, V.
    + destruct (x_text k); [apply simple_b_sound, Ex|exact I].
    + apply Forall_forall. intros b Ib. rewrite forallb_forall in H. specialize (H b Ib). unfold attribute_b in H. unfold valid_attribute.
      destruct (find_text (xa_name b) a); [apply simple_b_sound, H|apply negb_true_iff, H].
Qed.
Definition document_valid_b (x : Xml) : bool := existsb (fun r => if qname_eqb (fst r) (tag x) then valid_b x (XComplex (snd r)) else false) xsd_roots.
Lemma document_valid_b_sound x : document_valid_b x = true -> valid_document exact_texts empty_lists x.
Proof.
  unfold document_valid_b. intros H. apply existsb_exists in H as ([q n] & I & E). cbn [fst snd] in E. destruct (qname_eqb q (tag x)) eqn:Q; [|discriminate].
  apply qname_eqb_spec in Q. subst q. exists n. split; [exact I|apply valid_b_sound, E].
Qed.
End Check.
