(** Lemmas about TRE and DES parsing. *)
Require Import ZArith NArith Reals String Ascii List Bool Lia.
Require Import Verif.Base Verif.Text Verif.TextFacts Verif.SarMetaModel Verif.TreModel Verif.TreSpec.
Import ListNotations.
Local Open Scope string_scope.

Lemma named_spec t n e : named t n e = true <-> is_named t n e.
Proof.
  unfold named, is_named. rewrite andb_true_iff, String.eqb_eq. destruct (attr e "name") as [m|].
  - rewrite String.eqb_eq. split; [intros [A B]; split; [exact A | congruence] | intros [A B]; split; [exact A | congruence]].
  - split; [intros [_ B]; discriminate | intros [_ B]; discriminate].
Qed.

Lemma find_split {A} (p : A -> bool) l x : List.find p l = Some x <->
  exists a b, l = (a ++ x :: b)%list /\ p x = true /\ forall y, In y a -> p y = false.
Proof.
  induction l as [|h r IH]; cbn [List.find].
  - split; [discriminate|]. intros [a [b [E _]]]. destruct a; discriminate.
  - destruct (p h) eqn:P.
    + split.
      * intros E; injection E as ->. exists [], r. split; [reflexivity|]. split; [exact P | intros y []].
      * intros [a [b [E [Px N]]]]. destruct a as [|h' a]; cbn in E; injection E as -> ->; [reflexivity|].
        rewrite (N h') in P by (left; reflexivity). discriminate.
    + rewrite IH. split.
      * intros [a [b [E [Px N]]]]. exists (h :: a), b. split; [cbn; rewrite E; reflexivity|].
        split; [exact Px|]. intros y [<- | I]; [exact P | apply N; exact I].
      * intros [a [b [E [Px N]]]]. destruct a as [|h' a]; cbn in E; injection E as -> E.
        { congruence. }
        exists a, b. split; [exact E|]. split; [exact Px|]. intros y I. apply N. right; exact I.
Qed.

Lemma find_named_spec e t n f : find_named e t n = Some f <-> first_named e t n f.
Proof.
  unfold find_named, first_named. rewrite find_split. split; intros [a [b [E [P N]]]]; exists a, b.
  - split; [exact E|]. split; [apply named_spec; exact P|]. intros x I C. apply named_spec in C. rewrite N in C by exact I. discriminate.
  - split; [exact E|]. split; [apply named_spec; exact P|]. intros x I. destruct (named t n x) eqn:Q; [|reflexivity].
    exfalso. apply (N x I). apply named_spec. exact Q.
Qed.
Lemma find_named_none e t n : find_named e t n = None <-> forall x, In x (children_of e) -> ~ is_named t n x.
Proof.
  unfold find_named. split.
  - intros F x I C. apply named_spec in C. rewrite (List.find_none _ _ F x I) in C. discriminate.
  - intros H. destruct (List.find _ _) as [f|] eqn:F; [|reflexivity]. apply List.find_some in F.
    destruct F as [I P]. exfalso. apply (H f I). apply named_spec. exact P.
Qed.

Lemma first_named_fun e t n f g : first_named e t n f -> first_named e t n g -> f = g.
Proof. rewrite <- !find_named_spec. congruence. Qed.
Lemma field_text_fun e n s s' : field_text e n s -> field_text e n s' -> s = s'.
Proof. intros [f [F V]] [g [G W]]. rewrite (first_named_fun _ _ _ _ _ F G) in V. congruence. Qed.

Lemma field_value {A} e n (c : string -> option A) a :
  get_tre_field_value e n c = Ok a <-> exists s, field_text e n s /\ c s = Some a.
Proof.
  unfold get_tre_field_value, field_text. destruct (find_named e "field" n) as [f|] eqn:F.
  - apply find_named_spec in F. split.
    + intros H. destruct (attr f "value") as [s|] eqn:V; [|discriminate]. destruct (c s) as [a'|] eqn:Cv; [|discriminate].
      injection H as ->. exists s. split; [exists f; split; assumption | exact Cv].
    + intros [s [[g [G V]] Cv]]. rewrite (first_named_fun _ _ _ _ _ F G), V, Cv. reflexivity.
  - split; [discriminate|]. intros [s [[g [G _]] _]]. apply find_named_spec in G. congruence.
Qed.
Lemma field_error {A} e n (c : string -> option A) x : get_tre_field_value e n c = Err x -> x = ValueError.
Proof.
  unfold get_tre_field_value. destruct (find_named e "field" n) as [f|]; [|congruence].
  destruct (attr f "value") as [s|]; [|congruence]. destruct (c s); congruence.
Qed.

(** *** Coefficient lists *)

Lemma group_value_spec cv g iv : group_value cv g = Ok iv <-> group_is cv g iv.
Proof.
  unfold group_value, group_is. split.
  - intros H. destruct (attr g "index") as [s|]; [|discriminate]. destruct (to_int cv s) as [i|] eqn:I; [|discriminate].
    destruct (children_of g) as [|f rest]; [discriminate|]. destruct (attr f "value") as [v|] eqn:V; [|discriminate].
    destruct (to_float cv v) as [x|] eqn:X; [|discriminate]. injection H as <-.
    exists s, f, rest, v. repeat split; assumption.
  - intros [s [f [rest [v [A [B [C [D E]]]]]]]]. rewrite A, B, C, D, E. destruct iv; reflexivity.
Qed.

Lemma replace_nth_length {A} (v : A) l : forall k, List.length (replace_nth k v l) = List.length l.
Proof. induction l as [|x r IH]; intros [|k]; cbn; try reflexivity; rewrite IH; reflexivity. Qed.
Lemma replace_nth_nth {A} (v d : A) l : forall k j, (k < List.length l)%nat ->
  nth j (replace_nth k v l) d = if Nat.eqb k j then v else nth j l d.
Proof.
  induction l as [|x r IH]; intros k j L; cbn in L; [lia|].
  destruct k as [|k], j as [|j]; cbn; try reflexivity. apply IH. lia.
Qed.
Lemma py_index_lt n i k : py_index n i = Some k -> (k < n)%nat.
Proof.
  unfold py_index. destruct ((0 <=? i) && (i <? Z.of_nat n))%Z eqn:E1.
  - apply andb_true_iff in E1. rewrite Z.leb_le, Z.ltb_lt in E1. intros H; injection H as <-. lia.
  - destruct ((- Z.of_nat n <=? i) && (i <? 0))%Z eqn:E2; [|discriminate].
    apply andb_true_iff in E2. rewrite Z.leb_le, Z.ltb_lt in E2. intros H; injection H as <-. lia.
Qed.
Lemma py_index_some n i : (exists k, py_index n i = Some k) <-> (- Z.of_nat n <= i < Z.of_nat n)%Z.
Proof.
  unfold py_index. destruct ((0 <=? i) && (i <? Z.of_nat n))%Z eqn:E1.
  - apply andb_true_iff in E1. rewrite Z.leb_le, Z.ltb_lt in E1. split; [lia | intros _; eexists; reflexivity].
  - destruct ((- Z.of_nat n <=? i) && (i <? 0))%Z eqn:E2.
    + apply andb_true_iff in E2. rewrite Z.leb_le, Z.ltb_lt in E2. split; [lia | intros _; eexists; reflexivity].
    + split; [intros [k H]; discriminate|]. intros H. exfalso.
      apply andb_false_iff in E1. apply andb_false_iff in E2. rewrite Z.leb_gt, Z.ltb_ge in E1. rewrite Z.leb_gt, Z.ltb_ge in E2. lia.
Qed.

Lemma find_app {A} (p : A -> bool) a b :
  List.find p (a ++ b)%list = match List.find p a with Some x => Some x | None => List.find p b end.
Proof. induction a as [|x r IH]; cbn; [reflexivity|]. destruct (p x); [reflexivity | exact IH]. Qed.

Lemma fill_groups_spec cv gs ivs : Forall2 (group_is cv) gs ivs -> forall l,
  Forall (fun iv => (- Z.of_nat (List.length l) <= fst iv < Z.of_nat (List.length l))%Z) ivs ->
  exists l', fill_groups cv gs l = Ok l' /\ List.length l' = List.length l
  /\ forall k, (k < List.length l)%nat -> nth k l' 0%R =
       match List.find (fun iv => match py_index (List.length l) (fst iv) with Some p => Nat.eqb p k | None => false end) (rev ivs) with
       | Some iv => snd iv | None => nth k l 0%R end.
Proof.
  induction 1 as [|g iv gs ivs G _ IH]; intros l F.
  - exists l. split; [reflexivity|]. split; [reflexivity|]. intros k _. reflexivity.
  - inversion F as [|? ? F1 F2]; subst. apply group_value_spec in G. cbn [fill_groups]. rewrite G. cbn [bind].
    destruct (proj2 (py_index_some (List.length l) (fst iv)) F1) as [p P].
    unfold py_set. rewrite P. cbn [bind]. pose proof (py_index_lt _ _ _ P) as Lp.
    destruct (IH (replace_nth p (snd iv) l)) as [l' [E [L N]]].
    { rewrite replace_nth_length. exact F2. }
    rewrite replace_nth_length in L, N. exists l'. split; [exact E|]. split; [exact L|].
    intros k Lk. rewrite (N k Lk). cbn [rev]. rewrite find_app.
    destruct (List.find _ (rev ivs)) as [w|]; [reflexivity|]. cbn [List.find]. rewrite P.
    rewrite replace_nth_nth by exact Lp. destruct (Nat.eqb p k); reflexivity.
Qed.

Lemma fill_groups_app cv a : forall b l, fill_groups cv (a ++ b)%list l = bind (fill_groups cv a l) (fill_groups cv b).
Proof.
  induction a as [|g r IH]; intros b l; [reflexivity|]. cbn [app fill_groups].
  destruct (group_value cv g) as [iv|e]; cbn [bind]; [|reflexivity].
  destruct (py_set l (fst iv) (snd iv)) as [l'|e]; cbn [bind]; [apply IH | reflexivity].
Qed.

(** *** Fixed-width text *)

Lemma spaces_length k : String.length (spaces k) = k.
Proof. induction k as [|k IH]; cbn; [reflexivity | rewrite IH; reflexivity]. Qed.
Lemma right_justify_length w s : String.length (right_justify w s) = Nat.max w (String.length s).
Proof. unfold right_justify. rewrite string_app_length, spaces_length. lia. Qed.
Lemma right_justify_spec w s : (String.length s <= w)%nat -> right_justified w s (right_justify w s).
Proof.
  intros L. exists (w - String.length s)%nat. split; [reflexivity|]. rewrite right_justify_length. lia.
Qed.

Lemma substring_all s : substring 0 (String.length s) s = s.
Proof. induction s as [|c r IH]; cbn; [reflexivity | rewrite IH; reflexivity]. Qed.
Lemma substring_prefix a : forall b, substring 0 (String.length a) (a ++ b) = a.
Proof. induction a as [|c r IH]; intros b; cbn; [destruct b; reflexivity | rewrite IH; reflexivity]. Qed.
Lemma substring_skip a : forall b n m, substring (String.length a + n) m (a ++ b) = substring n m b.
Proof. induction a as [|c r IH]; intros b n m; cbn; [reflexivity | apply IH]. Qed.
Lemma substring_mid a b c : substring (String.length a) (String.length b) (a ++ b ++ c) = b.
Proof. replace (String.length a) with (String.length a + 0)%nat by lia. rewrite substring_skip. apply substring_prefix. Qed.

(** *** Prologs *)

Lemma prefix_cons c p d s : String.prefix (String c p) (String d s) = if ascii_dec c d then String.prefix p s else false.
Proof. reflexivity. Qed.
Lemma prefix_spec p : forall s, String.prefix p s = true <-> exists r, s = p ++ r.
Proof.
  induction p as [|c p IH]; intros s.
  - split; [intros _; exists s; reflexivity | intros _; destruct s; reflexivity].
  - destruct s as [|d s].
    + split; [discriminate | intros [r E]; discriminate].
    + rewrite prefix_cons. destruct (ascii_dec c d) as [-> | N].
      * rewrite IH. split; intros [r E]; exists r; [cbn; rewrite E; reflexivity | cbn in E; injection E as E; exact E].
      * split; [discriminate | intros [r E]; cbn in E; injection E as E _; congruence].
Qed.

Lemma after_prolog_shorter s : forall r, after_prolog s = Some r -> (String.length r < String.length s)%nat.
Proof.
  induction s as [|c s IH]; intros r H; [discriminate|]. cbn [after_prolog] in H.
  destruct s as [|d s']; [discriminate|].
  destruct (Ascii.eqb c "?" && Ascii.eqb d ">")%bool; [injection H as <-; cbn; lia|].
  destruct (Ascii.eqb c newline); [discriminate|]. specialize (IH _ H). cbn in *. lia.
Qed.
Lemma substring_le n m s : (String.length (substring n m s) <= String.length s)%nat.
Proof.
  revert n m. induction s as [|c s IH]; intros [|n] [|m]; cbn; try lia.
  - specialize (IH 0%nat m). lia.
  - specialize (IH n 0%nat). lia.
  - specialize (IH n (S m)). lia.
Qed.

Lemma strip_fuel s : forall a b, (String.length s <= a)%nat -> (String.length s <= b)%nat ->
  strip_prologs_fuel a s = strip_prologs_fuel b s.
Proof.
  assert (H : forall n s, (String.length s <= n)%nat -> forall a b,
    (String.length s <= a)%nat -> (String.length s <= b)%nat -> strip_prologs_fuel a s = strip_prologs_fuel b s).
  { induction n as [|n IH]; intros s' L a b La Lb.
    - destruct s'; cbn in L; [|lia]. destruct a, b; reflexivity.
    - destruct s' as [|c r]; [destruct a, b; reflexivity|]. cbn in L, La, Lb.
      destruct a as [|a]; [lia|]. destruct b as [|b]; [lia|]. cbn [strip_prologs_fuel].
      destruct (String.prefix "<?xml" (String c r)).
      + destruct (after_prolog _) as [rest|] eqn:A.
        * apply after_prolog_shorter in A. pose proof (substring_le 5 (String.length (String c r)) (String c r)) as B. cbn [String.length] in A, B.
          apply IH; lia.
        * f_equal. apply IH; lia.
      + f_equal. apply IH; lia. }
  intros a b. apply (H (String.length s)). lia.
Qed.

Lemma fuel_step n c r : strip_prologs_fuel (S n) (String c r) =
  if String.prefix "<?xml" (String c r) then
    match after_prolog (substring 5 (String.length (String c r)) (String c r)) with
    | Some rest => strip_prologs_fuel n rest
    | None => String c (strip_prologs_fuel n r)
    end
  else String c (strip_prologs_fuel n r).
Proof. reflexivity. Qed.
Lemma strip_cons c r : String.prefix "<?xml" (String c r) = false -> strip_prologs (String c r) = String c (strip_prologs r).
Proof.
  intros P. unfold strip_prologs. change (String.length (String c r)) with (S (String.length r)).
  rewrite fuel_step, P. reflexivity.
Qed.
Lemma substring_drop p : forall s n, (String.length s <= n)%nat -> substring (String.length p) n (p ++ s) = s.
Proof.
  induction p as [|c p IH]; intros s n L; cbn.
  - revert n L. induction s as [|d s IHs]; intros n L; [destruct n; reflexivity|].
    destruct n as [|n]; cbn in L; [lia|]. cbn. rewrite IHs by lia. reflexivity.
  - apply IH. exact L.
Qed.
Lemma strip_prolog s rest : after_prolog s = Some rest -> strip_prologs ("<?xml" ++ s) = strip_prologs rest.
Proof.
  intros A. unfold strip_prologs.
  assert (P : String.prefix "<?xml" ("<?xml" ++ s) = true) by (apply prefix_spec; exists s; reflexivity).
  assert (D : substring 5 (String.length ("<?xml" ++ s)) ("<?xml" ++ s) = s).
  { change 5%nat with (String.length "<?xml"). apply substring_drop. rewrite string_app_length. lia. }
  assert (L : String.length ("<?xml" ++ s) = S (4 + String.length s)) by reflexivity.
  rewrite L at 1. change ("<?xml" ++ s) with (String "<" ("?xml" ++ s)) in *. rewrite fuel_step, P, D, A.
  apply after_prolog_shorter in A. apply strip_fuel; lia.
Qed.

Lemma after_prolog_spec p : forall b, ~ has_char newline p -> ~ occurs "?>" p -> after_prolog (p ++ "?>" ++ b) = Some b.
Proof.
  induction p as [|c p IH]; intros b N O; [reflexivity|].
  assert (Hr : after_prolog (p ++ "?>" ++ b) = Some b).
  { apply IH; [intros H; apply N; right; exact H|]. intros [x [y E]]. apply O. exists (String c x), y. rewrite E. reflexivity. }
  cbn [append]. cbn [after_prolog]. destruct (p ++ String "?" (String ">" b)) as [|d r] eqn:E.
  { destruct p; discriminate. }
  change ("?>" ++ b) with (String "?" (String ">" b)) in Hr. rewrite E in Hr.
  destruct (Ascii.eqb_spec c "?") as [-> | Nc]; cbn [andb].
  - destruct (Ascii.eqb_spec d ">") as [-> | Nd].
    + exfalso. destruct p as [|d' p']; cbn in E; injection E as E1 E2; [discriminate|]. subst d'.
      apply O. exists "", p'. reflexivity.
    + change (Ascii.eqb "?" newline) with false. exact Hr.
  - destruct (Ascii.eqb_spec c newline) as [-> | Nn]; [exfalso; apply N; left; reflexivity | exact Hr].
Qed.

Lemma strip_before a : forall s, ~ occurs "<?xml" a -> strip_prologs (a ++ "<?xml" ++ s) = a ++ strip_prologs ("<?xml" ++ s).
Proof.
  induction a as [|c a IH]; intros s O; [reflexivity|].
  cbn [append]. rewrite strip_cons.
  - change (String "<" (String "?" (String "x" (String "m" (String "l" s))))) with ("<?xml" ++ s). rewrite IH; [reflexivity|].
    intros [x [y E]]. apply O. exists (String c x), y. rewrite E. reflexivity.
  - destruct (String.prefix "<?xml" _) eqn:P; [|reflexivity]. exfalso.
    apply prefix_spec in P. destruct P as [r P]. cbn [append] in P. injection P as -> P.
    destruct a as [|c1 a]; cbn [append] in P; [discriminate|]. injection P as -> P.
    destruct a as [|c2 a]; cbn [append] in P; [discriminate|]. injection P as -> P.
    destruct a as [|c3 a]; cbn [append] in P; [discriminate|]. injection P as -> P.
    destruct a as [|c4 a]; cbn [append] in P; [discriminate|]. injection P as -> P.
    apply O. exists "", a. reflexivity.
Qed.
Lemma strip_none s : ~ occurs "<?xml" s -> strip_prologs s = s.
Proof.
  induction s as [|c s IH]; intros O; [reflexivity|]. rewrite strip_cons.
  - rewrite IH; [reflexivity|]. intros [x [y E]]. apply O. exists (String c x), y. rewrite E. reflexivity.
  - destruct (String.prefix "<?xml" _) eqn:P; [|reflexivity]. exfalso. apply prefix_spec in P. destruct P as [r P].
    apply O. exists "", r. exact P.
Qed.
