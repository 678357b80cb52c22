(** Facts about decimal formatting, against a decimal reader. *)
Require Import ZArith NArith String Ascii List Lia.
Require Import ZifyBool ZifyNat ZifyN.
Require Import Verif.Text.
Import ListNotations.
Local Open Scope string_scope.
Ltac Zify.zify_post_hook ::= Z.div_mod_to_equations.

(** Independent decimal reader: value of a digit character, of a digit string. *)
Definition digit_val (c : ascii) : option N :=
  let n := N_of_ascii c in
  if ((48 <=? n) && (n <=? 57))%N%bool then Some (n - 48)%N else None.

Fixpoint read_acc (s : string) (acc : N) : option N :=
  match s with
  | EmptyString => Some acc
  | String c r => match digit_val c with
                  | Some d => read_acc r (acc * 10 + d)%N
                  | None => None
                  end
  end.

(** Value of a non-empty string of decimal digits. *)
Definition read_dec (s : string) : option N :=
  match s with EmptyString => None | _ => read_acc s 0 end.

(** [s] is the number [n] written in exactly [w] decimal digits. *)
Definition is_field (w : nat) (n : Z) (s : string) : Prop :=
  String.length s = w /\ read_dec s = Some (Z.to_N n).

Lemma digit_val_digit n : (n < 10)%N -> digit_val (digit n) = Some n.
Proof.
  intros H. unfold digit_val, digit. rewrite N_ascii_embedding by lia.
  replace ((48 <=? 48 + n)%N && (48 + n <=? 57)%N)%bool with true by lia.
  f_equal. lia.
Qed.

Lemma read_digits fuel : forall n acc, (n < 10 ^ N.of_nat fuel)%N -> fuel <> O ->
  read_acc (digits_aux fuel n acc) 0 = read_acc acc n.
Proof.
  induction fuel as [|f IH]; intros n acc H Hf; [congruence|]. cbn [digits_aux].
  destruct (N.ltb_spec n 10) as [L|L].
  - cbn [read_acc]. rewrite digit_val_digit by exact L. reflexivity.
  - destruct f as [|f].
    + change (10 ^ N.of_nat 1)%N with 10%N in H. lia.
    + rewrite IH; [| |congruence].
      * cbn [read_acc]. rewrite digit_val_digit by (apply N.mod_lt; lia). f_equal.
        pose proof (N.div_mod n 10 ltac:(lia)). lia.
      * rewrite (Nat2N.inj_succ (S f)), N.pow_succ_r' in H.
        apply N.div_lt_upper_bound; lia.
Qed.

Lemma fuel_enough n : (n < 10 ^ N.of_nat (S (N.to_nat (N.log2 n))))%N.
Proof.
  rewrite Nat2N.inj_succ, N2Nat.id.
  destruct (N.eq_dec n 0) as [->|Hn].
  - apply N.neq_0_lt_0, N.pow_nonzero. lia.
  - pose proof (N.log2_spec n ltac:(lia)) as [_ H].
    eapply N.lt_le_trans; [exact H|]. apply N.pow_le_mono_l. lia.
Qed.

Lemma read_show n : read_acc (show_N n) 0 = Some n.
Proof. unfold show_N. rewrite read_digits; [reflexivity|apply fuel_enough|congruence]. Qed.

Lemma digits_length fuel : forall w n acc, (n < 10 ^ N.of_nat w)%N -> w <> O ->
  String.length (digits_aux fuel n acc) <= w + String.length acc.
Proof.
  induction fuel as [|f IH]; intros w n acc H Hw; cbn [digits_aux]; [lia|].
  destruct (N.ltb_spec n 10) as [L|L]; [cbn; lia|].
  destruct w as [|[|w]]; [congruence| |].
  - change (10 ^ N.of_nat 1)%N with 10%N in H. lia.
  - rewrite (Nat2N.inj_succ (S w)), N.pow_succ_r' in H.
    specialize (IH (S w) (n / 10)%N (String (digit (n mod 10)) acc)).
    cbn [String.length] in IH. assert ((n / 10 < 10 ^ N.of_nat (S w))%N) as K.
    { apply N.div_lt_upper_bound; lia. }
    specialize (IH K ltac:(congruence)). lia.
Qed.

Lemma digits_nonempty fuel n acc : fuel <> O -> digits_aux fuel n acc <> "".
Proof.
  revert n acc. induction fuel as [|f IH]; intros n acc H; [congruence|].
  cbn [digits_aux]. destruct (n <? 10)%N; [discriminate|].
  destruct f as [|f]; [discriminate|]. apply IH. congruence.
Qed.

Lemma show_nonempty n : show_N n <> "".
Proof. apply digits_nonempty. congruence. Qed.

Lemma string_app_length a b : String.length (a ++ b) = String.length a + String.length b.
Proof. induction a; cbn; congruence. Qed.

Lemma zeros_length k : String.length (zeros k) = k.
Proof. induction k; cbn; congruence. Qed.

Lemma read_zeros k s : read_acc (zeros k ++ s) 0 = read_acc s 0.
Proof. induction k as [|k IH]; cbn [zeros append read_acc]; [reflexivity|]. exact IH. Qed.

Lemma read_dec_acc s : s <> "" -> read_dec s = read_acc s 0.
Proof. destruct s; [congruence|reflexivity]. Qed.

Lemma app_nonempty a b : b <> "" -> a ++ b <> "".
Proof. destruct a; cbn; [auto|discriminate]. Qed.

Lemma read_fmt0 w n : (0 <= n)%Z -> read_dec (fmt0 w n) = Some (Z.to_N n).
Proof.
  intros H. unfold fmt0. replace (n <? 0)%Z with false by lia.
  unfold pad0. rewrite read_dec_acc by (apply app_nonempty, show_nonempty).
  rewrite read_zeros. apply read_show.
Qed.

Lemma fmt0_length w n : (0 <= n < 10 ^ Z.of_nat w)%Z -> w <> O -> String.length (fmt0 w n) = w.
Proof.
  intros H Hw. unfold fmt0. replace (n <? 0)%Z with false by lia.
  unfold pad0. rewrite string_app_length, zeros_length.
  pose proof (digits_length (S (N.to_nat (N.log2 (Z.to_N n)))) w (Z.to_N n) "") as K.
  fold (show_N (Z.to_N n)) in K. cbn [String.length] in K.
  assert ((Z.to_N n < 10 ^ N.of_nat w)%N).
  { apply N2Z.inj_lt. rewrite Z2N.id by lia. rewrite N2Z.inj_pow. rewrite nat_N_Z. lia. }
  specialize (K H0 Hw). lia.
Qed.

Lemma fmt0_field w n : (0 <= n < 10 ^ Z.of_nat w)%Z -> w <> O -> is_field w n (fmt0 w n).
Proof. intros H Hw. split; [apply fmt0_length; assumption|apply read_fmt0; lia]. Qed.

Lemma fmt0_inj w m n : (0 <= m)%Z -> (0 <= n)%Z -> fmt0 w m = fmt0 w n -> m = n.
Proof.
  intros Hm Hn E. pose proof (read_fmt0 w m Hm) as A. rewrite E, (read_fmt0 w n Hn) in A.
  injection A as A. lia.
Qed.

(** Splitting equal strings at equal lengths. *)
Lemma append_inj a b c d : String.length a = String.length c -> a ++ b = c ++ d -> a = c /\ b = d.
Proof.
  revert c. induction a as [|x a IH]; intros [|y c] H E; cbn in *; try discriminate; auto.
  injection E as -> E. destruct (IH c ltac:(lia) E) as [-> ->]. auto.
Qed.

Lemma append_inj_r a b c : c ++ a = c ++ b -> a = b.
Proof. intros E. apply (append_inj c a c b) in E; [tauto|reflexivity]. Qed.

Lemma append_inj_l a b c : a ++ c = b ++ c -> a = b.
Proof.
  intros E. assert (String.length a = String.length b) as L.
  { apply (f_equal String.length) in E. rewrite !string_app_length in E. lia. }
  apply (append_inj _ _ _ _ L) in E. tauto.
Qed.

Lemma append_assoc a b c : (a ++ b) ++ c = a ++ (b ++ c).
Proof. induction a; cbn; congruence. Qed.

Lemma append_nil_r a : a ++ "" = a.
Proof. induction a; cbn; congruence. Qed.
