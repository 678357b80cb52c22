(** C47, C48, C49 and C70: TRE fields, RPC coefficient lists, DES headers and DES data. *)
Require Import ZArith NArith Reals String Ascii List Bool Lia Lra.
Require Import Verif.Base Verif.Text Verif.TextFacts Verif.SarMetaModel.
Require Import Verif.TreModel Verif.TreSpec Verif.TreProofs.
Import ListNotations.
Local Open Scope string_scope.

(** *** C48 *)

(** The call returns a value exactly when the first field of that name has a value attribute that
    converts to it. *)
Theorem C48_value : forall (A : Type) e n (convert : string -> option A) a,
  get_tre_field_value e n convert = Ok a <->
  exists f s, first_named e "field" n f /\ attr f "value" = Some s /\ convert s = Some a.
Proof.
  intros A e n c a. rewrite field_value. split.
  - intros [s [[f [F V]] C]]. exists f, s. tauto.
  - intros [f [s [F [V C]]]]. exists s. split; [exists f; tauto | exact C].
Qed.

(** It raises nothing but ValueError, in exactly three cases. *)
Theorem C48_error : forall (A : Type) e n (convert : string -> option A) x,
  get_tre_field_value e n convert = Err x <->
  x = ValueError /\
  ((forall f, In f (children_of e) -> ~ is_named "field" n f)
   \/ (exists f, first_named e "field" n f /\ attr f "value" = None)
   \/ (exists f s, first_named e "field" n f /\ attr f "value" = Some s /\ convert s = None)).
Proof.
  intros A e n c x. split.
  - intros H. split; [apply (field_error e n c x H)|]. unfold get_tre_field_value in H.
    destruct (find_named e "field" n) as [f|] eqn:F.
    + apply find_named_spec in F. right. destruct (attr f "value") as [s|] eqn:V.
      * right. exists f, s. split; [exact F|]. split; [exact V|]. destruct (c s); [discriminate | reflexivity].
      * left. exists f. tauto.
    + left. apply find_named_none. exact F.
  - intros [-> H]. unfold get_tre_field_value. destruct H as [H | [[f [F V]] | [f [s [F [V C]]]]]].
    + apply find_named_none in H. rewrite H. reflexivity.
    + apply find_named_spec in F. rewrite F, V. reflexivity.
    + apply find_named_spec in F. rewrite F, V, C. reflexivity.
Qed.

(** *** C49 *)

(** Well-formed groups: the list has the announced length and every position holds the value of the
    last group whose index means it, zero if there is none. *)
Theorem C49_values : forall cv e name rep s n ivs,
  first_named e "repeated" name rep -> attr rep "number" = Some s -> to_int cv s = Some n ->
  Forall2 (group_is cv) (children_of rep) ivs ->
  Forall (fun iv => (- Z.of_nat (Z.to_nat n) <= fst iv < Z.of_nat (Z.to_nat n))%Z) ivs ->
  exists l, parse_rpc_coefficients cv e name = Ok l
  /\ List.length l = Z.to_nat n
  /\ forall k, (k < Z.to_nat n)%nat -> nth k l 0%R = last_at (Z.to_nat n) ivs k.
Proof.
  intros cv e name rep s n ivs F S N G B. apply find_named_spec in F.
  unfold parse_rpc_coefficients. rewrite F, S, N.
  destruct (fill_groups_spec cv (children_of rep) ivs G (repeat 0%R (Z.to_nat n))) as [l [E [L H]]].
  { rewrite repeat_length. exact B. }
  rewrite repeat_length in L, H. exists l. split; [exact E|]. split; [exact L|].
  intros k Lk. rewrite (H k Lk). unfold last_at. destruct (List.find _ (rev ivs)); [reflexivity|].
  rewrite nth_repeat. reflexivity.
Qed.

(** In particular, distinct indices 0 .. n-1 in any order: position [i] holds the value of the
    group with index [i]. *)
Theorem C49_any_order : forall cv e name rep s n ivs,
  first_named e "repeated" name rep -> attr rep "number" = Some s -> to_int cv s = Some n ->
  Forall2 (group_is cv) (children_of rep) ivs ->
  NoDup (List.map fst ivs) -> (forall iv, In iv ivs -> (0 <= fst iv < n)%Z) ->
  exists l, parse_rpc_coefficients cv e name = Ok l /\ List.length l = Z.to_nat n
  /\ (forall i v, In (i, v) ivs -> nth (Z.to_nat i) l 0%R = v)
  /\ (forall k, (k < Z.to_nat n)%nat -> ~ In (Z.of_nat k) (List.map fst ivs) -> nth k l 0%R = 0%R).
Proof.
  intros cv e name rep s n ivs F S N G D B.
  destruct (C49_values cv e name rep s n ivs F S N G) as [l [E [L H]]].
  { apply Forall_forall. intros iv I. specialize (B iv I). lia. }
  exists l. split; [exact E|]. split; [exact L|].
  assert (PI : forall iv, In iv ivs -> py_index (Z.to_nat n) (fst iv) = Some (Z.to_nat (fst iv))).
  { intros iv I. specialize (B iv I). unfold py_index.
    replace ((0 <=? fst iv) && (fst iv <? Z.of_nat (Z.to_nat n)))%Z with true; [reflexivity|].
    symmetry. apply andb_true_iff. rewrite Z.leb_le, Z.ltb_lt. lia. }
  split.
  - intros i v I. pose proof (B _ I) as Bi. cbn [fst] in Bi. rewrite H by lia. unfold last_at.
    destruct (List.find _ (rev ivs)) as [w|] eqn:W.
    + apply List.find_some in W. destruct W as [W1 W2]. apply in_rev in W1. rewrite (PI w W1) in W2.
      apply Nat.eqb_eq in W2. pose proof (B w W1) as Bw. assert (EQ : fst w = i) by lia.
      clear - D I W1 EQ. induction ivs as [|h r IH]; [destruct I|]. cbn in D. inversion D as [|? ? D1 D2]; subst.
      destruct I as [-> | I], W1 as [<- | W1].
      * reflexivity.
      * exfalso. apply D1. cbn [fst]. apply (in_map fst) in W1. exact W1.
      * exfalso. apply D1. apply (in_map fst) in I. exact I.
      * apply IH; assumption.
    + exfalso. pose proof (List.find_none _ _ W (i, v)) as Q. rewrite <- in_rev in Q. specialize (Q I).
      cbv beta in Q. rewrite (PI (i, v) I) in Q. cbn [fst] in Q. rewrite Nat.eqb_refl in Q. discriminate.
  - intros k Lk NI. rewrite (H k Lk). unfold last_at. destruct (List.find _ (rev ivs)) as [w|] eqn:W; [|reflexivity].
    exfalso. apply List.find_some in W. destruct W as [W1 W2]. apply in_rev in W1. rewrite (PI w W1) in W2.
    apply Nat.eqb_eq in W2. pose proof (B w W1) as Bw. apply NI. apply in_map_iff. exists w. split; [lia | exact W1].
Qed.

(** The errors: the announced length first, then the first group that is not well-formed or points
    outside the list. *)
Theorem C49_errors : forall cv e name,
  ((forall r, In r (children_of e) -> ~ is_named "repeated" name r) ->
     parse_rpc_coefficients cv e name = Err ValueError)
  /\ (forall rep, first_named e "repeated" name rep ->
     (attr rep "number" = None \/ (exists s, attr rep "number" = Some s /\ to_int cv s = None)) ->
     parse_rpc_coefficients cv e name = Err ValueError)
  /\ (forall rep s n good g rest ivs, first_named e "repeated" name rep -> attr rep "number" = Some s ->
     to_int cv s = Some n -> children_of rep = (good ++ g :: rest)%list -> Forall2 (group_is cv) good ivs ->
     Forall (fun iv => (- Z.of_nat (Z.to_nat n) <= fst iv < Z.of_nat (Z.to_nat n))%Z) ivs ->
       ((attr g "index" = None \/ (exists t, attr g "index" = Some t /\ to_int cv t = None)) ->
          parse_rpc_coefficients cv e name = Err ValueError)
       /\ (forall t i, attr g "index" = Some t -> to_int cv t = Some i ->
            (children_of g = [] -> parse_rpc_coefficients cv e name = Err IndexError)
            /\ (forall f fs, children_of g = f :: fs ->
                 (attr f "value" = None \/ (exists v, attr f "value" = Some v /\ to_float cv v = None)) ->
                 parse_rpc_coefficients cv e name = Err ValueError))
       /\ (forall iv, group_is cv g iv -> ~ (- Z.of_nat (Z.to_nat n) <= fst iv < Z.of_nat (Z.to_nat n))%Z ->
            parse_rpc_coefficients cv e name = Err IndexError)).
Proof.
  intros cv e name. split; [|split].
  - intros H. apply find_named_none in H. unfold parse_rpc_coefficients. rewrite H. reflexivity.
  - intros rep F H. apply find_named_spec in F. unfold parse_rpc_coefficients. rewrite F.
    destruct H as [-> | [s [-> ->]]]; reflexivity.
  - intros rep s n good g rest ivs F S N C G B. apply find_named_spec in F.
    destruct (fill_groups_spec cv good ivs G (repeat 0%R (Z.to_nat n))) as [l [E [L _]]].
    { rewrite repeat_length. exact B. }
    rewrite repeat_length in L.
    assert (Q : parse_rpc_coefficients cv e name = bind (group_value cv g) (fun iv =>
                bind (py_set l (fst iv) (snd iv)) (fun result' => fill_groups cv rest result'))).
    { unfold parse_rpc_coefficients. rewrite F, S, N, C, fill_groups_app, E. reflexivity. }
    split; [|split].
    + intros H. rewrite Q. unfold group_value. destruct H as [-> | [t [-> ->]]]; reflexivity.
    + intros t i I T. split.
      * intros K. rewrite Q. unfold group_value. rewrite I, T, K. reflexivity.
      * intros f fs K H. rewrite Q. unfold group_value. rewrite I, T, K. destruct H as [-> | [v [-> ->]]]; reflexivity.
    + intros iv V O. rewrite Q. apply group_value_spec in V. rewrite V. cbn [bind]. unfold py_set. rewrite L.
      destruct (py_index (Z.to_nat n) (fst iv)) as [k|] eqn:P; [|reflexivity].
      exfalso. apply O. apply py_index_some. exists k. exact P.
Qed.

(** *** C47 *)

Lemma text_fields_spec e : forall fs val, (forall n w, In (n, w) fs -> field_text e n (val n)) ->
  text_fields e fs = Ok (fold_right (fun f acc => right_justify (snd f) (val (fst f)) ++ acc) "" fs).
Proof.
  induction fs as [|[n w] r IH]; intros val H; [reflexivity|]. cbn [text_fields fold_right fst snd].
  assert (V : get_tre_field_value e n to_str = Ok (val n)).
  { apply field_value. exists (val n). split; [apply (H n w); left; reflexivity | reflexivity]. }
  rewrite V. cbn [bind]. rewrite (IH val) by (intros m v I; apply (H m v); right; exact I). reflexivity.
Qed.
Definition joined (val : string -> string) (fs : list (string * nat)) : string :=
  fold_right (fun f acc => right_justify (snd f) (val (fst f)) ++ acc) "" fs.
Definition widths (fs : list (string * nat)) : nat := fold_right (fun f acc => snd f + acc)%nat 0%nat fs.
Lemma joined_length val fs : (forall n w, In (n, w) fs -> (String.length (val n) <= w)%nat) ->
  String.length (joined val fs) = widths fs.
Proof.
  induction fs as [|[n w] r IH]; intros H; [reflexivity|]. cbn [joined widths fold_right fst snd]. fold (joined val r) (widths r).
  rewrite string_app_length, right_justify_length. rewrite IH by (intros m v I; apply (H m v); right; exact I).
  specialize (H n w (or_introl eq_refl)). lia.
Qed.
Lemma joined_app val a b : joined val (a ++ b) = joined val a ++ joined val b.
Proof.
  induction a as [|f r IH]; [reflexivity|]. cbn [joined fold_right app].
  fold (joined val (r ++ b)%list) (joined val r). rewrite IH, append_assoc. reflexivity.
Qed.
Lemma layout_split n off w : In (n, off, w) des_layout ->
  exists a b, des_text_fields = (a ++ (n, w) :: b)%list /\ off = (2 + widths a)%nat.
Proof.
  intros I. cbn in I.
  repeat (destruct I as [I | I];
    [injection I as <- <- <-;
     first [ exists (firstn 0 des_text_fields), (skipn 1 des_text_fields); split; reflexivity
           | exists (firstn 1 des_text_fields), (skipn 2 des_text_fields); split; reflexivity
           | exists (firstn 2 des_text_fields), (skipn 3 des_text_fields); split; reflexivity
           | exists (firstn 3 des_text_fields), (skipn 4 des_text_fields); split; reflexivity
           | exists (firstn 4 des_text_fields), (skipn 5 des_text_fields); split; reflexivity
           | exists (firstn 5 des_text_fields), (skipn 6 des_text_fields); split; reflexivity
           | exists (firstn 6 des_text_fields), (skipn 7 des_text_fields); split; reflexivity
           | exists (firstn 7 des_text_fields), (skipn 8 des_text_fields); split; reflexivity
           | exists (firstn 8 des_text_fields), (skipn 9 des_text_fields); split; reflexivity
           | exists (firstn 9 des_text_fields), (skipn 10 des_text_fields); split; reflexivity
           | exists (firstn 10 des_text_fields), (skipn 11 des_text_fields); split; reflexivity
           | exists (firstn 11 des_text_fields), (skipn 12 des_text_fields); split; reflexivity
           | exists (firstn 12 des_text_fields), (skipn 13 des_text_fields); split; reflexivity
           | exists (firstn 13 des_text_fields), (skipn 14 des_text_fields); split; reflexivity
           | exists (firstn 14 des_text_fields), (skipn 15 des_text_fields); split; reflexivity
           | exists (firstn 15 des_text_fields), (skipn 16 des_text_fields); split; reflexivity ] |]).
  destruct I.
Qed.
Lemma fields_of_layout n w : In (n, w) des_text_fields -> exists off, In (n, off, w) des_layout.
Proof. intros I. cbn in I. repeat (destruct I as [I | I]; [injection I as <- <-; eexists; cbn; tauto|]). destruct I. Qed.

(** What a header with values in every field looks like. *)
Lemma header_spec cv e val version vs len ls shf :
  field_text e "DESVER" vs -> to_int cv vs = Some version ->
  (forall n off w, In (n, off, w) des_layout -> field_text e n (val n)) ->
  field_text e "DESSHL" ls -> to_int cv ls = Some len -> (0 <= len)%Z ->
  ((0 < len)%Z -> field_text e "DESSHF" shf) ->
  extract_des_header cv e = Ok (fmt0 2 version ++ joined val des_text_fields ++ fmt0 4 len
                                ++ (if (0 <? len)%Z then right_justify (Z.to_nat len) shf else "")).
Proof.
  intros V1 V2 T L1 L2 L3 S. unfold extract_des_header.
  replace (get_tre_field_value e "DESVER" (to_int cv)) with (Ok version)
    by (symmetry; apply field_value; exists vs; tauto).
  cbn [bind]. rewrite (text_fields_spec e des_text_fields val).
  2:{ intros n w I. apply fields_of_layout in I. destruct I as [off I]. apply (T n off w I). }
  cbn [bind].
  replace (get_tre_field_value e "DESSHL" (to_int cv)) with (Ok len)
    by (symmetry; apply field_value; exists ls; tauto).
  cbn [bind]. destruct (0 <? len)%Z eqn:P.
  - apply Z.ltb_lt in P.
    replace (get_tre_field_value e "DESSHF" to_str) with (Ok shf)
      by (symmetry; apply field_value; exists shf; split; [apply S; exact P | reflexivity]).
    reflexivity.
  - rewrite append_nil_r. reflexivity.
Qed.

(** Values that fit their fields: 173 characters plus the user-defined subheader, with every field
    at its place, numbers as zero-padded digits and text right-justified. *)
Theorem C47_layout : forall cv e val version vs len ls shf,
  field_text e "DESVER" vs -> to_int cv vs = Some version -> (0 <= version < 100)%Z ->
  (forall n off w, In (n, off, w) des_layout -> field_text e n (val n) /\ (String.length (val n) <= w)%nat) ->
  field_text e "DESSHL" ls -> to_int cv ls = Some len -> (0 <= len < 10000)%Z ->
  ((0 < len)%Z -> field_text e "DESSHF" shf /\ (String.length shf <= Z.to_nat len)%nat) ->
  exists h, extract_des_header cv e = Ok h
  /\ String.length h = (173 + Z.to_nat len)%nat
  /\ is_field 2 version (substring 0 2 h)
  /\ (forall n off w, In (n, off, w) des_layout -> right_justified w (val n) (substring off w h))
  /\ is_field 4 len (substring 169 4 h)
  /\ ((0 < len)%Z -> right_justified (Z.to_nat len) shf (substring 173 (Z.to_nat len) h)).
Proof.
  intros cv e val version vs len ls shf V1 V2 V3 T L1 L2 L3 S.
  eexists. split.
  { apply (header_spec cv e val version vs len ls shf); try assumption; [|lia|].
    - intros n off w I. apply (T n off w I).
    - intros P. apply S. exact P. }
  assert (LV : String.length (fmt0 2 version) = 2%nat) by (apply fmt0_length; [cbn; lia | lia]).
  assert (LL : String.length (fmt0 4 len) = 4%nat) by (apply fmt0_length; [cbn; lia | lia]).
  assert (Fit : forall n w, In (n, w) des_text_fields -> (String.length (val n) <= w)%nat).
  { intros n w I. apply fields_of_layout in I. destruct I as [off I]. apply (T n off w I). }
  assert (LJ : String.length (joined val des_text_fields) = 167%nat) by (rewrite joined_length by exact Fit; reflexivity).
  set (user := if (0 <? len)%Z then right_justify (Z.to_nat len) shf else "").
  assert (LU : String.length user = Z.to_nat len).
  { unfold user. destruct (0 <? len)%Z eqn:P.
    - apply Z.ltb_lt in P. destruct (S P) as [_ Q]. rewrite right_justify_length. lia.
    - apply Z.ltb_ge in P. cbn. lia. }
  split; [rewrite !string_app_length, LV, LJ, LL, LU; lia|].
  split; [|split; [|split]].
  - replace (substring 0 2 _) with (fmt0 2 version).
    + apply fmt0_field; [cbn; lia | lia].
    + symmetry. rewrite <- LV at 1. apply substring_prefix.
  - intros n off w I. destruct (T n off w I) as [_ Lw].
    destruct (layout_split n off w I) as [a [b [E O]]].
    replace (substring off w _) with (right_justify w (val n)); [apply right_justify_spec; exact Lw|]. symmetry.
    rewrite E, joined_app. cbn [joined fold_right fst snd]. fold (joined val b).
    assert (La : String.length (joined val a) = widths a).
    { apply joined_length. intros m v J. apply Fit. rewrite E. apply in_or_app. left; exact J. }
    replace off with (String.length (fmt0 2 version) + String.length (joined val a))%nat by lia.
    rewrite substring_skip, !append_assoc.
    assert (Lj : String.length (right_justify w (val n)) = w) by (rewrite right_justify_length; lia).
    rewrite <- Lj at 1. apply substring_mid.
  - replace (substring 169 4 _) with (fmt0 4 len).
    + apply fmt0_field; [cbn; lia | lia].
    + symmetry. replace 169%nat with (String.length (fmt0 2 version) + (String.length (joined val des_text_fields) + 0))%nat by lia.
      rewrite !substring_skip. rewrite <- LL at 1. apply substring_prefix.
  - intros P. destruct (S P) as [_ Q].
    replace (substring 173 _ _) with (right_justify (Z.to_nat len) shf); [apply right_justify_spec; exact Q|]. symmetry.
    replace 173%nat with (String.length (fmt0 2 version) + (String.length (joined val des_text_fields) + (String.length (fmt0 4 len) + 0)))%nat by lia.
    rewrite !substring_skip. apply Z.ltb_lt in P. unfold user in *. rewrite P in *. rewrite <- LU at 1. apply substring_all.
Qed.

(** A text that is too long for its field makes the header longer than announced. *)
Theorem C47_overflow : forall cv e val version vs len ls shf,
  field_text e "DESVER" vs -> to_int cv vs = Some version -> (0 <= version < 100)%Z ->
  (forall n off w, In (n, off, w) des_layout -> field_text e n (val n)) ->
  field_text e "DESSHL" ls -> to_int cv ls = Some len -> (0 <= len < 10000)%Z ->
  ((0 < len)%Z -> field_text e "DESSHF" shf) ->
  (exists n off w, In (n, off, w) des_layout /\ (w < String.length (val n))%nat) ->
  exists h, extract_des_header cv e = Ok h /\ (173 + Z.to_nat len < String.length h)%nat.
Proof.
  intros cv e val version vs len ls shf V1 V2 V3 T L1 L2 L3 S [n [off [w [I O]]]].
  eexists. split; [apply (header_spec cv e val version vs len ls shf); try assumption; lia|].
  assert (LV : String.length (fmt0 2 version) = 2%nat) by (apply fmt0_length; [cbn; lia | lia]).
  assert (LL : String.length (fmt0 4 len) = 4%nat) by (apply fmt0_length; [cbn; lia | lia]).
  assert (Ge : forall fs, (widths fs <= String.length (joined val fs))%nat).
  { induction fs as [|[m v] r IH]; [apply le_n|]. cbn [joined widths fold_right fst snd]. fold (joined val r) (widths r).
    rewrite string_app_length, right_justify_length. lia. }
  assert (LJ : (167 < String.length (joined val des_text_fields))%nat).
  { destruct (layout_split n off w I) as [a [b [E _]]].
    assert (W : widths des_text_fields = 167%nat) by reflexivity.
    rewrite E in W |- *. rewrite joined_app. cbn [joined fold_right fst snd]. fold (joined val b).
    rewrite !string_app_length, right_justify_length. pose proof (Ge a). pose proof (Ge b).
    assert (WA : forall x y, widths (x ++ y) = (widths x + widths y)%nat).
    { intros x y. induction x as [|f r IH]; [reflexivity|]. cbn [app widths fold_right]. fold (widths (r ++ y)%list) (widths r). lia. }
    rewrite WA in W. cbn [widths fold_right snd] in W. fold (widths b) in W. lia. }
  rewrite !string_app_length, LV, LL.
  destruct (0 <? len)%Z eqn:P.
  - rewrite right_justify_length. apply Z.ltb_lt in P. lia.
  - apply Z.ltb_ge in P. change (String.length "") with 0%nat. lia.
Qed.

(** A missing field makes the call raise ValueError. *)
Theorem C47_missing : forall cv e n,
  (n = "DESVER" \/ n = "DESSHL" \/ exists off w, In (n, off, w) des_layout) ->
  (forall f, In f (children_of e) -> ~ is_named "field" n f) ->
  extract_des_header cv e = Err ValueError.
Proof.
  intros cv e n H M.
  assert (G : forall A (c : string -> option A), get_tre_field_value e n c = Err ValueError).
  { intros A c. unfold get_tre_field_value. apply find_named_none in M. rewrite M. reflexivity. }
  assert (T : forall fs w, In (n, w) fs -> text_fields e fs = Err ValueError).
  { induction fs as [|[m v] r IH]; intros w I; [destruct I|]. cbn [text_fields].
    destruct (get_tre_field_value e m to_str) as [s|x] eqn:F.
    - cbn [bind]. destruct I as [E | I].
      + injection E as -> ->. rewrite G in F. discriminate.
      + rewrite (IH w I). reflexivity.
    - apply field_error in F. subst. reflexivity. }
  unfold extract_des_header.
  destruct (get_tre_field_value e "DESVER" (to_int cv)) as [v|x] eqn:F1; [|apply field_error in F1; subst; reflexivity].
  cbn [bind]. destruct H as [-> | H]; [rewrite G in F1; discriminate|].
  destruct (text_fields e des_text_fields) as [t|x] eqn:F2.
  - destruct H as [-> | [off [w I]]].
    + cbn [bind]. rewrite G. reflexivity.
    + destruct (layout_split n off w I) as [a [b [E _]]].
      rewrite (T des_text_fields w) in F2; [discriminate|]. rewrite E. apply in_or_app. right; left; reflexivity.
  - assert (X : forall fs y, text_fields e fs = Err y -> y = ValueError).
    { induction fs as [|[m w] r IH]; intros y K; [discriminate|]. cbn [text_fields] in K.
      destruct (get_tre_field_value e m to_str) as [s|z] eqn:F; cbn [bind] in K.
      - destruct (text_fields e r) as [q|z]; cbn [bind] in K; [discriminate|]. injection K as <-. apply IH; reflexivity.
      - injection K as <-. apply field_error in F. exact F. }
    apply X in F2. subst. reflexivity.
Qed.

(** NITF left-justifies text fields; a text that is neither empty nor as long as its field is laid
    out differently here. *)
Lemma spaces_snoc k : spaces k ++ " " = String " " (spaces k).
Proof. induction k as [|k IH]; [reflexivity|]. cbn. rewrite IH. reflexivity. Qed.
Lemma right_not_left : forall w v s,
  (String.length v < w)%nat -> (exists c r, v = String c r /\ c <> " "%char) ->
  right_justified w v s -> ~ left_justified w v s.
Proof.
  intros w v s L [c [r [-> N]]] [k [-> K]] [j [J _]]. rewrite string_app_length, spaces_length in K.
  destruct k as [|k]; [cbn in K, L; lia|]. cbn in J. injection J as J _. congruence.
Qed.
Theorem C47_left_justified_refuted : forall cv e val version vs len ls shf n off w,
  field_text e "DESVER" vs -> to_int cv vs = Some version -> (0 <= version < 100)%Z ->
  (forall n off w, In (n, off, w) des_layout -> field_text e n (val n) /\ (String.length (val n) <= w)%nat) ->
  field_text e "DESSHL" ls -> to_int cv ls = Some len -> (0 <= len < 10000)%Z ->
  ((0 < len)%Z -> field_text e "DESSHF" shf /\ (String.length shf <= Z.to_nat len)%nat) ->
  In (n, off, w) des_layout -> (String.length (val n) < w)%nat -> (exists c r, val n = String c r /\ c <> " "%char) ->
  exists h, extract_des_header cv e = Ok h /\ ~ left_justified w (val n) (substring off w h).
Proof.
  intros cv e val version vs len ls shf n off w V1 V2 V3 L S1 S2 S3 F I Sh C.
  destruct (C47_layout cv e val version vs len ls shf V1 V2 V3 L S1 S2 S3 F) as (h & H & _ & _ & R & _).
  exists h. split; [exact H|]. apply right_not_left; [exact Sh|exact C|]. now apply R.
Qed.

(** *** C70 *)

(** A document without prolog is unchanged; the first prolog that is on one line is cut out and the
    rest is treated the same way. *)
Theorem C70_prologs : 
  (forall s, ~ occurs "<?xml" s -> strip_prologs s = s)
  /\ (forall a p b, ~ occurs "<?xml" a -> ~ has_char newline p -> ~ occurs "?>" p ->
        strip_prologs (a ++ "<?xml" ++ p ++ "?>" ++ b) = a ++ strip_prologs b).
Proof.
  split; [exact strip_none|]. intros a p b A N O. rewrite strip_before by exact A.
  rewrite (strip_prolog (p ++ "?>" ++ b) b) by (apply after_prolog_spec; assumption). reflexivity.
Qed.

(** A prolog that is spread over two lines is not removed, although XML allows it. *)
Theorem C70_prolog_on_two_lines_refuted :
  exists p, ~ occurs "?>" p /\ strip_prologs ("<?xml" ++ p ++ "?>") = "<?xml" ++ p ++ "?>".
Proof.
  exists (" version='1.0'" ++ String newline "encoding='UTF-8'"). split; [|vm_compute; reflexivity].
  intros [a [b E]]. vm_compute in E.
  repeat (destruct a as [|? a]; [discriminate|]; cbn in E; try discriminate; injection E as _ E).
Qed.

(** Segments are found by DESID, in document order, in all lists. *)
Theorem C70_segments : forall lists name,
  get_segments_by_name lists name = List.concat (List.map (fun l => List.filter (named "des" name) (children_of l)) lists)
  /\ (forall e, In e (get_segments_by_name lists name) <->
        exists l, In l lists /\ In e (children_of l) /\ is_named "des" name e).
Proof.
  intros lists name. split; [apply flat_map_concat_map|]. intros e. unfold get_segments_by_name.
  rewrite in_flat_map. split; intros [l [I H]]; exists l; split; try exact I.
  - apply filter_In in H. rewrite named_spec in H. exact H.
  - apply filter_In. rewrite named_spec. exact H.
Qed.

(** DES data: the base64 text when there is one, otherwise the first element of the expanded XML;
    expanded content without elements counts as no data. *)
Theorem C70_desdata : forall decode tostring e,
  ((forall f, In f (children_of e) -> ~ is_named "field" "DESDATA" f) ->
     extract_desdata_xml decode tostring e = Ok None)
  /\ (forall d, first_named e "field" "DESDATA" d ->
     (forall v, attr d "value" = Some v -> v <> "" ->
        extract_desdata_xml decode tostring e = bind (decode v) (fun s => Ok (Some s)))
     /\ ((attr d "value" = None \/ attr d "value" = Some "") ->
        ((forall c, In c (children_of d) -> tag_of c <> "xml_content") -> extract_desdata_xml decode tostring e = Ok None)
        /\ (forall a x b, children_of d = (a ++ x :: b)%list -> (forall c, In c a -> tag_of c <> "xml_content") ->
             tag_of x = "xml_content" ->
             extract_desdata_xml decode tostring e =
               Ok (match children_of x with first :: _ => Some (tostring first) | [] => None end)))).
Proof.
  intros decode tostring e. split.
  - intros H. apply find_named_none in H. unfold extract_desdata_xml. rewrite H. reflexivity.
  - intros d F. apply find_named_spec in F. unfold extract_desdata_xml. rewrite F. split.
    + intros v V N. rewrite V. destruct v; [congruence | reflexivity].
    + intros V. split.
      * intros H. destruct (List.find _ (children_of d)) as [x|] eqn:X.
        { apply List.find_some in X. destruct X as [I T]. apply String.eqb_eq in T. exfalso. apply (H x I T). }
        destruct V as [-> | ->]; reflexivity.
      * intros a x b C A T.
        assert (X : List.find (fun c => String.eqb (tag_of c) "xml_content") (children_of d) = Some x).
        { apply find_split. exists a, b. split; [exact C|]. split; [apply String.eqb_eq; exact T|].
          intros y I. apply String.eqb_neq. apply A. exact I. }
        rewrite X. destruct V as [-> | ->]; destruct (children_of x); reflexivity.
Qed.

(** *** Non-vacuity *)
Definition one_char_conv : Conv :=
  mkConv (fun s => match read_dec s with Some n => Some (Z.of_N n) | None => None end)
         (fun s => match read_dec s with Some n => Some (IZR (Z.of_N n)) | None => None end).
Definition field (n v : string) : Element := El "field" [("name", n); ("value", v)] [].
Example C48_non_vacuous :
  get_tre_field_value (El "tre" [("name", "ICHIPB")] [field "FI_ROW" "512"; field "FI_COL" "7"; field "FI_COL" "8"])
    "FI_COL" (to_int one_char_conv) = Ok 7%Z.
Proof. reflexivity. Qed.

Definition group (i v : string) : Element := El "group" [("index", i)] [field "LINE_NUM_COEFF" v].
Definition small_tre : Element :=
  El "tre" [("name", "RPC00B")] [El "repeated" [("name", "LINE_NUM_COEFF"); ("number", "3")] [group "2" "5"; group "0" "4"]].
Example C49_non_vacuous :
  exists l, parse_rpc_coefficients one_char_conv small_tre "LINE_NUM_COEFF" = Ok l
  /\ nth 0 l 0%R = 4%R /\ nth 1 l 0%R = 0%R /\ nth 2 l 0%R = 5%R.
Proof.
  destruct (C49_any_order one_char_conv small_tre "LINE_NUM_COEFF"
    (El "repeated" [("name", "LINE_NUM_COEFF"); ("number", "3")] [group "2" "5"; group "0" "4"]) "3" 3%Z [(2%Z, 5%R); (0%Z, 4%R)])
    as [l [E [L [V Z]]]].
  - exists [], []. split; [reflexivity|]. split; [split; reflexivity | intros x []].
  - reflexivity.
  - reflexivity.
  - repeat constructor.
    + exists "2", (field "LINE_NUM_COEFF" "5"), [], "5". repeat split.
    + exists "0", (field "LINE_NUM_COEFF" "4"), [], "4". repeat split.
  - cbn. repeat constructor; cbn; intuition discriminate.
  - intros iv [<- | [<- | []]]; cbn; lia.
  - exists l. split; [exact E|]. split; [|split].
    + apply (V 0%Z 4%R). right; left; reflexivity.
    + apply Z; [cbn; lia|]. cbn. intuition discriminate.
    + apply (V 2%Z 5%R). left; reflexivity.
Qed.

Definition small_des : Element :=
  El "des" [("name", "XML_DATA_CONTENT")]
    (field "DESVER" "1" :: field "DECLAS" "U" :: field "DESSHL" "3" :: field "DESSHF" "abc" ::
     List.map (fun f => field (fst (fst f)) (if String.eqb (fst (fst f)) "DESREL" then "FVEY" else "")) (tl des_layout)).
Example C47_non_vacuous :
  exists h, extract_des_header one_char_conv small_des = Ok h /\ String.length h = 176%nat
  /\ substring 0 5 h = "01U  " /\ substring 169 7 h = "0003abc"
  /\ substring 18 20 h = "                FVEY".
Proof. eexists. split; [vm_compute; reflexivity | split; [vm_compute; reflexivity | split; [vm_compute; reflexivity | split; vm_compute; reflexivity]]]. Qed.

Example C70_non_vacuous :
  strip_prologs "<des_list><?xml version='1.0'?><SICD/><?xml?></des_list>" = "<des_list><SICD/></des_list>".
Proof. reflexivity. Qed.

Print Assumptions C47_layout.
Print Assumptions C47_overflow.
Print Assumptions C47_missing.
Print Assumptions C47_left_justified_refuted.
Print Assumptions C48_value.
Print Assumptions C48_error.
Print Assumptions C49_values.
Print Assumptions C49_any_order.
Print Assumptions C49_errors.
Print Assumptions C70_prologs.
Print Assumptions C70_prolog_on_two_lines_refuted.
Print Assumptions C70_segments.
Print Assumptions C70_desdata.
