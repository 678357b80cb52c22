(** Lemmas about coordinate text and DEM tile names. *)
Require Import ZArith NArith Reals String Ascii List Bool Lra Lia.
Require Import Verif.Base Verif.BaseFacts Verif.Text Verif.TextFacts Verif.CoordModel Verif.CoordSpec.
Import ListNotations.
Local Open Scope R_scope.

(** ** Rounding *)
Lemma rint_error r : Rabs (IZR (rint r) - r) <= 1 / 2.
Proof.
  unfold rint. destruct (Rfloor_spec r) as [H1 H2].
  destruct (Rlt_dec _ _) as [A|A]; [apply Rabs_le; lra|].
  destruct (Rlt_dec _ _) as [B|B]; [rewrite plus_IZR; apply Rabs_le; lra|].
  destruct (Z.even _); [apply Rabs_le; lra|rewrite plus_IZR; apply Rabs_le; lra].
Qed.

Lemma rint_bounds r : r - 1 / 2 <= IZR (rint r) <= r + 1 / 2.
Proof. pose proof (rint_error r) as H. unfold Rabs in H. destruct (Rcase_abs _); lra. Qed.

(** rint is the unique integer strictly within 1/2. *)
Lemma rint_near r z : Rabs (r - IZR z) < 1 / 2 -> rint r = z.
Proof.
  intros H. apply Rabs_def2 in H. destruct (rint_bounds r).
  assert (IZR (rint r) < IZR z + 1) by lra. assert (IZR z < IZR (rint r) + 1) by lra.
  apply IZR_lt_succ in H2, H3. lia.
Qed.

Lemma rint_half z : rint (IZR z + 1 / 2) = if Z.even z then z else (z + 1)%Z.
Proof.
  unfold rint. rewrite (Rfloor_unique (IZR z + 1 / 2) z) by lra.
  destruct (Rlt_dec _ _); [lra|]. destruct (Rlt_dec _ _); [lra|]. reflexivity.
Qed.

Lemma rint_ge z r : IZR z - 1 / 2 < r -> (z <= rint r)%Z.
Proof.
  intros H. destruct (rint_bounds r). apply IZR_lt_succ. lra.
Qed.

Lemma rint_le z r : r < IZR z + 1 / 2 -> (rint r <= z)%Z.
Proof.
  intros H. destruct (rint_bounds r). apply IZR_lt_succ. lra.
Qed.

Lemma rint_ge_odd z r : Z.even (z - 1) = false -> ((z <= rint r)%Z <-> IZR z - 1 / 2 <= r).
Proof.
  intros He. split.
  - intros H. apply IZR_le in H. destruct (rint_bounds r). lra.
  - intros [H|H]; [apply rint_ge, H|].
    rewrite <- H. replace (IZR z - 1 / 2) with (IZR (z - 1) + 1 / 2) by (rewrite minus_IZR; lra).
    rewrite rint_half, He. lia.
Qed.

Lemma rint_ge_even z r : Z.even (z - 1) = true -> ((z <= rint r)%Z <-> IZR z - 1 / 2 < r).
Proof.
  intros He. split.
  - intros H. destruct (Rlt_dec (IZR z - 1 / 2) r) as [L|L]; [exact L|].
    destruct (Req_dec r (IZR z - 1 / 2)) as [E|E].
    + replace r with (IZR (z - 1) + 1 / 2) in H by (rewrite minus_IZR; lra).
      rewrite rint_half, He in H. lia.
    + assert (r < IZR (z - 1) + 1 / 2) as K by (rewrite minus_IZR; lra).
      apply rint_le in K. lia.
  - apply rint_ge.
Qed.

Lemma round6_bounds r : r - 1 / 2000000 <= round6 r <= r + 1 / 2000000.
Proof. unfold round6. destruct (rint_bounds (r * 1000000)). lra. Qed.

Lemma py_int_nonneg r : 0 <= r -> py_int r = Rfloor r.
Proof. intros H. unfold py_int. destruct (Rlt_dec r 0); [lra|reflexivity]. Qed.

(** ** Degrees *)
Lemma degrees_in angle : degrees angle = in_degrees angle.
Proof. reflexivity. Qed.

Lemma degrees_radians d : degrees (radians d) = d.
Proof. unfold degrees, radians. field. apply PI_neq0. Qed.

Lemma degrees_bound angle b : - (b * PI / 180) <= angle <= b * PI / 180 -> Rabs (degrees angle) <= b.
Proof.
  intros [H1 H2]. unfold degrees. pose proof PI_RGT_0 as P.
  apply Rabs_le. split.
  - apply Rmult_le_reg_r with PI; [exact P|]. unfold Rdiv. rewrite Rmult_assoc, Rinv_l by lra. lra.
  - apply Rmult_le_reg_r with PI; [exact P|]. unfold Rdiv. rewrite Rmult_assoc, Rinv_l by lra. lra.
Qed.

(** ** One angle *)
Lemma split_abs angle : dms_abs (split_dms angle) = Rabs (degrees angle).
Proof.
  unfold split_dms. cbn [dms_abs].
  destruct (Rlt_dec (degrees angle) 0); [rewrite Rabs_left by lra; lra|rewrite Rabs_right by lra; lra].
Qed.

Lemma split_neg angle : dms_neg (split_dms angle) = true <-> degrees angle < 0.
Proof.
  unfold split_dms. cbn [dms_neg]. destruct (Rlt_dec (degrees angle) 0); split; intros; auto; try discriminate; lra.
Qed.

(** The degrees part, its fraction [f], the minutes, the rest [g] and the seconds. *)
Section OneAngle.
Variable angle : R.
Let a := split_dms angle.
Let D := Rabs (degrees angle).
Let f := D - IZR (dms_d a).
Let g := f - IZR (dms_m a) / 60.

Lemma split_d : dms_d a = Rfloor D.
Proof.
  unfold a, D. rewrite <- split_abs. change (dms_d (split_dms angle)) with (py_int (dms_abs (split_dms angle))).
  apply py_int_nonneg. rewrite split_abs. apply Rabs_pos.
Qed.

Lemma split_f : 0 <= f < 1.
Proof. unfold f. rewrite split_d. destruct (Rfloor_spec D). lra. Qed.

Lemma split_m : dms_m a = Rfloor (round6 f * 60).
Proof.
  change (dms_m a) with (py_int (round6 (dms_abs a - IZR (dms_d a)) * 60)).
  unfold a at 1. rewrite split_abs. fold D. change (D - IZR (dms_d a)) with f.
  apply py_int_nonneg. unfold round6.
  assert (0 <= rint (f * 1000000))%Z by (apply rint_ge; pose proof split_f; lra).
  apply IZR_le in H. lra.
Qed.

Lemma split_round6_f : 0 <= round6 f <= 1.
Proof.
  unfold round6. pose proof split_f.
  assert (0 <= rint (f * 1000000))%Z by (apply rint_ge; lra).
  assert (rint (f * 1000000) <= 1000000)%Z by (apply rint_le; lra).
  apply IZR_le in H0, H1. lra.
Qed.

Lemma split_m_range : (0 <= dms_m a <= 60)%Z.
Proof.
  rewrite split_m. destruct split_round6_f. split.
  - apply Rfloor_ge_Z. lra.
  - apply Rfloor_le_Z. lra.
Qed.

Lemma split_m_bounds : IZR (dms_m a) <= round6 f * 60 < IZR (dms_m a) + 1.
Proof. rewrite split_m. apply Rfloor_spec. Qed.

Lemma split_g : - (1 / 2000000) <= g < 1 / 60 + 1 / 2000000.
Proof.
  unfold g. destruct split_m_bounds. destruct (round6_bounds f). lra.
Qed.

Lemma split_round6_g : 0 <= round6 g.
Proof.
  unfold round6. destruct split_g as [H _].
  assert (0 <= rint (g * 1000000))%Z by (apply rint_ge_odd; [reflexivity|lra]).
  apply IZR_le in H0. lra.
Qed.

Lemma split_s : dms_s a = Rfloor (round6 g * 3600).
Proof.
  change (dms_s a) with (py_int (round6 (dms_abs a - IZR (dms_d a) - IZR (dms_m a) / 60) * 3600)).
  unfold a at 1. rewrite split_abs. fold D. change (D - IZR (dms_d a) - IZR (dms_m a) / 60) with g.
  apply py_int_nonneg. pose proof split_round6_g. lra.
Qed.

Lemma split_s_range : (0 <= dms_s a <= 60)%Z.
Proof.
  rewrite split_s. pose proof split_round6_g. split.
  - apply Rfloor_ge_Z. lra.
  - unfold round6 in *. destruct split_g as [_ G].
    assert (rint (g * 1000000) <= 16667)%Z as K by (apply rint_le; lra).
    apply IZR_le in K.
    apply Rfloor_le_Z. lra.
Qed.

Lemma split_error : - (1 / 2000000) <= D - dms_value (dms_d a) (dms_m a) (dms_s a) < 1 / 3600 + 1 / 2000000.
Proof.
  unfold dms_value. pose proof split_round6_g as P. destruct (round6_bounds g) as [B1 B2].
  destruct (Rfloor_spec (round6 g * 3600)) as [F1 F2]. rewrite <- split_s in F1, F2.
  unfold g, f in *. lra.
Qed.

Lemma split_d_range n : D < IZR n -> (0 <= dms_d a < n)%Z.
Proof.
  intros H. rewrite split_d. destruct (Rfloor_spec D) as [F1 F2]. pose proof (Rabs_pos (degrees angle)) as P.
  fold D in P. split.
  - apply Rfloor_ge_Z. lra.
  - apply lt_IZR. lra.
Qed.

(** Exactly when the minutes overflow. *)
Lemma minutes_60 : dms_m a = 60%Z <-> 1 - 1 / 2000000 <= f.
Proof.
  destruct split_round6_f as [_ U]. unfold round6 in U.
  rewrite split_m. split.
  - intros E. destruct (Rfloor_spec (round6 f * 60)) as [F _]. rewrite E in F.
    unfold round6 in F.
    assert (1000000 <= rint (f * 1000000))%Z as K by (apply le_IZR; lra).
    apply (rint_ge_odd 1000000) in K; [lra|reflexivity].
  - intros H. assert (1000000 <= rint (f * 1000000))%Z as K.
    { apply rint_ge_odd; [reflexivity|lra]. }
    apply IZR_le in K. apply Rfloor_unique. unfold round6. lra.
Qed.

(** Exactly when the seconds overflow. *)
Lemma seconds_60 : dms_s a = 60%Z <-> 33333 / 2000000 < g.
Proof.
  rewrite split_s. split.
  - intros E. destruct (Rfloor_spec (round6 g * 3600)) as [F _]. rewrite E in F.
    unfold round6 in F.
    assert (16667 <= rint (g * 1000000))%Z as K.
    { assert (IZR 16666 < IZR (rint (g * 1000000))) as L by lra. apply lt_IZR in L. lia. }
    apply (rint_ge_even 16667) in K; [lra|reflexivity].
  - intros H. assert (16667 <= rint (g * 1000000))%Z as K.
    { apply rint_ge_even; [reflexivity|lra]. }
    apply IZR_le in K. pose proof split_s_range as [_ U]. rewrite split_s in U. apply Z.le_antisymm; [exact U|].
    apply Rfloor_ge_Z. unfold round6. lra.
Qed.
End OneAngle.

(** ** Format loop *)
Lemma is_part_spec c : is_part c = true <-> is_part_char c.
Proof.
  unfold is_part, is_part_char. rewrite existsb_exists. split.
  - intros [x [H E]]. apply Ascii.eqb_eq in E as <-.
    cbn in H. destruct H as [<-|[<-|[<-|[<-|[<-|[]]]]]];
      [exists Deg|exists Min|exists Sec|exists HemiLower|exists HemiUpper]; reflexivity.
  - intros [p ->]. exists (part_char p). split; [|apply Ascii.eqb_refl]. destruct p; cbn; auto 6.
Qed.

Section Fmt.
Variable show_float : R -> string.

Lemma loop_literal w s : (forall c, In c (list_ascii_of_string s) -> c <> "%"%char) ->
  format_loop show_float w s = s.
Proof.
  induction s as [|c s IH]; intros H; cbn; [reflexivity|].
  destruct (Ascii.eqb_spec c percent) as [E|E].
  - destruct (H c); [cbn; auto|exact E].
  - rewrite IH; [reflexivity|]. intros d Hd. apply H. cbn. auto.
Qed.

Lemma lat_part_output w p : lat_part w (part_char p) = token_output show_float w (LatPart p).
Proof. destruct p; cbn; try reflexivity; unfold degrees, in_degrees; destruct (Rlt_dec _ 0); reflexivity. Qed.
Lemma lon_part_output w p : lon_part w (part_char p) = token_output show_float w (LonPart p).
Proof. destruct p; cbn; try reflexivity; unfold degrees, in_degrees; destruct (Rlt_dec _ 0); reflexivity. Qed.

Lemma is_part_part p : is_part (part_char p) = true.
Proof. destruct p; reflexivity. Qed.

Definition not_part_start (s : string) : Prop :=
  match s with String c _ => is_part c = false | EmptyString => True end.

Lemma loop_latdeg w s : not_part_start s ->
  format_loop show_float w (String "%" (String "l" s))
  = (show_float (dms_abs (split_dms (latitude w))) ++ format_loop show_float w s)%string.
Proof. destruct s as [|c s]; intros H; [reflexivity|]. cbn in H |- *. rewrite H. reflexivity. Qed.

Lemma loop_londeg w s : not_part_start s ->
  format_loop show_float w (String "%" (String "o" s))
  = (show_float (dms_abs (split_dms (longitude w))) ++ format_loop show_float w s)%string.
Proof. destruct s as [|c s]; intros H; [reflexivity|]. cbn in H |- *. rewrite H. reflexivity. Qed.

Lemma loop_latpart w p s :
  format_loop show_float w (String "%" (String "l" (String (part_char p) s)))
  = (lat_part w (part_char p) ++ format_loop show_float w s)%string.
Proof. destruct p; reflexivity. Qed.
Lemma loop_lonpart w p s :
  format_loop show_float w (String "%" (String "o" (String (part_char p) s)))
  = (lon_part w (part_char p) ++ format_loop show_float w s)%string.
Proof. destruct p; reflexivity. Qed.

Lemma loop_unknown w c s : ~ In c ["L"; "O"; "l"; "o"; "E"; "%"]%char ->
  format_loop show_float w (String "%" (String c s)) = format_loop show_float w s.
Proof.
  intros H. cbn -[append].
  repeat match goal with
  | |- context [Ascii.eqb c ?d] => destruct (Ascii.eqb_spec c d) as [->|]; [exfalso; apply H; cbn; auto 7|]
  end. reflexivity.
Qed.

Lemma tokens_start t r : tokens_ok (t :: r) -> (t = LatDegrees \/ t = LonDegrees) ->
  not_part_start (spec_text r).
Proof.
  intros (H & H1 & H2) Ht. destruct r as [|t' r]; [exact I|].
  cbn [spec_text]. assert (K : match t' with Literal c => ~ is_part_char c | _ => True end).
  { destruct Ht as [-> | ->]; destruct t'; auto. }
  destruct t'; cbn -[is_part]; try reflexivity.
  destruct (is_part c) eqn:E; [|reflexivity]. apply is_part_spec in E. contradiction.
Qed.

Lemma loop_tokens w ts : tokens_ok ts ->
  format_loop show_float w (spec_text ts) = String.concat "" (map (token_output show_float w) ts).
Proof.
  assert (CC : forall (x : string) l, String.concat "" (x :: l) = (x ++ String.concat "" l)%string).
  { intros x l. destruct l; cbn; [rewrite append_nil_r; reflexivity|reflexivity]. }
  induction ts as [|t r IH]; intros H; [reflexivity|].
  pose proof H as (H1 & H2 & H3). specialize (IH H3).
  cbn [spec_text map]. rewrite CC, <- IH.
  destruct t.
  - cbn [token_text append token_output]. cbn in H1. cbn [format_loop].
    destruct (Ascii.eqb_spec c percent); [contradiction|reflexivity].
  - reflexivity.
  - reflexivity.
  - reflexivity.
  - cbn [token_text append token_output]. rewrite loop_latdeg by (eapply tokens_start; eauto).
    rewrite split_abs. reflexivity.
  - cbn [token_text append token_output]. rewrite loop_londeg by (eapply tokens_start; eauto).
    rewrite split_abs. reflexivity.
  - reflexivity.
  - cbn [token_text append]. rewrite loop_latpart, lat_part_output. reflexivity.
  - cbn [token_text append]. rewrite loop_lonpart, lon_part_output. reflexivity.
  - cbn [token_text append token_output]. rewrite loop_unknown by exact H1. reflexivity.
Qed.

(** ** DMS strings *)
Lemma dms_tokens w :
  to_dms_string show_float w =
  (fmt0 2 (dms_d (split_dms (latitude w))) ++ fmt0 2 (dms_m (split_dms (latitude w)))
   ++ fmt0 2 (dms_s (split_dms (latitude w))) ++ (if dms_neg (split_dms (latitude w)) then "S" else "N")
   ++ fmt0 3 (dms_d (split_dms (longitude w))) ++ fmt0 2 (dms_m (split_dms (longitude w)))
   ++ fmt0 2 (dms_s (split_dms (longitude w))) ++ (if dms_neg (split_dms (longitude w)) then "W" else "E"))%string.
Proof.
  unfold to_dms_string, format_coord. cbn -[split_dms fmt0 append].
  rewrite append_nil_r. reflexivity.
Qed.

Lemma dms_layout_ok w :
  Rabs (in_degrees (latitude w)) < 100 -> Rabs (in_degrees (longitude w)) < 1000 ->
  let lat := split_dms (latitude w) in let lon := split_dms (longitude w) in
  dms_layout (to_dms_string show_float w)
    (dms_neg lat) (dms_d lat) (dms_m lat) (dms_s lat) (dms_neg lon) (dms_d lon) (dms_m lon) (dms_s lon).
Proof.
  intros H1 H2 lat lon. unfold dms_layout. do 6 eexists. split; [apply dms_tokens|].
  pose proof (split_m_range (latitude w)). pose proof (split_s_range (latitude w)).
  pose proof (split_m_range (longitude w)). pose proof (split_s_range (longitude w)).
  pose proof (split_d_range (latitude w) 100 H1). pose proof (split_d_range (longitude w) 1000 H2).
  split; [|split; [|split; [|split; [|split]]]]; (apply fmt0_field; [|congruence]);
    [change (10 ^ Z.of_nat 2)%Z with 100%Z|change (10 ^ Z.of_nat 2)%Z with 100%Z|change (10 ^ Z.of_nat 2)%Z with 100%Z
    |change (10 ^ Z.of_nat 3)%Z with 1000%Z|change (10 ^ Z.of_nat 2)%Z with 100%Z|change (10 ^ Z.of_nat 2)%Z with 100%Z];
    unfold lat, lon; lia.
Qed.

Lemma dms_layout_length s a1 a2 a3 a4 a5 a6 a7 a8 :
  dms_layout s a1 a2 a3 a4 a5 a6 a7 a8 -> String.length s = 15%nat.
Proof.
  intros (f1 & f2 & f3 & f4 & f5 & f6 & -> & [L1 _] & [L2 _] & [L3 _] & [L4 _] & [L5 _] & [L6 _]).
  rewrite !string_app_length, L1, L2, L3, L4, L5, L6. destruct a1, a5; reflexivity.
Qed.

(** ** Tile identifiers *)
Lemma cell_floor k angle : in_cell k angle <-> Rfloor (degrees angle) = k.
Proof.
  unfold in_cell. rewrite <- degrees_in. split; [apply Rfloor_unique|].
  intros <-. apply Rfloor_spec.
Qed.

Lemma split_whole k : let a := split_dms (radians (IZR k)) in
  dms_neg a = (k <? 0)%Z /\ dms_d a = Z.abs k.
Proof.
  intros a. split.
  - destruct (Z.ltb_spec k 0) as [L|L]; unfold a, split_dms; cbn [dms_neg]; rewrite degrees_radians.
    + apply IZR_lt in L. destruct (Rlt_dec _ _); [reflexivity|contradiction].
    + apply IZR_le in L. destruct (Rlt_dec _ _); [lra|reflexivity].
  - unfold a. rewrite split_d, degrees_radians, <- abs_IZR. apply Rfloor_IZR.
Qed.

Definition generic_name (lon lat : Z) : string :=
  (fmt0 3 (Z.abs lon) ++ (if (lon <? 0)%Z then "w" else "e") ++ "/"
   ++ fmt0 2 (Z.abs lat) ++ (if (lat <? 0)%Z then "s" else "n") ++ ".dt2")%string.

Lemma generic_default_id w lon lat : in_cell lon (longitude w) -> in_cell lat (latitude w) ->
  (-180 <= lon <= 180)%Z -> (-90 <= lat <= 90)%Z ->
  generic_find_tile_id show_float generic_default w = Some (generic_name lon lat).
Proof.
  intros H1 H2 R1 R2. apply cell_floor in H1, H2.
  unfold generic_find_tile_id. rewrite H1, H2. cbn [g_max_lat g_min_lat g_max_lon g_min_lon g_format generic_default].
  destruct R1 as [A1 A2], R2 as [B1 B2]. apply IZR_le in A1, A2, B1, B2.
  repeat (destruct (Rlt_dec _ _); [lra|]).
  f_equal. unfold format_coord. cbn -[split_dms fmt0 append]. unfold lat_part, lon_part, part_text. cbn -[split_dms fmt0 append].
  destruct (split_whole lon) as [-> ->]. destruct (split_whole lat) as [-> ->]. reflexivity.
Qed.

Lemma generic_name_inj lon lat lon' lat' :
  generic_name lon lat = generic_name lon' lat' ->
  (Z.abs lon < 1000)%Z -> (Z.abs lon' < 1000)%Z -> lon = lon' /\ lat = lat'.
Proof.
  unfold generic_name. intros E B1 B2.
  apply append_inj in E as [E1 E]; [|rewrite !fmt0_length by (cbn; lia); reflexivity].
  apply append_inj in E as [E2 E]; [|destruct (lon <? 0)%Z, (lon' <? 0)%Z; reflexivity].
  apply append_inj_r in E. rewrite <- !append_assoc in E. apply append_inj_l in E.
  apply append_inj in E as [E3 E4].
  2:{ apply (f_equal String.length) in E. rewrite !string_app_length in E.
      destruct (lat <? 0)%Z, (lat' <? 0)%Z; cbn in E; lia. }
  apply fmt0_inj in E1; [|lia|lia]. apply fmt0_inj in E3; [|lia|lia].
  destruct (Z.ltb_spec lon 0), (Z.ltb_spec lon' 0); try discriminate E2;
  destruct (Z.ltb_spec lat 0), (Z.ltb_spec lat' 0); try discriminate E4; lia.
Qed.

Definition srtm_name (t : srtm_tile_set) (lon lat : Z) : string :=
  (s_prefix t ++ (if (lat <? 0)%Z then "s" else "n") ++ fmt0 2 (Z.abs lat) ++ "_"
   ++ (if (lon <? 0)%Z then "w" else "e") ++ fmt0 3 (Z.abs lon) ++ "_" ++ s_version t ++ s_extension t)%string.
End Fmt.

Lemma srtm_id t w lon lat : in_cell lon (longitude w) -> in_cell lat (latitude w) ->
  srtm_find_tile_id t w = if ((lat >? 59) || (lat <? -56))%Z%bool then None else Some (srtm_name t lon lat).
Proof.
  intros H1 H2. apply cell_floor in H1, H2. unfold srtm_find_tile_id. rewrite H1, H2. reflexivity.
Qed.

Lemma srtm_name_inj t lon lat lon' lat' : (Z.abs lat < 100)%Z -> (Z.abs lat' < 100)%Z ->
  srtm_name t lon lat = srtm_name t lon' lat' -> lon = lon' /\ lat = lat'.
Proof.
  unfold srtm_name. intros B1 B2 E.
  apply append_inj_r in E.
  apply append_inj in E as [E1 E]; [|destruct (lat <? 0)%Z, (lat' <? 0)%Z; reflexivity].
  apply append_inj in E as [E2 E]; [|rewrite !fmt0_length by (cbn; lia); reflexivity].
  apply append_inj_r in E.
  apply append_inj in E as [E3 E]; [|destruct (lon <? 0)%Z, (lon' <? 0)%Z; reflexivity].
  apply append_inj_l in E.
  apply fmt0_inj in E2; [|lia|lia]. apply fmt0_inj in E; [|lia|lia].
  destruct (Z.ltb_spec lon 0), (Z.ltb_spec lon' 0); try discriminate E3;
  destruct (Z.ltb_spec lat 0), (Z.ltb_spec lat' 0); try discriminate E1; lia.
Qed.

(** ** IGEOLO *)
Lemma concat_four (f : Geodetic -> string) (itw : Z -> Z -> Geodetic) a1 a2 b1 b2 c1 c2 d1 d2 :
  String.concat "" (map (fun c => f (itw (fst c) (snd c))) [(a1, a2); (b1, b2); (c1, c2); (d1, d2)])
  = (f (itw a1 a2) ++ f (itw b1 b2) ++ f (itw c1 c2) ++ f (itw d1 d2))%string.
Proof. reflexivity. Qed.

Lemma four_fields (s1 s2 s3 s4 : string) :
  String.length s1 = 15%nat -> String.length s2 = 15%nat ->
  String.length s3 = 15%nat -> String.length s4 = 15%nat ->
  let s := (s1 ++ s2 ++ s3 ++ s4)%string in
  String.length s = 60%nat /\ substring 0 15 s = s1 /\ substring 15 15 s = s2 /\
  substring 30 15 s = s3 /\ substring 45 15 s = s4.
Proof.
  intros S1 S2 S3 S4.
  assert (T : forall s, String.length s = 15%nat -> exists a b c d e f g h i j k l m n o,
     s = String a (String b (String c (String d (String e (String f (String g (String h (String i
        (String j (String k (String l (String m (String n (String o ""))))))))))))))).
  { intros s E. do 15 (destruct s as [|? s]; [discriminate E|]). destruct s; [|discriminate E].
    do 15 eexists. reflexivity. }
  apply T in S1, S2, S3, S4.
  repeat match goal with H : exists _, _ |- _ => destruct H as [? H] end.
  subst. repeat split; reflexivity.
Qed.

(** ** Whole seconds *)
Lemma Rfloor_ratio n d : (0 < d)%Z -> Rfloor (IZR n / IZR d) = (n / d)%Z.
Proof.
  intros H. apply Rfloor_unique. pose proof (Z.div_mod n d ltac:(lia)) as E. pose proof (Z.mod_pos_bound n d H) as B.
  assert (P : 0 < IZR d) by (now apply IZR_lt).
  assert (E' : IZR n = IZR d * IZR (n / d) + IZR (n mod d)) by (rewrite <- mult_IZR, <- plus_IZR; f_equal; exact E).
  destruct B as [B1 B2]. apply IZR_le in B1. apply IZR_lt in B2.
  split.
  - apply Rmult_le_reg_r with (IZR d); [exact P|]. unfold Rdiv. rewrite Rmult_assoc, Rinv_l by lra. nra.
  - apply Rmult_lt_reg_r with (IZR d); [exact P|]. unfold Rdiv. rewrite Rmult_assoc, Rinv_l by lra. nra.
Qed.

(** Nearest integer to a number of ninths: there are no ties. *)
Lemma rint_ninths n : rint (IZR n / 9) = ((2 * n + 9) / 18)%Z.
Proof.
  apply rint_near. pose proof (Z.div_mod (2 * n + 9) 18 ltac:(lia)) as E. pose proof (Z.mod_pos_bound (2 * n + 9) 18 ltac:(lia)) as B.
  set (q := ((2 * n + 9) / 18)%Z) in *. set (r := ((2 * n + 9) mod 18)%Z) in *.
  assert (r <> 0)%Z by lia.
  assert (L : (-9 < 2 * n - 18 * q < 9)%Z) by lia. destruct L as [L1 L2].
  apply IZR_lt in L1, L2. rewrite minus_IZR, !mult_IZR in L1, L2.
  apply Rabs_def1; lra.
Qed.

Definition whole_check (n : Z) : bool :=
  let k1 := ((2 * (2500 * n) + 9) / 18)%Z in
  let m := (60 * k1 / 1000000)%Z in
  let k2 := ((2 * (2500 * n - 150000 * m) + 9) / 18)%Z in
  let s := (3600 * k2 / 1000000)%Z in
  let w := written_fields (n / 60) (n mod 60) in
  ((m =? fst w) && (s =? snd w))%Z.

Lemma whole_checked n : (0 <= n < 3600)%Z -> whole_check n = true.
Proof.
  intros H. assert (A : forallb whole_check (map Z.of_nat (seq 0 3600)) = true) by (vm_compute; reflexivity).
  rewrite forallb_forall in A. apply A. apply in_map_iff. exists (Z.to_nat n). split; [lia|]. apply in_seq. lia.
Qed.

Lemma whole_seconds angle D M S :
  (0 <= D)%Z -> (0 <= M < 60)%Z -> (0 <= S < 60)%Z -> Rabs (in_degrees angle) = dms_value D M S ->
  let a := split_dms angle in dms_d a = D /\ (dms_m a, dms_s a) = written_fields M S.
Proof.
  intros HD HM HS E a. rewrite <- degrees_in in E.
  set (N := (60 * M + S)%Z). assert (HN : (0 <= N < 3600)%Z) by (unfold N; lia).
  assert (V : dms_value D M S = IZR D + IZR N / 3600) by (unfold dms_value, N; rewrite plus_IZR, mult_IZR; lra).
  assert (Ed : dms_d a = D).
  { unfold a. rewrite split_d, E, V. apply Rfloor_unique. destruct HN as [H1 H2]. apply IZR_le in H1. apply IZR_lt in H2. lra. }
  split; [exact Ed|].
  pose proof (split_m angle) as Em. pose proof (split_s angle) as Es. fold a in Em, Es.
  rewrite Ed, E, V in Em, Es.
  replace (IZR D + IZR N / 3600 - IZR D) with (IZR N / 3600) in Em, Es by lra.
  unfold round6 in Em, Es.
  replace (IZR N / 3600 * 1000000) with (IZR (2500 * N) / 9) in Em by (rewrite mult_IZR; lra).
  rewrite rint_ninths in Em.
  set (k1 := ((2 * (2500 * N) + 9) / 18)%Z) in *.
  replace (IZR k1 / 1000000 * 60) with (IZR (60 * k1) / IZR 1000000) in Em by (rewrite mult_IZR; lra).
  rewrite Rfloor_ratio in Em by lia.
  replace ((IZR N / 3600 - IZR (dms_m a) / 60) * 1000000) with (IZR (2500 * N - 150000 * dms_m a) / 9) in Es
    by (rewrite minus_IZR, !mult_IZR; lra).
  rewrite rint_ninths in Es. rewrite Em in Es.
  set (k2 := ((2 * (2500 * N - 150000 * (60 * k1 / 1000000)) + 9) / 18)%Z) in *.
  replace (IZR k2 / 1000000 * 3600) with (IZR (3600 * k2) / IZR 1000000) in Es by (rewrite mult_IZR; lra).
  rewrite Rfloor_ratio in Es by lia.
  pose proof (whole_checked N HN) as C. unfold whole_check in C. fold k1 in C. fold k2 in C.
  replace (N / 60)%Z with M in C by (unfold N; rewrite Z.mul_comm, Z.add_comm, Z.div_add, Z.div_small by lia; lia).
  replace (N mod 60)%Z with S in C by (unfold N; rewrite Z.mul_comm, Z.add_comm, Z.mod_add, Z.mod_small by lia; lia).
  apply andb_true_iff in C. destruct C as [C1 C2]. apply Z.eqb_eq in C1, C2.
  rewrite Em, Es, C1, C2. now destruct (written_fields M S).
Qed.
