(** Property theorems for coordinate text and DEM tile names: C07 - C14. *)
Require Import ZArith NArith Reals String Ascii List Bool Lra Lia SpecFloat.
Require Import Verif.Base Verif.BaseFacts Verif.Text Verif.TextFacts Verif.CoordModel Verif.CoordSpec
  Verif.CoordProofs Verif.CoordFloatModel.
Import ListNotations.
Local Open Scope R_scope.

(** ** C07: DMS strings have a fixed layout *)
Theorem C07_dms_fixed_width :
  forall (show_float : R -> string) (w : Geodetic),
  Rabs (in_degrees (latitude w)) <= 90 -> Rabs (in_degrees (longitude w)) <= 180 ->
  String.length (to_dms_string show_float w) = 15%nat /\
  exists south ld lm ls west od om os,
    dms_layout (to_dms_string show_float w) south ld lm ls west od om os /\
    (0 <= ld <= 90)%Z /\ (0 <= lm <= 60)%Z /\ (0 <= ls <= 60)%Z /\
    (0 <= od <= 180)%Z /\ (0 <= om <= 60)%Z /\ (0 <= os <= 60)%Z.
Proof.
  intros sf w H1 H2.
  pose proof (dms_layout_ok sf w ltac:(lra) ltac:(lra)) as L. cbv zeta in L.
  split; [eapply dms_layout_length, L|].
  do 8 eexists. split; [exact L|].
  pose proof (split_m_range (latitude w)). pose proof (split_s_range (latitude w)).
  pose proof (split_m_range (longitude w)). pose proof (split_s_range (longitude w)).
  pose proof (split_d_range (latitude w) 91 ltac:(unfold degrees, in_degrees in *; lra)).
  pose proof (split_d_range (longitude w) 181 ltac:(unfold degrees, in_degrees in *; lra)).
  lia.
Qed.
Print Assumptions C07_dms_fixed_width.

Example C07_non_vacuous :
  Rabs (in_degrees (radians (-89.5))) <= 90 /\ Rabs (in_degrees (radians 180)) <= 180.
Proof. rewrite <- !degrees_in, !degrees_radians. split; apply Rabs_le; lra. Qed.

(** ** C08: DMS strings are accurate *)
(** The text carries fields whose value is within (-0.0018", 1.0018") below the angle,
    and the hemisphere letters are S and W exactly for negative angles. *)
Theorem C08_dms_accuracy :
  forall (show_float : R -> string) (w : Geodetic),
  Rabs (in_degrees (latitude w)) <= 90 -> Rabs (in_degrees (longitude w)) <= 180 ->
  exists south ld lm ls west od om os,
    dms_layout (to_dms_string show_float w) south ld lm ls west od om os /\
    (south = true <-> in_degrees (latitude w) < 0) /\ (west = true <-> in_degrees (longitude w) < 0) /\
    - (1 / 2000000) <= Rabs (in_degrees (latitude w)) - dms_value ld lm ls < 1 / 3600 + 1 / 2000000 /\
    - (1 / 2000000) <= Rabs (in_degrees (longitude w)) - dms_value od om os < 1 / 3600 + 1 / 2000000.
Proof.
  intros sf w H1 H2.
  pose proof (dms_layout_ok sf w ltac:(lra) ltac:(lra)) as L. cbv zeta in L.
  do 8 eexists. split; [exact L|].
  repeat split; try apply split_neg; try apply split_error.
Qed.
Print Assumptions C08_dms_accuracy.

(** Angles of a whole number of seconds: which fields are written, for every one of them. *)
Theorem C08_whole_seconds :
  forall (show_float : R -> string) (w : Geodetic) (ld lm ls od om os : Z),
  (0 <= ld <= 90)%Z -> (0 <= lm < 60)%Z -> (0 <= ls < 60)%Z -> (0 <= od <= 180)%Z -> (0 <= om < 60)%Z -> (0 <= os < 60)%Z ->
  Rabs (in_degrees (latitude w)) = dms_value ld lm ls -> Rabs (in_degrees (longitude w)) = dms_value od om os ->
  exists south west,
    dms_layout (to_dms_string show_float w) south ld (fst (written_fields lm ls)) (snd (written_fields lm ls))
                                            west od (fst (written_fields om os)) (snd (written_fields om os)) /\
    (south = true <-> in_degrees (latitude w) < 0) /\ (west = true <-> in_degrees (longitude w) < 0).
Proof.
  intros sf w ld lm ls od om os H1 H2 H3 H4 H5 H6 E1 E2.
  assert (V : forall n d m s, (d <= n)%Z -> (m < 60)%Z -> (s < 60)%Z -> dms_value d m s < IZR n + 1).
  { intros n d m s A B C. unfold dms_value.
    assert (B' : (m <= 59)%Z) by lia. assert (C' : (s <= 59)%Z) by lia. apply IZR_le in A, B', C'. lra. }
  pose proof (V 90%Z ld lm ls ltac:(lia) ltac:(lia) ltac:(lia)) as V1. pose proof (V 180%Z od om os ltac:(lia) ltac:(lia) ltac:(lia)) as V2.
  pose proof (dms_layout_ok sf w ltac:(unfold degrees, in_degrees in *; lra) ltac:(unfold degrees, in_degrees in *; lra)) as L. cbv zeta in L.
  destruct (whole_seconds (latitude w) ld lm ls ltac:(lia) H2 H3 E1) as [D1 F1].
  destruct (whole_seconds (longitude w) od om os ltac:(lia) H5 H6 E2) as [D2 F2].
  rewrite D1, D2 in L. rewrite <- F1, <- F2. cbn [fst snd].
  do 2 eexists. split; [exact L|]. split; apply split_neg.
Qed.
Print Assumptions C08_whole_seconds.

(** So the text of a whole number of seconds does not always name that number: 1580 of the 3600
    seconds of every degree are written as something else, such as 4 seconds as 3 and 2 minutes as
    1 minute and 60 seconds. *)
Theorem C08_whole_seconds_refuted :
  Z.of_nat (List.length (filter (fun n => let w := written_fields (n / 60) (n mod 60) in
                               negb ((fst w =? n / 60)%Z && (snd w =? n mod 60)%Z)) (map Z.of_nat (seq 0 3600)))) = 1580%Z /\
  written_fields 0 4 = (0, 3)%Z /\ written_fields 2 0 = (1, 60)%Z /\
  (forall (show_float : R -> string) (w : Geodetic), in_degrees (latitude w) = dms_value 10 0 4 -> in_degrees (longitude w) = dms_value 20 2 0 ->
   to_dms_string show_float w = "100003N0200160E"%string).
Proof.
  split; [vm_compute; reflexivity|]. split; [reflexivity|]. split; [reflexivity|]. intros sf w E1 E2.
  assert (P1 : 0 <= dms_value 10 0 4) by (unfold dms_value; lra). assert (P2 : 0 <= dms_value 20 2 0) by (unfold dms_value; lra).
  destruct (whole_seconds (latitude w) 10 0 4) as [D1 F1]; try lia; [now rewrite E1, Rabs_pos_eq|].
  destruct (whole_seconds (longitude w) 20 2 0) as [D2 F2]; try lia; [now rewrite E2, Rabs_pos_eq|].
  change (written_fields 0 4) with (0, 3)%Z in F1. change (written_fields 2 0) with (1, 60)%Z in F2. apply pair_equal_spec in F1, F2. destruct F1 as [M1 S1], F2 as [M2 S2].
  assert (N : forall angle, 0 <= in_degrees angle -> dms_neg (split_dms angle) = false).
  { intros angle H. destruct (dms_neg (split_dms angle)) eqn:Q; [|reflexivity]. apply split_neg in Q. rewrite degrees_in in Q. lra. }
  rewrite dms_tokens, (N (latitude w)), (N (longitude w)), D1, M1, S1, D2, M2, S2 by (rewrite ?E1, ?E2; assumption).
  reflexivity.
Qed.
Print Assumptions C08_whole_seconds_refuted.

(** Latitude 10 degrees and 4 seconds north, longitude 20 degrees and 2 minutes east. *)
Example C08_non_vacuous :
  let w := mkGeo (radians (dms_value 20 2 0)) (radians (dms_value 10 0 4)) 0 in
  Rabs (in_degrees (latitude w)) = dms_value 10 0 4 /\ Rabs (in_degrees (longitude w)) = dms_value 20 2 0 /\
  Rabs (in_degrees (latitude w)) <= 90 /\ Rabs (in_degrees (longitude w)) <= 180 /\
  forall show_float, to_dms_string show_float w = "100003N0200160E"%string.
Proof.
  cbn [latitude longitude].
  assert (E : forall x, in_degrees (radians x) = x) by (intros x; rewrite <- degrees_in; apply degrees_radians).
  rewrite !E. assert (A : dms_value 10 0 4 = 36004 / 3600) by (unfold dms_value; lra). assert (B : dms_value 20 2 0 = 72120 / 3600) by (unfold dms_value; lra).
  split; [rewrite A; apply Rabs_pos_eq; lra|]. split; [rewrite B; apply Rabs_pos_eq; lra|].
  split; [rewrite A; apply Rabs_le; lra|]. split; [rewrite B; apply Rabs_le; lra|].
  intros sf. apply C08_whole_seconds_refuted; cbn [latitude longitude]; apply E.
Qed.

(** ** C09: minutes and seconds below 60 *)
(** The fields are at most 60 ... *)
Theorem C09_fields_at_most_60 :
  forall (angle : R), let a := split_dms angle in
  (0 <= dms_m a <= 60)%Z /\ (0 <= dms_s a <= 60)%Z.
Proof. intros angle a. split; [apply split_m_range|apply split_s_range]. Qed.
Print Assumptions C09_fields_at_most_60.

(** ... and exactly these angles get minute 60, or second 60. *)
Theorem C09_overflow_characterised :
  forall (angle : R), let a := split_dms angle in
  let fraction := Rabs (in_degrees angle) - IZR (dms_d a) in
  (dms_m a = 60%Z <-> 1 - 1 / 2000000 <= fraction) /\
  (dms_s a = 60%Z <-> 33333 / 2000000 < fraction - IZR (dms_m a) / 60).
Proof. intros angle a fraction. split; [apply minutes_60|apply seconds_60]. Qed.
Print Assumptions C09_overflow_characterised.

(** 12.9999999 degrees is written with 60 minutes: 126000N. *)
Theorem C09_minutes_below_60_refuted :
  exists angle, in_degrees angle = 12.9999999 /\
  dms_d (split_dms angle) = 12%Z /\ dms_m (split_dms angle) = 60%Z /\ dms_s (split_dms angle) = 0%Z.
Proof.
  exists (radians 12.9999999).
  assert (E : in_degrees (radians 12.9999999) = 12.9999999) by (rewrite <- degrees_in; apply degrees_radians).
  assert (D : dms_d (split_dms (radians 12.9999999)) = 12%Z).
  { rewrite split_d, degrees_in, E, Rabs_right by lra. apply Rfloor_unique. lra. }
  assert (M : dms_m (split_dms (radians 12.9999999)) = 60%Z).
  { apply minutes_60. rewrite degrees_in, E, Rabs_right, D by lra. lra. }
  repeat split; try assumption.
  rewrite split_s, degrees_in, E, Rabs_right, D, M by lra.
  unfold round6. rewrite (rint_near _ 0); [apply Rfloor_unique; lra|]. apply Rabs_def1; lra.
Qed.
Print Assumptions C09_minutes_below_60_refuted.

(** 5.0333332 degrees is written with 60 seconds: 050160N. *)
Theorem C09_seconds_below_60_refuted :
  exists angle, in_degrees angle = 5.0333332 /\
  dms_d (split_dms angle) = 5%Z /\ dms_m (split_dms angle) = 1%Z /\ dms_s (split_dms angle) = 60%Z.
Proof.
  exists (radians 5.0333332).
  assert (E : in_degrees (radians 5.0333332) = 5.0333332) by (rewrite <- degrees_in; apply degrees_radians).
  assert (D : dms_d (split_dms (radians 5.0333332)) = 5%Z).
  { rewrite split_d, degrees_in, E, Rabs_right by lra. apply Rfloor_unique. lra. }
  assert (M : dms_m (split_dms (radians 5.0333332)) = 1%Z).
  { rewrite split_m, degrees_in, E, Rabs_right, D by lra.
    unfold round6. rewrite (rint_near _ 33333); [apply Rfloor_unique; lra|]. apply Rabs_def1; lra. }
  repeat split; try assumption.
  apply seconds_60. rewrite degrees_in, E, Rabs_right, D, M by lra. lra.
Qed.
Print Assumptions C09_seconds_below_60_refuted.

(** ** C10: format specifications *)
(** The empty specification means degrees, minutes and seconds of both angles and the elevation. *)
Theorem C10_default_format :
  forall (show_float : R -> string) (w : Geodetic),
  format_coord show_float w "" = format_coord show_float w "%ld%lm%ls%lH %od%om%os%oH %E".
Proof.
  intros sf w. unfold format_coord. rewrite String.eqb_refl. destruct (String.eqb_spec "%ld%lm%ls%lH %od%om%os%oH %E" "") as [E|_]; [discriminate|]. reflexivity.
Qed.

Theorem C10_format_is_tokenwise :
  forall (show_float : R -> string) (w : Geodetic) (ts : list token),
  tokens_ok ts -> ts <> [] ->
  format_coord show_float w (spec_text ts) = String.concat "" (map (token_output show_float w) ts).
Proof.
  intros sf w ts H N. unfold format_coord.
  destruct (String.eqb_spec (spec_text ts) "") as [E|_]; [|apply loop_tokens, H].
  exfalso. destruct ts as [|t r]; [congruence|]. destruct t; discriminate E.
Qed.
Print Assumptions C10_format_is_tokenwise.

Example C10_non_vacuous :
  let ts := [LatPart Deg; Literal "d"; LatDegrees; Unknown "q"; PercentSign; Literal "m"; LonPart HemiLower] in
  tokens_ok ts /\ spec_text ts = "%ldd%l%q%%m%oh"%string.
Proof.
  cbn. repeat split; try discriminate. intros H. repeat (destruct H as [H|H]; [discriminate|]). exact H.
Qed.

Theorem C10_literals_preserved :
  forall (show_float : R -> string) (w : Geodetic) (s : string),
  s <> ""%string -> (forall c, In c (list_ascii_of_string s) -> c <> "%"%char) ->
  format_coord show_float w s = s.
Proof.
  intros sf w s N H. unfold format_coord.
  destruct (String.eqb_spec s ""); [contradiction|]. apply loop_literal, H.
Qed.
Print Assumptions C10_literals_preserved.

Example C10_literals_non_vacuous :
  "lat d"%string <> ""%string /\ (forall c, In c (list_ascii_of_string "lat d") -> c <> "%"%char) /\
  forall show_float w, format_coord show_float w "lat d" = "lat d"%string.
Proof.
  assert (L : forall c, In c (list_ascii_of_string "lat d") -> c <> "%"%char).
  { intros c H. repeat (destruct H as [<-|H]; [discriminate|]). destruct H. }
  split; [discriminate|]. split; [exact L|]. intros sf w. apply C10_literals_preserved; [discriminate|exact L].
Qed.

(** ** C11: decimal degrees are not signed *)
Theorem C11_decimal_degrees_unsigned :
  forall (show_float : R -> string) (lon lat ele : R),
  format_coord show_float (mkGeo lon lat ele) "%l" = show_float (Rabs (in_degrees lat)) /\
  format_coord show_float (mkGeo lon lat ele) "%o" = show_float (Rabs (in_degrees lon)).
Proof.
  intros sf lon lat ele. split.
  - apply (C10_format_is_tokenwise sf (mkGeo lon lat ele) [LatDegrees]); cbn; [auto|congruence].
  - apply (C10_format_is_tokenwise sf (mkGeo lon lat ele) [LonDegrees]); cbn; [auto|congruence].
Qed.
Print Assumptions C11_decimal_degrees_unsigned.

(** The documented signed output is wrong for every southern latitude and every
    western longitude, as soon as [str] tells a number from its opposite. *)
Theorem C11_signed_degrees_refuted :
  forall (show_float : R -> string) (lon lat ele : R),
  (forall x, x < 0 -> show_float x <> show_float (- x)) ->
  (lat < 0 -> format_coord show_float (mkGeo lon lat ele) "%l" <> show_float (in_degrees lat)) /\
  (lon < 0 -> format_coord show_float (mkGeo lon lat ele) "%o" <> show_float (in_degrees lon)).
Proof.
  intros sf lon lat ele Hsf. destruct (C11_decimal_degrees_unsigned sf lon lat ele) as [-> ->].
  assert (N : forall x, x < 0 -> in_degrees x < 0).
  { intros x Hx. unfold in_degrees. pose proof (Rinv_0_lt_compat _ PI_RGT_0) as P.
    unfold Rdiv. rewrite <- (Rmult_0_l (/ PI)). apply Rmult_lt_compat_r; lra. }
  split; intros H; apply N in H; rewrite Rabs_left by exact H; intros E; symmetry in E;
    exact (Hsf _ H E).
Qed.
Print Assumptions C11_signed_degrees_refuted.

(** A [str] that tells the signs apart, and a location in the south-west. *)
Example C11_non_vacuous :
  let show x := if Rlt_dec x 0 then "-"%string else ""%string in
  (forall x, x < 0 -> show x <> show (- x)) /\
  format_coord show (mkGeo (radians (-70)) (radians (-33)) 500) "%l" = ""%string /\
  show (in_degrees (radians (-33))) = "-"%string.
Proof.
  intros show. split.
  - intros x H. unfold show. destruct (Rlt_dec x 0); [|lra]. destruct (Rlt_dec (- x) 0); [lra|discriminate].
  - rewrite (proj1 (C11_decimal_degrees_unsigned _ _ _ _)). unfold show. split.
    + destruct (Rlt_dec _ 0) as [H|]; [|reflexivity]. pose proof (Rabs_pos (in_degrees (radians (-33)))). lra.
    + rewrite <- degrees_in, degrees_radians. destruct (Rlt_dec (-33) 0); [reflexivity|lra].
Qed.

(** ** C12: IGEOLO *)
Theorem C12_igeolo :
  forall (show_float : R -> string) (image_to_world : Z -> Z -> Geodetic) (x y w h : Z),
  (forall i j, Rabs (in_degrees (latitude (image_to_world i j))) <= 90 /\
               Rabs (in_degrees (longitude (image_to_world i j))) <= 180) ->
  let igeolo := create_new_igeolo show_float image_to_world x y w h in
  String.length igeolo = 60%nat /\
  substring 0 15 igeolo = to_dms_string show_float (image_to_world x y) /\
  substring 15 15 igeolo = to_dms_string show_float (image_to_world (x + w) y)%Z /\
  substring 30 15 igeolo = to_dms_string show_float (image_to_world (x + w) (y + h))%Z /\
  substring 45 15 igeolo = to_dms_string show_float (image_to_world x (y + h))%Z.
Proof.
  intros sf itw x y w h H igeolo.
  assert (L : forall i j, String.length (to_dms_string sf (itw i j)) = 15%nat).
  { intros i j. apply C07_dms_fixed_width; apply H. }
  unfold igeolo, create_new_igeolo. rewrite concat_four.
  apply four_fields; apply L.
Qed.
Print Assumptions C12_igeolo.

Example C12_non_vacuous : exists itw : Z -> Z -> Geodetic,
  itw 0%Z 0%Z <> itw 1%Z 5%Z /\
  forall i j, Rabs (in_degrees (latitude (itw i j))) <= 90 /\ Rabs (in_degrees (longitude (itw i j))) <= 180.
Proof.
  exists (fun i _ => mkGeo (if Z.eqb i 0 then radians 100 else radians (-170)) (radians 45) 0).
  split.
  - cbn. intros E. injection E as E. apply (f_equal degrees) in E. rewrite !degrees_radians in E. lra.
  - intros i j. cbn [latitude longitude]. rewrite <- !degrees_in, degrees_radians. split; [apply Rabs_le; lra|].
    destruct (Z.eqb i 0); rewrite degrees_radians; apply Rabs_le; lra.
Qed.

(** ** C13: SRTM tile names *)
Theorem C13_srtm_coverage :
  forall (t : srtm_tile_set) (w : Geodetic),
  srtm_find_tile_id t w = None <-> (in_degrees (latitude w) >= 60 \/ in_degrees (latitude w) < -56).
Proof.
  intros t w. rewrite <- degrees_in.
  rewrite (srtm_id t w _ _ (proj2 (cell_floor _ _) eq_refl) (proj2 (cell_floor _ _) eq_refl)).
  destruct (Rfloor_spec (degrees (latitude w))) as [F1 F2].
  set (k := Rfloor _) in *. destruct (k >? 59)%Z eqn:E1; cbn [orb].
  - split; [intros _; left|reflexivity]. assert (60 <= k)%Z as K by lia. apply IZR_le in K. lra.
  - destruct (k <? -56)%Z eqn:E2.
    + split; [intros _; right|reflexivity]. assert (k <= -57)%Z as K by lia. apply IZR_le in K. lra.
    + split; [discriminate|]. assert (k <= 59)%Z as K by lia. assert (-56 <= k)%Z as K' by lia.
      apply IZR_le in K, K'. lra.
Qed.
Print Assumptions C13_srtm_coverage.

Theorem C13_srtm_ids_are_cells :
  forall (t : srtm_tile_set) (w w' : Geodetic) (s s' : string) (lon lat lon' lat' : Z),
  in_cell lon (longitude w) -> in_cell lat (latitude w) ->
  in_cell lon' (longitude w') -> in_cell lat' (latitude w') ->
  srtm_find_tile_id t w = Some s -> srtm_find_tile_id t w' = Some s' ->
  (s = s' <-> (lon = lon' /\ lat = lat')).
Proof.
  intros t w w' s s' lon lat lon' lat' H1 H2 H3 H4 E E'.
  rewrite (srtm_id t w lon lat H1 H2) in E. rewrite (srtm_id t w' lon' lat' H3 H4) in E'.
  destruct (lat >? 59)%Z eqn:A1; [discriminate|]. destruct (lat <? -56)%Z eqn:A2; [discriminate|].
  destruct (lat' >? 59)%Z eqn:A3; [discriminate|]. destruct (lat' <? -56)%Z eqn:A4; [discriminate|].
  cbn in E, E'. injection E as <-. injection E' as <-. split.
  - apply srtm_name_inj; lia.
  - intros [-> ->]. reflexivity.
Qed.
Print Assumptions C13_srtm_ids_are_cells.

(** The name itself, e.g. s05_w123_1arc_v3.tif. *)
Theorem C13_srtm_name :
  forall (t : srtm_tile_set) (w : Geodetic) (lon lat : Z),
  in_cell lon (longitude w) -> in_cell lat (latitude w) -> (-56 <= lat <= 59)%Z -> (-999 <= lon <= 999)%Z ->
  exists f1 f2, is_field 2 (Z.abs lat) f1 /\ is_field 3 (Z.abs lon) f2 /\
  srtm_find_tile_id t w =
    Some (s_prefix t ++ (if (lat <? 0)%Z then "s" else "n") ++ f1 ++ "_"
          ++ (if (lon <? 0)%Z then "w" else "e") ++ f2 ++ "_" ++ s_version t ++ s_extension t)%string.
Proof.
  intros t w lon lat H1 H2 B1 B2. exists (fmt0 2 (Z.abs lat)), (fmt0 3 (Z.abs lon)).
  split; [apply fmt0_field; [cbn; lia|congruence]|]. split; [apply fmt0_field; [cbn; lia|congruence]|].
  rewrite (srtm_id t w lon lat H1 H2).
  replace ((lat >? 59)%Z || (lat <? -56)%Z)%bool with false by lia. reflexivity.
Qed.
Print Assumptions C13_srtm_name.

Example C13_non_vacuous :
  in_cell (-5) (radians (-4.5)) /\ in_cell 34 (radians 34) /\ in_cell 47 (radians 47.999).
Proof. unfold in_cell. rewrite <- !degrees_in, !degrees_radians. repeat split; lra. Qed.

(** 4.5 degrees south, 34 degrees east. *)
Example C13_name_non_vacuous :
  exists f1 f2, is_field 2 5 f1 /\ is_field 3 34 f2 /\
  srtm_find_tile_id (mkSrtm "" "1arc_v3" ".tif") (mkGeo (radians 34) (radians (-4.5)) 0)
    = Some ("s" ++ f1 ++ "_" ++ "e" ++ f2 ++ "_" ++ "1arc_v3.tif")%string.
Proof.
  destruct C13_non_vacuous as (A & B & _).
  destruct (C13_srtm_name (mkSrtm "" "1arc_v3" ".tif") (mkGeo (radians 34) (radians (-4.5)) 0) 34 (-5) B A ltac:(lia) ltac:(lia)) as (f1 & f2 & F1 & F2 & E).
  exists f1, f2. split; [exact F1|]. split; [exact F2|]. exact E.
Qed.

(** ** C14: generic DEM tile names *)
(** In exact arithmetic the default name is that of the cell, and names are unique. *)
Theorem C14_generic_name_exact :
  forall (show_float : R -> string) (w : Geodetic) (lon lat : Z),
  in_cell lon (longitude w) -> in_cell lat (latitude w) -> (-180 <= lon <= 180)%Z -> (-90 <= lat <= 90)%Z ->
  exists f1 f2, is_field 3 (Z.abs lon) f1 /\ is_field 2 (Z.abs lat) f2 /\
  generic_find_tile_id show_float generic_default w =
    Some (f1 ++ (if (lon <? 0)%Z then "w" else "e") ++ "/" ++ f2 ++ (if (lat <? 0)%Z then "s" else "n") ++ ".dt2")%string.
Proof.
  intros sf w lon lat H1 H2 B1 B2. exists (fmt0 3 (Z.abs lon)), (fmt0 2 (Z.abs lat)).
  split; [apply fmt0_field; [cbn; lia|congruence]|]. split; [apply fmt0_field; [cbn; lia|congruence]|].
  apply generic_default_id; assumption.
Qed.
Print Assumptions C14_generic_name_exact.

(** Outside of the whole earth there is no tile by default. *)
Theorem C14_generic_outside :
  forall (show_float : R -> string) (w : Geodetic) (lon lat : Z),
  in_cell lon (longitude w) -> in_cell lat (latitude w) -> ~ ((-180 <= lon <= 180)%Z /\ (-90 <= lat <= 90)%Z) ->
  generic_find_tile_id show_float generic_default w = None.
Proof.
  intros sf w lon lat H1 H2 B. apply cell_floor in H1, H2.
  unfold generic_find_tile_id. rewrite H1, H2. cbn [g_max_lat g_min_lat g_max_lon g_min_lon generic_default].
  destruct (Rlt_dec 90 (IZR lat)) as [|L1]; [reflexivity|]. destruct (Rlt_dec (IZR lat) (-90)) as [|L2]; [reflexivity|].
  destruct (Rlt_dec 180 (IZR lon)) as [|L3]; [reflexivity|]. destruct (Rlt_dec (IZR lon) (-180)) as [|L4]; [reflexivity|].
  exfalso. apply B. split; split; apply le_IZR; lra.
Qed.
Print Assumptions C14_generic_outside.

Theorem C14_generic_ids_are_cells_exact :
  forall (show_float : R -> string) (w w' : Geodetic) (lon lat lon' lat' : Z),
  in_cell lon (longitude w) -> in_cell lat (latitude w) -> (-180 <= lon <= 180)%Z -> (-90 <= lat <= 90)%Z ->
  in_cell lon' (longitude w') -> in_cell lat' (latitude w') -> (-180 <= lon' <= 180)%Z -> (-90 <= lat' <= 90)%Z ->
  (generic_find_tile_id show_float generic_default w = generic_find_tile_id show_float generic_default w'
   <-> (lon = lon' /\ lat = lat')).
Proof.
  intros sf w w' lon lat lon' lat' H1 H2 B1 B2 H3 H4 B3 B4.
  rewrite (generic_default_id sf w lon lat), (generic_default_id sf w' lon' lat') by assumption. split.
  - intros [= E]. apply generic_name_inj in E; [exact E|lia|lia].
  - intros [-> ->]. reflexivity.
Qed.
Print Assumptions C14_generic_ids_are_cells_exact.

(** For any format and any configured ranges there is an id exactly if the whole degrees of the
    location are in the ranges, and it is the format applied to the corner of the cell. *)
Theorem C14_configured_range :
  forall (show_float : R -> string) (g : generic_tile_set) (w : Geodetic) (lon lat : Z),
  in_cell lon (longitude w) -> in_cell lat (latitude w) ->
  (generic_find_tile_id show_float g w <> None
   <-> (g_min_lat g <= IZR lat <= g_max_lat g /\ g_min_lon g <= IZR lon <= g_max_lon g)) /\
  (forall id, generic_find_tile_id show_float g w = Some id ->
     id = format_coord show_float (mkGeo (IZR lon * PI / 180) (IZR lat * PI / 180) 0) (g_format g)).
Proof.
  intros sf g w lon lat H1 H2. unfold generic_find_tile_id.
  assert (E1 : Rfloor (degrees (longitude w)) = lon) by (apply Rfloor_unique; rewrite degrees_in; exact H1).
  assert (E2 : Rfloor (degrees (latitude w)) = lat) by (apply Rfloor_unique; rewrite degrees_in; exact H2).
  rewrite E1, E2.
  destruct (Rlt_dec (g_max_lat g) (IZR lat)), (Rlt_dec (IZR lat) (g_min_lat g)), (Rlt_dec (g_max_lon g) (IZR lon)), (Rlt_dec (IZR lon) (g_min_lon g));
    (split; [split; [congruence || (intros _; lra)|intros [A B]; exfalso; lra || discriminate]|discriminate]) || idtac.
  split; [split; [intros _; lra|discriminate]|]. intros id [= <-]. reflexivity.
Qed.
Print Assumptions C14_configured_range.

(** 15.5 degrees east, 30.5 degrees north has an id, 200.5 degrees east has none; with latitudes
    restricted to 31 and more there is none either. *)
Example C14_non_vacuous :
  let w := mkGeo (radians 15.5) (radians 30.5) 0 in let far := mkGeo (radians 200.5) (radians 30.5) 0 in
  in_cell 15 (longitude w) /\ in_cell 30 (latitude w) /\ in_cell 200 (longitude far) /\
  forall show_float,
  (exists f1 f2, is_field 3 15 f1 /\ is_field 2 30 f2 /\
     generic_find_tile_id show_float generic_default w = Some (f1 ++ "e" ++ "/" ++ f2 ++ "n" ++ ".dt2")%string) /\
  generic_find_tile_id show_float generic_default far = None /\
  generic_find_tile_id show_float (mkGeneric "%od" 31 90 (-180) 180) w = None.
Proof.
  intros w far.
  assert (C : forall k x, IZR k <= x < IZR k + 1 -> in_cell k (radians x)) by (intros k x H; unfold in_cell; rewrite <- degrees_in, degrees_radians; exact H).
  assert (A : in_cell 15 (longitude w)) by (apply C; lra). assert (B : in_cell 30 (latitude w)) by (apply C; lra).
  assert (D : in_cell 200 (longitude far)) by (apply C; lra).
  split; [exact A|]. split; [exact B|]. split; [exact D|]. intros sf. split; [|split].
  - destruct (C14_generic_name_exact sf w 15 30 A B ltac:(lia) ltac:(lia)) as (f1 & f2 & F1 & F2 & E). exists f1, f2. auto.
  - apply (C14_generic_outside sf far 200 30 D B). lia.
  - destruct (generic_find_tile_id sf (mkGeneric "%od" 31 90 (-180) 180) w) eqn:E; [|reflexivity]. exfalso.
    destruct (C14_configured_range sf (mkGeneric "%od" 31 90 (-180) 180) w 15 30 A B) as [I _]. rewrite E in I.
    destruct (proj1 I ltac:(discriminate)) as [[L _] _]. cbn in L. lra.
Qed.

(** With binary64 arithmetic: which whole degrees survive the trip through radians. *)
Definition survives (k : Z) : bool :=
  match f_split (f_radians (f_of_Z k)) with
  | Some (neg, d) => Bool.eqb neg (k <? 0)%Z && (d =? Z.abs k)%Z
  | None => false
  end.

Theorem C14_binary64_whole_degrees :
  forall k, (-180 <= k <= 180)%Z ->
  (survives k = false <-> In (Z.abs k) [15; 30; 60; 120]%Z).
Proof.
  assert (A : forallb (fun k => Bool.eqb (survives k) (negb (existsb (Z.eqb (Z.abs k)) [15; 30; 60; 120]%Z)))
                (map (fun n => (Z.of_nat n - 180)%Z) (seq 0 361)) = true) by (vm_compute; reflexivity).
  intros k Hk. rewrite forallb_forall in A. specialize (A k).
  assert (I : In k (map (fun n => (Z.of_nat n - 180)%Z) (seq 0 361))).
  { apply in_map_iff. exists (Z.to_nat (k + 180)). split; [lia|]. apply in_seq. lia. }
  specialize (A I). apply Bool.eqb_prop in A. rewrite A.
  rewrite Bool.negb_false_iff, existsb_exists. split.
  - intros [x [Hx E]]. apply Z.eqb_eq in E. rewrite E. exact Hx.
  - intros Hx. exists (Z.abs k). split; [exact Hx|apply Z.eqb_refl].
Qed.
Print Assumptions C14_binary64_whole_degrees.

(** So the binary64 name is right exactly when neither coordinate of the cell is one of
    +-15, +-30, +-60, +-120 degrees. *)
Theorem C14_binary64_name_correct_iff :
  forall (lon lat : spec_float) (klon klat : Z),
  f_floor (f_degrees lon) = Some klon -> f_floor (f_degrees lat) = Some klat ->
  (-180 <= klon <= 180)%Z -> (-90 <= klat <= 90)%Z ->
  (f_generic_tile_id lon lat = Some (generic_name klon klat)
   <-> (~ In (Z.abs klon) [15; 30; 60; 120]%Z /\ ~ In (Z.abs klat) [15; 30; 60; 120]%Z)).
Proof.
  intros lon lat klon klat H1 H2 B1 B2.
  rewrite <- (C14_binary64_whole_degrees klon B1), <- (C14_binary64_whole_degrees klat ltac:(lia)).
  rewrite !Bool.not_false_iff_true.
  assert (P : forallb (fun k => match f_split (f_radians (f_of_Z k)) with
                 Some (_, d) => (0 <=? d)%Z && (d <? 1000)%Z | None => false end)%bool
                (map (fun n => (Z.of_nat n - 180)%Z) (seq 0 361)) = true) by (vm_compute; reflexivity).
  rewrite forallb_forall in P.
  assert (I : forall k, (-180 <= k <= 180)%Z -> In k (map (fun n => (Z.of_nat n - 180)%Z) (seq 0 361))).
  { intros k Hk. apply in_map_iff. exists (Z.to_nat (k + 180)). split; [lia|]. apply in_seq. lia. }
  pose proof (P _ (I klon B1)) as P1. pose proof (P _ (I klat ltac:(lia))) as P2. clear P I.
  unfold f_generic_tile_id, survives. rewrite H1, H2.
  destruct (f_split (f_radians (f_of_Z klon))) as [[n1 d1]|]; [|discriminate].
  destruct (f_split (f_radians (f_of_Z klat))) as [[n2 d2]|]; [|discriminate].
  rewrite !Bool.andb_true_iff, !Bool.eqb_true_iff, !Z.eqb_eq. split.
  - intros [= E]. unfold generic_name in E.
    apply append_inj in E as [E1 E]; [|rewrite !fmt0_length by (cbn; lia); reflexivity].
    apply append_inj in E as [E2 E]; [|destruct n1, (klon <? 0)%Z; reflexivity].
    injection E as E. rewrite <- !append_assoc in E. apply append_inj_l in E.
    apply append_inj in E as [E3 E4].
    2:{ apply (f_equal String.length) in E. rewrite !string_app_length in E.
        destruct n2, (klat <? 0)%Z; cbn in E; lia. }
    apply fmt0_inj in E1; [|lia|lia]. apply fmt0_inj in E3; [|lia|lia].
    repeat split; try assumption.
    + destruct n1, (klon <? 0)%Z; congruence.
    + destruct n2, (klat <? 0)%Z; congruence.
  - intros [[-> ->] [-> ->]]. reflexivity.
Qed.
Print Assumptions C14_binary64_name_correct_iff.

(** Longitude 15.5 E, latitude 30.5 N is looked up in tile 014e/29n. *)
Theorem C14_binary64_name_refuted :
  exists lon lat : spec_float,
    f_floor (f_degrees lon) = Some 15%Z /\ f_floor (f_degrees lat) = Some 30%Z /\
    f_generic_tile_id lon lat = Some "014e/29n.dt2"%string.
Proof.
  exists (f_radians (binary_normalize prec emax 31 (-1) false)), (f_radians (binary_normalize prec emax 61 (-1) false)).
  vm_compute. auto.
Qed.
Print Assumptions C14_binary64_name_refuted.

(** Longitude 45.5 E, latitude 10.5 N is looked up where it is. *)
Example C14_binary64_non_vacuous :
  exists lon lat : spec_float,
    f_floor (f_degrees lon) = Some 45%Z /\ f_floor (f_degrees lat) = Some 10%Z /\
    f_generic_tile_id lon lat = Some (generic_name 45 10) /\ generic_name 45 10 = "045e/10n.dt2"%string.
Proof.
  exists (f_radians (binary_normalize prec emax 91 (-1) false)), (f_radians (binary_normalize prec emax 21 (-1) false)).
  vm_compute. auto.
Qed.
