(** Property theorems for degrees, minutes and seconds in binary64: C93. *)
Require Import ZArith NArith Reals String List Bool Lra Lia SpecFloat.
Require Import Verif.Base Verif.BaseFacts Verif.Text Verif.TextFacts Verif.CoordModel Verif.CoordSpec Verif.CoordProofs
  Verif.CoordFloatModel Verif.FloatModel Verif.FloatSpec Verif.FloatProofs Verif.FloatNearest Verif.TileFloatProofs
  Verif.DmsFloatModel Verif.DmsFloatSpec Verif.DmsFloatProofs.
Import ListNotations.
Local Open Scope R_scope.

(** ** What [round(x, 6)] does *)
(** numpy's way gives the float nearest to a whole number of millionths: the integer nearest to the
    binary64 product with a million, ties to even. *)
Theorem C93_numpy_round : forall x, is_binary64 x -> Rabs (value x) <= 2 ->
  nearest (IZR (rint (value (f_mul x (f_of_Z 1000000)))) / 1000000) (f_numpy_round6 x).
Proof.
  intros x B S. destruct million_value as [Bm Vm]. fold million. unfold f_numpy_round6. fold million.
  assert (N : nearest (value x * 1000000) (f_mul x million)).
  { rewrite <- Vm. apply mul_nearest; auto. apply mul_finite; [apply B|apply Bm|]. rewrite Vm, Rabs_mult, (Rabs_pos_eq 1000000) by lra.
    apply Rle_lt_trans with (powerRZ 2 21); [rewrite pw_IZR by lia; change (2 ^ 21)%Z with 2097152%Z; lra|apply pw_lt; lia]. }
  assert (L : Rabs (value (f_mul x million)) <= IZR (2 ^ 50)).
  { rewrite <- pw_IZR by lia. apply Rle_trans with (powerRZ 2 21); [|apply pw_le; lia]. apply abs_nearest_le with (1 := N); [lia|].
    rewrite Rabs_mult, (Rabs_pos_eq 1000000), pw_IZR by (lra || lia). change (2 ^ 21)%Z with 2097152%Z. lra. }
  destruct (f_rint_value (f_mul x million)) as [Br Vr]; [apply N|exact L|].
  rewrite <- Vr, <- Vm. apply div_nearest; auto; [rewrite Vm; lra|]. apply div_finite; [apply Br|apply Bm|rewrite Vm; lra|].
  rewrite Vr, Vm. apply rint_small in L; [|lia]. apply Rle_lt_trans with (powerRZ 2 50); [|apply pw_lt; lia].
  unfold Rdiv. rewrite Rabs_mult, (Rabs_pos_eq (/ 1000000)), pw_IZR by (lra || lia). rewrite <- abs_IZR. apply IZR_le in L.
  assert (0 <= IZR (Z.abs (rint (value (f_mul x million))))) by (apply IZR_le; lia). lra.
Qed.
Print Assumptions C93_numpy_round.

Theorem C93_numpy_rounds : rounds6 f_numpy_round6.
Proof.
  intros x B S. exists (rint (value (f_mul x (f_of_Z 1000000)))). split; [now apply C93_numpy_round|].
  destruct million_value as [Bm Vm]. fold million.
  assert (N : nearest (value x * 1000000) (f_mul x million)).
  { rewrite <- Vm. apply mul_nearest; auto. apply mul_finite; [apply B|apply Bm|]. rewrite Vm, Rabs_mult, (Rabs_pos_eq 1000000) by lra.
    apply Rle_lt_trans with (powerRZ 2 21); [rewrite pw_IZR by lia; change (2 ^ 21)%Z with 2097152%Z; lra|apply pw_lt; lia]. }
  pose proof (abs_error _ _ 21 N ltac:(lia)) as E. rewrite pw_IZR in E by lia. change (21 - 53)%Z with (-32)%Z in E. rewrite pw_neg in E.
  change (2 ^ 21)%Z with 2097152%Z in E. change (2 ^ 32)%Z with 4294967296%Z in E. apply abs_interval in S.
  specialize (E (abs_small (value x * 1000000) 2097152 ltac:(lra))). apply abs_interval in E.
  pose proof (rint_error (value (f_mul x million))) as R. apply abs_interval in R. apply abs_small. lra.
Qed.
Print Assumptions C93_numpy_rounds.

(** CPython rounds the exact number to millionths and gives the float nearest to the result. *)
Theorem C93_exact_rounds : forall round,
  (forall x, is_binary64 x -> nearest (IZR (rint (1000000 * value x)) / 1000000) (round x)) -> rounds6 round.
Proof.
  intros round H x B S. exists (rint (1000000 * value x)). split; [now apply H|].
  pose proof (rint_error (1000000 * value x)). lra.
Qed.
Print Assumptions C93_exact_rounds.

(** ** The fields of an angle *)
(** Every angle up to 2^800 gets fields; minutes and seconds are at most 60 and the hemisphere letter
    tells the sign.  The degrees are those of the binary64 number of degrees. *)
Theorem C93_fields : forall round, rounds6 round -> forall x, is_binary64 x -> Rabs (value x) <= powerRZ 2 800 ->
  exists neg d m s, f_dms round x = Ok (neg, d, m, s) /\ (neg = true <-> value x < 0) /\
  d = Rfloor (Rabs (value (f_degrees x))) /\ (0 <= m <= 60)%Z /\ (0 <= s <= 60)%Z /\
  - (1 / 2000000) - 1 / 10 ^ 11 <= Rabs (value (f_degrees x)) - dms_value d m s < 1 / 3600 + 1 / 2000000 + 1 / 10 ^ 11.
Proof.
  intros round R x B A. destruct (fields_error round R x B A) as (d & m & s & E & D & M & S & H).
  exists (f_neg (f_degrees x)), d, m, s. split; [exact E|]. split; [|tauto].
  rewrite neg_value by apply (degrees_nearest x B A). now apply degrees_sign.
Qed.
Print Assumptions C93_fields.

(** Angles that are not finite have none. *)
Theorem C93_not_finite : forall round s,
  f_dms round S754_nan = Err ValueError /\ f_dms round (S754_infinity s) = Err OtherError.
Proof. intros round []; split; reflexivity. Qed.
Print Assumptions C93_not_finite.

(** ** The text *)
(** For every latitude and longitude, the text has 15 characters, the hemisphere letters tell the signs,
    and the angle it names is at most half a millionth of a degree above, and less than a second and
    half a millionth of a degree below, the angle itself (up to 10^-10 degrees). *)
Theorem C93_text : forall round, rounds6 round -> forall lon lat, is_binary64 lon -> is_binary64 lat ->
  Rabs (in_degrees (value lat)) <= 90 -> Rabs (in_degrees (value lon)) <= 180 ->
  exists text south ld lm ls west od om os,
    f_to_dms_string round lon lat = Ok text /\ String.length text = 15%nat /\
    dms_layout text south ld lm ls west od om os /\
    (0 <= ld <= 90)%Z /\ (0 <= lm <= 60)%Z /\ (0 <= ls <= 60)%Z /\ (0 <= od <= 180)%Z /\ (0 <= om <= 60)%Z /\ (0 <= os <= 60)%Z /\
    (south = true <-> value lat < 0) /\ (west = true <-> value lon < 0) /\
    - (1 / 2000000) - 1 / 10 ^ 10 <= Rabs (in_degrees (value lat)) - dms_value ld lm ls < 1 / 3600 + 1 / 2000000 + 1 / 10 ^ 10 /\
    - (1 / 2000000) - 1 / 10 ^ 10 <= Rabs (in_degrees (value lon)) - dms_value od om os < 1 / 3600 + 1 / 2000000 + 1 / 10 ^ 10.
Proof.
  intros round R lon lat Bo Ba Ha Ho.
  assert (G : forall x n, is_binary64 x -> (n <= 180)%Z -> Rabs (in_degrees (value x)) <= IZR n ->
    exists neg d m s, f_dms round x = Ok (neg, d, m, s) /\ (neg = true <-> value x < 0) /\ (0 <= d <= n)%Z /\ (0 <= m <= 60)%Z /\ (0 <= s <= 60)%Z /\
    - (1 / 2000000) - 1 / 10 ^ 10 <= Rabs (in_degrees (value x)) - dms_value d m s < 1 / 3600 + 1 / 2000000 + 1 / 10 ^ 10).
  { intros x n B Hn H. pose proof (IZR_le _ _ Hn) as Hn'. destruct (degrees_error x B ltac:(lra)) as [A E]. apply abs_interval in E.
    destruct (C93_fields round R x B A) as (neg & d & m & s & F & N & D & M & S & C).
    exists neg, d, m, s. split; [exact F|]. split; [exact N|]. split; [|split; [exact M|split; [exact S|lra]]].
    rewrite D. destruct (Rfloor_spec (Rabs (value (f_degrees x)))) as [F1 F2]. pose proof (Rabs_pos (value (f_degrees x))) as P.
    split; apply Z.lt_succ_r, lt_IZR; unfold Z.succ; rewrite plus_IZR; lra. }
  destruct (G lat 90%Z Ba ltac:(lia) Ha) as (south & ld & lm & ls & F1 & N1 & D1 & M1 & S1 & A1).
  destruct (G lon 180%Z Bo ltac:(lia) Ho) as (west & od & om & os & F2 & N2 & D2 & M2 & S2 & A2).
  eexists. exists south, ld, lm, ls, west, od, om, os. split; [unfold f_to_dms_string; rewrite F1; cbn [bind]; rewrite F2; reflexivity|].
  assert (L : forall t, t = (fmt0 2 ld ++ fmt0 2 lm ++ fmt0 2 ls ++ (if south then "S" else "N") ++ fmt0 3 od ++ fmt0 2 om ++ fmt0 2 os ++ (if west then "W" else "E"))%string ->
    dms_layout t south ld lm ls west od om os).
  { intros t ->. unfold dms_layout. do 6 eexists. split; [reflexivity|].
    split; [|split; [|split; [|split; [|split]]]]; (apply fmt0_field; [|congruence]);
    [change (10 ^ Z.of_nat 2)%Z with 100%Z|change (10 ^ Z.of_nat 2)%Z with 100%Z|change (10 ^ Z.of_nat 2)%Z with 100%Z
    |change (10 ^ Z.of_nat 3)%Z with 1000%Z|change (10 ^ Z.of_nat 2)%Z with 100%Z|change (10 ^ Z.of_nat 2)%Z with 100%Z]; lia. }
  split; [eapply dms_layout_length; apply L; reflexivity|]. split; [apply L; reflexivity|]. tauto.
Qed.
Print Assumptions C93_text.

(** The text says that something went wrong exactly when an angle, the latitude first, has no fields. *)
Theorem C93_text_raises : forall round lon lat e, f_to_dms_string round lon lat = Err e <->
  f_dms round lat = Err e \/ (is_ok (f_dms round lat) /\ f_dms round lon = Err e).
Proof.
  intros round lon lat e. unfold f_to_dms_string, is_ok. destruct (f_dms round lat) as [[[[n d] m] s]|e1]; cbn [bind].
  - destruct (f_dms round lon) as [[[[n' d'] m'] s']|e2]; cbn [bind]; split.
    + discriminate.
    + intros [H|[_ H]]; discriminate.
    + intros [= ->]. right. split; [eexists; reflexivity|reflexivity].
    + intros [H|[_ [= ->]]]; [discriminate|reflexivity].
  - split; [intros [= ->]; now left|]. intros [[= ->]|[[a H] _]]; [reflexivity|discriminate].
Qed.
Print Assumptions C93_text_raises.

(** ** Binary64 and exact arithmetic *)
(** The fields are those of exact arithmetic (C07 - C09) for every angle whose degrees are not within
    10^-11 of a whole number and whose fractions are not within 10^-4 of the middle of two millionths. *)
Theorem C93_same_fields : forall round, rounds6 round -> forall x, is_binary64 x -> Rabs (in_degrees (value x)) <= 180 ->
  let a := split_dms (value x) in let Y := Rabs (in_degrees (value x)) in
  off_whole (1 / 10 ^ 11) Y -> off_middle (1 / 10 ^ 4) (1000000 * (Y - IZR (dms_d a))) ->
  off_middle (1 / 10 ^ 4) (1000000 * (Y - IZR (dms_d a) - IZR (dms_m a) / 60)) ->
  f_dms round x = Ok (dms_neg a, dms_d a, dms_m a, dms_s a).
Proof.
  intros round R x B H a Y O1 O2 O3. destruct (degrees_error x B H) as [A E]. fold Y in E.
  rewrite (fields_near round R x (value x) B A); [|fold Y; lra|exact O1|exact O2|exact O3].
  fold a. do 4 f_equal. apply eq_true_iff_eq. unfold a. rewrite split_neg, neg_value by apply (degrees_nearest x B A).
  rewrite degrees_sign by assumption. unfold degrees. pose proof PI_RGT_0 as P. split; intros L.
  - apply Rmult_lt_reg_r with PI; [exact P|]. unfold Rdiv. rewrite Rmult_assoc, Rinv_l by lra. lra.
  - assert (V : value x = value x * 180 / PI * (PI / 180)) by (field; lra). rewrite V. nra.
Qed.
Print Assumptions C93_same_fields.

Lemma ninths_off n : off_middle (1 / 10 ^ 4) (IZR n / 9).
Proof.
  intros k. assert (L : (1 <= Z.abs (2 * n - 18 * k - 9))%Z) by lia. apply IZR_le in L. rewrite abs_IZR, !minus_IZR, !mult_IZR in L.
  replace (IZR n / 9 - (IZR k + 1 / 2)) with ((2 * IZR n - 18 * IZR k - 9) * / 18) by lra. rewrite Rabs_mult, (Rabs_pos_eq (/ 18)) by lra. lra.
Qed.

(** Angles within 10^-12 degrees of a whole number of seconds that is no whole number of degrees get
    the fields of C08_whole_seconds, so many of them get others than their own. *)
Theorem C93_whole_seconds : forall round, rounds6 round -> forall x D M S, is_binary64 x ->
  (0 <= D < 180)%Z -> (0 <= M < 60)%Z -> (0 <= S < 60)%Z -> (0 < 60 * M + S)%Z ->
  Rabs (Rabs (in_degrees (value x)) - dms_value D M S) <= 1 / 10 ^ 12 ->
  exists neg, f_dms round x = Ok (neg, D, fst (written_fields M S), snd (written_fields M S)) /\ (neg = true <-> value x < 0).
Proof.
  intros round R x D M S B HD HM HS N0 C. set (N := (60 * M + S)%Z) in *.
  assert (V : dms_value D M S = IZR D + IZR N / 3600) by (unfold dms_value, N; rewrite plus_IZR, mult_IZR; lra).
  assert (HN : 1 <= IZR N <= 3599) by (split; apply IZR_le; unfold N in *; lia). assert (HD' : 0 <= IZR D <= 179) by (split; apply IZR_le; lia).
  apply abs_interval in C. destruct (degrees_error x B ltac:(lra)) as [A E]. apply abs_interval in E.
  set (angle := radians (dms_value D M S)).
  assert (Y : Rabs (in_degrees angle) = dms_value D M S) by (unfold angle; rewrite <- degrees_in, degrees_radians; apply Rabs_pos_eq; lra).
  destruct (whole_seconds angle D M S ltac:(lia) HM HS Y) as [Ed Ef].
  pose proof (fields_near round R x angle B A) as F. cbv zeta in F. rewrite Y, Ed in F.
  exists (f_neg (f_degrees x)). split; [|rewrite neg_value by apply (degrees_nearest x B A); now apply degrees_sign].
  rewrite F.
  - rewrite <- Ef. reflexivity.
  - apply abs_small. lra.
  - intros k. rewrite V. assert (L : (1 <= Z.abs (3600 * D + N - 3600 * k))%Z).
    { assert (1 <= N <= 3599)%Z by (destruct HN as [H1 H2]; apply le_IZR in H1, H2; lia). lia. }
    apply IZR_le in L. rewrite abs_IZR, minus_IZR, plus_IZR, !mult_IZR in L.
    replace (IZR D + IZR N / 3600 - IZR k) with ((3600 * IZR D + IZR N - 3600 * IZR k) * / 3600) by lra. rewrite Rabs_mult, (Rabs_pos_eq (/ 3600)) by lra. lra.
  - replace (1000000 * (dms_value D M S - IZR D)) with (IZR (2500 * N) / 9) by (rewrite V, mult_IZR; lra). apply ninths_off.
  - replace (1000000 * (dms_value D M S - IZR D - IZR (dms_m (split_dms angle)) / 60)) with (IZR (2500 * N - 150000 * dms_m (split_dms angle)) / 9)
      by (rewrite V, minus_IZR, !mult_IZR; lra). apply ninths_off.
Qed.
Print Assumptions C93_whole_seconds.

(** ** The corners of a NITF image *)
(** The text of a tile's corners has 60 characters: the four corners in order. *)
Theorem C93_igeolo : forall round, rounds6 round -> forall image_to_world x y w h,
  (forall i j, In (i, j) [(x, y); (x + w, y); (x + w, y + h); (x, y + h)]%Z -> exists lon lat, image_to_world i j = Ok (lon, lat) /\ is_binary64 lon /\ is_binary64 lat /\
    Rabs (in_degrees (value lat)) <= 90 /\ Rabs (in_degrees (value lon)) <= 180) ->
  exists text, f_create_new_igeolo round image_to_world x y w h = Ok text /\ String.length text = 60%nat /\
  let corner i j n := exists lon lat, image_to_world i j = Ok (lon, lat) /\ f_to_dms_string round lon lat = Ok (substring n 15 text) in
  corner x y 0%nat /\ corner (x + w)%Z y 15%nat /\ corner (x + w)%Z (y + h)%Z 30%nat /\ corner x (y + h)%Z 45%nat.
Proof.
  intros round R itw x y w h H.
  assert (G : forall i j, In (i, j) [(x, y); (x + w, y); (x + w, y + h); (x, y + h)]%Z -> exists lon lat t, itw i j = Ok (lon, lat) /\ f_to_dms_string round lon lat = Ok t /\ String.length t = 15%nat).
  { intros i j Hij. destruct (H i j Hij) as (lon & lat & E & Bo & Ba & Ha & Ho). destruct (C93_text round R lon lat Bo Ba Ha Ho) as (t & a1 & a2 & a3 & a4 & a5 & a6 & a7 & a8 & T & L & _).
    exists lon, lat, t. auto. }
  destruct (G x y ltac:(cbn; auto)) as (lon1 & lat1 & t1 & I1 & T1 & L1). destruct (G (x + w)%Z y ltac:(cbn; auto)) as (lon2 & lat2 & t2 & I2 & T2 & L2).
  destruct (G (x + w)%Z (y + h)%Z ltac:(cbn; auto)) as (lon3 & lat3 & t3 & I3 & T3 & L3). destruct (G x (y + h)%Z ltac:(cbn; auto)) as (lon4 & lat4 & t4 & I4 & T4 & L4).
  exists (String.concat "" [t1; t2; t3; t4]). unfold f_create_new_igeolo. cbn [f_corner_texts].
  rewrite I1; cbn [bind]. rewrite T1; cbn [bind]. rewrite I2; cbn [bind]. rewrite T2; cbn [bind]. rewrite I3; cbn [bind]. rewrite T3; cbn [bind]. rewrite I4; cbn [bind]. rewrite T4; cbn [bind].
  split; [reflexivity|].
  change (String.concat "" [t1; t2; t3; t4]) with (t1 ++ t2 ++ t3 ++ t4)%string. destruct (four_fields t1 t2 t3 t4 L1 L2 L3 L4) as (E0 & E1 & E2 & E3 & E4).
  split; [exact E0|]. cbv zeta. rewrite E1, E2, E3, E4. eauto 20.
Qed.
Print Assumptions C93_igeolo.
(** A sensor model whose columns are longitudes of 2^-12 radians and whose rows, 4096 at most, are
    latitudes of as much to the south. *)
Definition radian_grid (i j : Z) : res (spec_float * spec_float) :=
  Ok (f_div (f_of_Z i) (f_of_Z 4096), f_div (f_of_Z (- j)) (f_of_Z 4096)).
Example C93_igeolo_case :
  (forall i j, In (i, j) [(512, 1024); (512 + 2048, 1024); (512 + 2048, 1024 + 3072); (512, 1024 + 3072)]%Z ->
   exists lon lat, radian_grid i j = Ok (lon, lat) /\ is_binary64 lon /\ is_binary64 lat /\
   Rabs (in_degrees (value lat)) <= 90 /\ Rabs (in_degrees (value lon)) <= 180) /\
  f_create_new_igeolo f_numpy_round6 radian_grid 512 1024 2048 3072 = Ok "141926S0070943E141926S0354835E571744S0354835E571744S0070943E"%string.
Proof.
  split.
  - assert (K : forall f, is_binary64 f -> Rabs (value f) <= 1 -> Rabs (in_degrees (value f)) <= 90).
    { intros f _ A. pose proof pi_bounds as PB. unfold in_degrees. unfold Rdiv. rewrite !Rabs_mult, (Rabs_pos_eq 180), (Rabs_pos_eq (/ PI)) by (try apply Rlt_le, Rinv_0_lt_compat; lra).
      apply Rmult_le_reg_r with PI; [lra|]. rewrite !Rmult_assoc, Rinv_l by lra. pose proof (Rabs_pos (value f)). nra. }
    intros i j [[= <- <-]|[[= <- <-]|[[= <- <-]|[[= <- <-]|[]]]]]; eexists; eexists; (split; [reflexivity|]).
    all: match goal with |- is_binary64 ?a /\ is_binary64 ?b /\ _ => let a' := eval vm_compute in a in let b' := eval vm_compute in b in
      replace a with a' by (vm_compute; reflexivity); replace b with b' by (vm_compute; reflexivity) end.
    all: split; [split; [exact I|reflexivity]|split; [split; [exact I|reflexivity]|]].
    all: split; [|match goal with |- ?x <= 180 => enough (x <= 90) by lra end]; apply K; [split; [exact I|reflexivity]| |split; [exact I|reflexivity]|].
    all: cbn [value]; rewrite pw_neg; match goal with |- context [IZR (2 ^ ?n)] => let v := eval vm_compute in (2 ^ n)%Z in change (2 ^ n)%Z with v end; apply Rabs_le; lra.
  - vm_compute. reflexivity.
Qed.

(** ** Computed texts *)
Definition at_seconds (n : Z) : spec_float := f_radians (f_div (f_of_Z n) (f_of_Z 3600)).
Example C93_non_vacuous :
  f_to_dms_string f_numpy_round6 (at_seconds (- (100 * 3600 + 20 * 60 + 32))) (at_seconds (45 * 3600 + 59 * 60 + 59)) = Ok "455959N1002032W"%string /\
  f_to_dms_string f_numpy_round6 (at_seconds (180 * 3600)) (at_seconds (- (90 * 3600))) = Ok "900000S1800000E"%string /\
  rounds6 f_numpy_round6.
Proof. split; [vm_compute; reflexivity|]. split; [vm_compute; reflexivity|apply C93_numpy_rounds]. Qed.

(** The float for 10 degrees and 4 seconds is close enough to them, and 3 seconds are written. *)
Example C93_whole_seconds_non_vacuous : let x := at_seconds (10 * 3600 + 4) in
  is_binary64 x /\ Rabs (Rabs (in_degrees (value x)) - dms_value 10 0 4) <= 1 / 10 ^ 12 /\ written_fields 0 4 = (0, 3)%Z /\
  forall round, rounds6 round -> f_dms round x = Ok (false, 10, 0, 3)%Z.
Proof.
  intros x. assert (E : x = S754_finite false 6288910025284740 (-55)) by (vm_compute; reflexivity).
  assert (F : f_degrees x = S754_finite false 5630125034161366 (-49)) by (vm_compute; reflexivity).
  assert (B : is_binary64 x) by (rewrite E; split; [exact I|reflexivity]).
  assert (V : value x = 6288910025284740 * / 36028797018963968) by (rewrite E; cbn [value]; rewrite pw_neg; change (2 ^ 55)%Z with 36028797018963968%Z; lra).
  assert (W : value (f_degrees x) = 5630125034161366 * / 562949953421312) by (rewrite F; cbn [value]; rewrite pw_neg; change (2 ^ 49)%Z with 562949953421312%Z; lra).
  assert (P : 3 <= PI) by (pose proof pi_bounds; lra).
  assert (U : 0 <= in_degrees (value x) <= 180).
  { unfold in_degrees. rewrite V. assert (0 < / PI <= 1) by (split; [apply Rinv_0_lt_compat; lra|rewrite <- Rinv_1; apply Rinv_le_contravar; lra]). unfold Rdiv. nra. }
  destruct (degrees_error x B) as [_ D]; [rewrite Rabs_pos_eq; lra|]. rewrite W, (Rabs_pos_eq (5630125034161366 * _)) in D by lra.
  apply abs_interval in D. split; [exact B|]. assert (C : Rabs (Rabs (in_degrees (value x)) - dms_value 10 0 4) <= 1 / 10 ^ 12) by (apply abs_small; unfold dms_value; lra).
  split; [exact C|]. split; [reflexivity|]. intros round R.
  destruct (C93_whole_seconds round R x 10 0 4 B) as (neg & G & S); try lia; [exact C|].
  assert (neg = false) as -> by (destruct neg; [exfalso; rewrite V in S; destruct S as [S _]; specialize (S eq_refl); lra|reflexivity]). exact G.
Qed.

(** One radian is 57 degrees, 17 minutes and 44.8 seconds: the premises of [C93_same_fields]. *)
Example C93_same_fields_non_vacuous : let x := S754_finite false 4503599627370496 (-52) in
  value x = 1 /\ split_dms 1 = mkDms false (degrees 1) 57 17 44 /\ forall round, rounds6 round -> f_dms round x = Ok (false, 57, 17, 44)%Z.
Proof.
  intros x.
  assert (B : is_binary64 x) by (split; [exact I|reflexivity]).
  assert (V : value x = 1) by (cbn [value x]; rewrite pw_neg; change (2 ^ 52)%Z with 4503599627370496%Z; lra).
  assert (Y : 5729577951 / 10 ^ 8 <= 180 / PI <= 5729577952 / 10 ^ 8).
  { pose proof pi_bounds as PB. assert (Q : 180 / PI * PI = 180) by (field; lra). split; apply Rmult_le_reg_r with PI; lra. }
  set (y := 180 / PI) in *. assert (D : in_degrees 1 = y) by (unfold in_degrees, y, Rdiv; ring). assert (D' : degrees 1 = y) by (unfold degrees, y, Rdiv; ring).
  assert (S : split_dms 1 = mkDms false (degrees 1) 57 17 44).
  { unfold split_dms. rewrite D'. destruct (Rlt_dec y 0); [lra|].
    assert (E1 : py_int y = 57%Z) by (rewrite py_int_nonneg by lra; apply Rfloor_unique; lra). rewrite E1.
    assert (E2 : round6 (y - 57) = 295780 / 1000000) by (unfold round6; rewrite (rint_near _ 295780) by (apply Rabs_def1; lra); reflexivity). rewrite E2.
    assert (E3 : py_int (295780 / 1000000 * 60) = 17%Z) by (rewrite py_int_nonneg by lra; apply Rfloor_unique; lra). rewrite E3.
    assert (E4 : round6 (y - 57 - 17 / 60) = 12446 / 1000000) by (unfold round6; rewrite (rint_near _ 12446) by (apply Rabs_def1; lra); reflexivity). rewrite E4.
    assert (E5 : py_int (12446 / 1000000 * 3600) = 44%Z) by (rewrite py_int_nonneg by lra; apply Rfloor_unique; lra). now rewrite E5. }
  split; [exact V|]. split; [exact S|]. intros round R.
  assert (A : Rabs (in_degrees (value x)) = y) by (rewrite V, D; apply Rabs_pos_eq; lra).
  pose proof (C93_same_fields round R x B) as T. cbv zeta in T. rewrite A, V, S in T. cbn [dms_neg dms_d dms_m dms_s] in T. apply T; clear T.
  - lra.
  - intros k. destruct (Z_le_gt_dec k 57) as [L|L]; [apply IZR_le in L; rewrite Rabs_pos_eq; lra|]. assert (L' : (58 <= k)%Z) by lia. apply IZR_le in L'. rewrite Rabs_left by lra. lra.
  - intros k. destruct (Z_le_gt_dec k 295779) as [L|L]; [apply IZR_le in L; rewrite Rabs_pos_eq; lra|]. assert (L' : (295780 <= k)%Z) by lia. apply IZR_le in L'. rewrite Rabs_left by lra. lra.
  - intros k. destruct (Z_le_gt_dec k 12445) as [L|L]; [apply IZR_le in L; rewrite Rabs_pos_eq; lra|]. assert (L' : (12446 <= k)%Z) by lia. apply IZR_le in L'. rewrite Rabs_left by lra. lra.
Qed.

(** 4 seconds are written as 3, two minutes as one minute and 60 seconds, and 12.9999999 degrees as 12
    degrees and 60 minutes. *)
Theorem C93_fields_below_60_refuted :
  f_to_dms_string f_numpy_round6 (at_seconds (20 * 3600 + 2 * 60)) (at_seconds (10 * 3600 + 4)) = Ok "100003N0200160E"%string /\
  f_to_dms_string f_numpy_round6 (f_radians (f_div (f_of_Z 129999999) (f_of_Z 10000000))) (at_seconds 0) = Ok "000000N0126000E"%string.
Proof. split; vm_compute; reflexivity. Qed.
Print Assumptions C93_fields_below_60_refuted.
