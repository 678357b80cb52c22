(** C112: the pixel grid of a SICD image in binary64 arithmetic, bit by bit. *)
Require Import ZArith Reals Lra Lia SpecFloat.
Require Import Verif.Base Verif.BaseFacts Verif.RoundModel Verif.RoundSpec Verif.CoordFloatModel Verif.FloatModel Verif.FloatSpec Verif.FloatProofs Verif.FloatNearest
  Verif.TileFloatProofs Verif.DmsFloatProofs Verif.RpcFloatModel Verif.RpcFloatProofs Verif.SicdPixelFloatModel.
Local Open Scope R_scope.
Local Notation pw := (powerRZ 2).

(** Pixels up to 2^24 and spacings from 2^-20 to 2^20 metres. *)
Definition pixel_like (f : spec_float) : Prop := is_binary64 f /\ Rabs (value f) <= 2 ^ 24.
Definition spacing (f : spec_float) : Prop := is_binary64 f /\ / 2 ^ 20 <= value f <= 2 ^ 20.
Definition usable (c : FConverter) : Prop :=
  pixel_like (fc_scp_row c) /\ pixel_like (fc_scp_column c) /\ pixel_like (fc_first_row c) /\ pixel_like (fc_first_column c) /\
  spacing (fc_row_ss c) /\ spacing (fc_column_ss c).

Lemma small_tiny : tiny <= / 2 ^ 100.
Proof. unfold tiny. apply Rle_trans with (pw (-100)); [apply pw_le; lia|]. change (pw (-100)) with (/ 2 ^ 100). lra. Qed.
Lemma below_900 x : Rabs x <= 2 ^ 60 -> Rabs x < pw 900.
Proof. intros H. apply Rle_lt_trans with (1 := H). rewrite (pow_powerRZ 2 60). apply pw_lt. reflexivity. Qed.
Lemma bounded x r M : Rabs (r - x) <= binary64 * Rabs x + tiny -> Rabs x <= M -> Rabs (r - x) <= M / 2 ^ 53 + / 2 ^ 100.
Proof. intros H B. pose proof small_tiny. unfold binary64 in H. assert (/ 2 ^ 53 * Rabs x <= M / 2 ^ 53). { unfold Rdiv. rewrite Rmult_comm. apply Rmult_le_compat_r; [|exact B]. apply Rlt_le, Rinv_0_lt_compat, pow_lt. lra. } lra. Qed.
Lemma split_abs x a : Rabs x <= a <-> - a <= x <= a.
Proof. split; intros H; [revert H; unfold Rabs; destruct (Rcase_abs x); lra|apply Rabs_le; exact H]. Qed.

(** From a pixel to the grid: the distance from the scene centre in pixels, then in metres. *)
Lemma forward i f s ss : pixel_like i -> pixel_like f -> pixel_like s -> spacing ss ->
  let d := f_sub (f_add i f) s in
  is_binary64 d /\ Rabs (value d) <= 50331649 /\ Rabs (value d - (value i + value f - value s)) <= / 2 ^ 26 /\
  is_binary64 (f_mul d ss) /\ Rabs (value (f_mul d ss) - value d * value ss) <= (/ 2 ^ 27 + / 2 ^ 70) * value ss.
Proof.
  intros [Bi Ri] [Bf Rf] [Bs Rs] [Bss Rss]. cbv zeta. rewrite split_abs in Ri, Rf, Rs.
  destruct (add_abs i f Bi Bf) as [Ba Ea]; [apply below_900; rewrite split_abs; cbn [pow] in *; lra|].
  apply bounded with (M := 2 ^ 25) in Ea; [|rewrite split_abs; cbn [pow] in *; lra]. rewrite split_abs in Ea.
  destruct (sub_abs (f_add i f) s Ba Bs) as [Bd Ed]; [apply below_900; rewrite split_abs; cbn [pow] in *; lra|].
  apply bounded with (M := 50331648.5) in Ed; [|rewrite split_abs; cbn [pow] in *; lra]. rewrite split_abs in Ed.
  assert (Rd : Rabs (value (f_sub (f_add i f) s)) <= 50331649) by (rewrite split_abs; cbn [pow] in *; lra).
  split; [exact Bd|]. split; [exact Rd|]. split; [rewrite split_abs; cbn [pow] in *; lra|].
  set (d := f_sub (f_add i f) s) in *.
  assert (S0 : 0 < value ss) by (cbn [pow] in Rss; lra).
  assert (P : Rabs (value d * value ss) <= 50331649 * value ss). { rewrite Rabs_mult, (Rabs_right (value ss)) by lra. apply Rmult_le_compat_r; [lra|exact Rd]. }
  destruct (mul_abs d ss Bd Bss) as [Bx Ex]. { apply below_900. cbn [pow] in *. lra. }
  split; [exact Bx|]. apply Rle_trans with (1 := Ex). pose proof small_tiny as T. unfold binary64.
  assert (/ 2 ^ 53 * Rabs (value d * value ss) <= / 2 ^ 53 * (50331649 * value ss)) by (apply Rmult_le_compat_l; [apply Rlt_le, Rinv_0_lt_compat, pow_lt; lra|exact P]).
  cbn [pow] in *. lra.
Qed.

Lemma axis i f s ss : pixel_like i -> pixel_like f -> pixel_like s -> spacing ss ->
  let g := f_from_pixel (f_add i f) s ss in
  is_binary64 g /\ Rabs (value g - (value i + value f - value s) * value ss) <= value ss / 2 ^ 25 /\
  is_binary64 (f_sub (f_from_grid g s ss) f) /\ Rabs (value (f_sub (f_from_grid g s ss) f) - value i) <= / 2 ^ 24.
Proof.
  intros Pi Pf Ps Pss. cbv zeta. destruct (forward i f s ss Pi Pf Ps Pss) as (Bd & Rd & Ed & Bx & Ex). unfold f_from_pixel, f_from_grid.
  set (d := f_sub (f_add i f) s) in *. set (x := f_mul d ss) in *.
  destruct Pi as [Bi Ri]. destruct Pf as [Bf Rf]. destruct Ps as [Bs Rs]. destruct Pss as [Bss Rss].
  assert (S0 : 0 < value ss) by (cbn [pow] in Rss; lra).
  split; [exact Bx|]. split.
  { replace (value x - (value i + value f - value s) * value ss) with ((value x - value d * value ss) + (value d - (value i + value f - value s)) * value ss) by ring.
    apply Rle_trans with (1 := Rabs_triang _ _). rewrite (Rabs_mult _ (value ss)), (Rabs_right (value ss)) by lra.
    assert (Rabs (value d - (value i + value f - value s)) * value ss <= / 2 ^ 26 * value ss) by (apply Rmult_le_compat_r; lra).
    cbn [pow] in *. lra. }
  assert (Q : Rabs (value x / value ss - value d) <= / 2 ^ 27 + / 2 ^ 70).
  { replace (value x / value ss - value d) with ((value x - value d * value ss) / value ss) by (field; lra). unfold Rdiv.
    rewrite Rabs_mult, (Rabs_right (/ value ss)) by (apply Rle_ge, Rlt_le, Rinv_0_lt_compat; exact S0).
    apply Rmult_le_reg_r with (1 := S0). rewrite Rmult_assoc, Rinv_l, Rmult_1_r by lra. exact Ex. }
  rewrite split_abs in Q, Rd, Ri, Rf, Rs, Ed.
  destruct (div_abs x ss Bx Bss) as [Bq Eq]; [lra|apply below_900; rewrite split_abs; cbn [pow] in *; lra|].
  apply bounded with (M := 50331650) in Eq; [|rewrite split_abs; cbn [pow] in *; lra]. rewrite split_abs in Eq.
  destruct (add_abs (f_div x ss) s Bq Bs) as [Bp Ep]; [apply below_900; rewrite split_abs; cbn [pow] in *; lra|].
  apply bounded with (M := 2 ^ 26) in Ep; [|rewrite split_abs; cbn [pow] in *; lra]. rewrite split_abs in Ep.
  destruct (sub_abs (f_add (f_div x ss) s) f Bp Bf) as [Br Er]; [apply below_900; rewrite split_abs; cbn [pow] in *; lra|].
  apply bounded with (M := 2 ^ 26) in Er; [|rewrite split_abs; cbn [pow] in *; lra]. rewrite split_abs in Er.
  split; [exact Br|]. rewrite split_abs. cbn [pow] in *. lra.
Qed.

(** The grid location is that of the exact formula within 2^-25 of a sample spacing. *)
Theorem C112_grid_location :
  forall (c : FConverter) (x y : spec_float), usable c -> pixel_like x -> pixel_like y ->
  let g := f_grid_location c x y in
  is_binary64 (fst g) /\ is_binary64 (snd g) /\
  Rabs (value (fst g) - (value y + value (fc_first_row c) - value (fc_scp_row c)) * value (fc_row_ss c)) <= value (fc_row_ss c) / 2 ^ 25 /\
  Rabs (value (snd g) - (value x + value (fc_first_column c) - value (fc_scp_column c)) * value (fc_column_ss c)) <= value (fc_column_ss c) / 2 ^ 25.
Proof.
  intros c x y (A & B & C & D & E & F) Px Py. cbv zeta. cbn [f_grid_location fst snd].
  destruct (axis y _ _ _ Py C A E) as (G1 & G2 & _). destruct (axis x _ _ _ Px D B F) as (H1 & H2 & _). tauto.
Qed.
Print Assumptions C112_grid_location.

(** A pixel comes back from its own grid location within 2^-24 of a pixel. *)
Theorem C112_round_trip :
  forall (c : FConverter) (x y : spec_float), usable c -> pixel_like x -> pixel_like y ->
  let p := f_to_pixel c (f_grid_location c x y) in
  is_binary64 (fst p) /\ is_binary64 (snd p) /\
  Rabs (value (fst p) - value x) <= / 2 ^ 24 /\ Rabs (value (snd p) - value y) <= / 2 ^ 24.
Proof.
  intros c x y (A & B & C & D & E & F) Px Py. cbv zeta. cbn [f_grid_location f_to_pixel fst snd].
  destruct (axis y _ _ _ Py C A E) as (_ & _ & G1 & G2). destruct (axis x _ _ _ Px D B F) as (_ & _ & H1 & H2). tauto.
Qed.
Print Assumptions C112_round_trip.

(** A whole number of pixels is added and subtracted exactly. *)
Lemma whole_sum x a : (Z.abs x <= 2 ^ 24)%Z -> (Z.abs a <= 2 ^ 24)%Z -> is_binary64 (f_add (f_of_Z x) (f_of_Z a)) /\ value (f_add (f_of_Z x) (f_of_Z a)) = IZR (x + a).
Proof.
  intros X A. destruct (of_Z_exact x) as [Bx Vx]; [lia|]. destruct (of_Z_exact a) as [Ba Va]; [lia|]. destruct (of_Z_exact (x + a)) as [Bs Vs]; [lia|].
  assert (F : finite (f_add (f_of_Z x) (f_of_Z a))).
  { apply add_finite; [apply Bx|apply Ba|]. rewrite Vx, Va, <- plus_IZR, <- abs_IZR. apply Rle_lt_trans with (IZR (2 ^ 25)); [apply IZR_le; lia|]. rewrite <- pw_IZR by lia. apply pw_lt. lia. }
  pose proof (add_nearest _ _ Bx Ba F) as N. rewrite Vx, Va, <- plus_IZR in N. split; [apply N|]. exact (nearest_exact _ _ _ N Bs Vs).
Qed.
Lemma same_sum x a : (0 <= x <= 2 ^ 24)%Z -> (0 <= a <= 2 ^ 24)%Z -> f_add (f_of_Z x) (f_of_Z a) = f_add (f_of_Z (x + a)) (S754_zero false).
Proof.
  intros X A. destruct (Z.eq_dec (x + a) 0) as [E|E].
  - assert (x = 0 /\ a = 0)%Z as [-> ->] by lia. reflexivity.
  - destruct (whole_sum x a) as [B V]; [lia|lia|]. destruct (of_Z_exact (x + a)) as [Bs Vs]; [lia|].
    assert (f_add (f_of_Z (x + a)) (S754_zero false) = f_of_Z (x + a)) as ->.
    { destruct (f_of_Z (x + a)) as [s|s| |s m e]; [|destruct Bs as [[] _]|destruct Bs as [[] _]|reflexivity]. cbn [value] in Vs. exfalso. apply E. apply eq_IZR. now rewrite <- Vs. }
    apply same_value; [exact B|exact Bs|now rewrite V, Vs|]. rewrite V. intros H. apply E. now apply eq_IZR.
Qed.

(** A chip and the image that it was cut from agree bit for bit: pixel (x, y) of the chip has the
    grid location of the pixel of the full image that lies at the first pixel plus (x, y). *)
Theorem C112_chip :
  forall (c : FConverter) (x y column row : Z),
  (0 <= x <= 2 ^ 24)%Z -> (0 <= y <= 2 ^ 24)%Z -> (0 <= column <= 2 ^ 24)%Z -> (0 <= row <= 2 ^ 24)%Z ->
  let at_first r k := mkFConverter (fc_scp_row c) (fc_scp_column c) (fc_row_ss c) (fc_column_ss c) r k in
  f_grid_location (at_first (f_of_Z row) (f_of_Z column)) (f_of_Z x) (f_of_Z y) =
  f_grid_location (at_first (S754_zero false) (S754_zero false)) (f_of_Z (x + column)) (f_of_Z (y + row)).
Proof.
  intros c x y k r X Y K R. unfold f_grid_location. cbn [fc_scp_row fc_scp_column fc_row_ss fc_column_ss fc_first_row fc_first_column].
  now rewrite (same_sum x k X K), (same_sum y r Y R).
Qed.
Print Assumptions C112_chip.

Lemma centre_axis i f ss : (Z.abs i <= 2 ^ 24)%Z -> (Z.abs f <= 2 ^ 24)%Z -> (Z.abs (i + f) <= 2 ^ 24)%Z -> spacing ss ->
  let g := f_from_pixel (f_add (f_of_Z i) (f_of_Z f)) (f_of_Z (i + f)) ss in
  value g = 0 /\ value (f_sub (f_from_grid g (f_of_Z (i + f)) ss) (f_of_Z f)) = IZR i.
Proof.
  intros I F S [Bss Rss]. cbv zeta. destruct (whole_sum i f I F) as [Ba Va]. destruct (of_Z_exact (i + f)) as [Bs Vs]; [lia|].
  destruct (of_Z_exact f) as [Bf Vf]; [lia|]. destruct (of_Z_exact i) as [Bi Vi]; [lia|]. assert (S0 : 0 < value ss) by (cbn [pow] in Rss; lra).
  assert (Z0 : Rabs 0 < pw 900) by (rewrite Rabs_R0; apply pw_pos). unfold f_from_pixel, f_from_grid.
  set (d := f_sub (f_add (f_of_Z i) (f_of_Z f)) (f_of_Z (i + f))).
  assert (D : nearest 0 d). { replace 0 with (value (f_add (f_of_Z i) (f_of_Z f)) - value (f_of_Z (i + f))) by (rewrite Va, Vs; ring). apply sub_nearest; [exact Ba|exact Bs|]. apply sub_finite; [apply Ba|apply Bs|]. now rewrite Va, Vs, Rminus_diag_eq. }
  pose proof (nearest_exact _ _ _ D zero_binary64 eq_refl) as Vd.
  assert (X : nearest 0 (f_mul d ss)). { replace 0 with (value d * value ss) by (rewrite Vd; ring). apply mul_nearest; [apply D|exact Bss|]. apply mul_finite; [apply D|apply Bss|]. now rewrite Vd, Rmult_0_l. }
  pose proof (nearest_exact _ _ _ X zero_binary64 eq_refl) as Vx. split; [exact Vx|].
  assert (Q : nearest 0 (f_div (f_mul d ss) ss)). { replace 0 with (value (f_mul d ss) / value ss) by (rewrite Vx; field; lra). apply div_nearest; [apply X|exact Bss|lra|]. apply div_finite; [apply X|apply Bss|lra|]. unfold Rdiv. now rewrite Vx, Rmult_0_l. }
  pose proof (nearest_exact _ _ _ Q zero_binary64 eq_refl) as Vq.
  assert (B25 : forall z, (Z.abs z <= 2 ^ 24)%Z -> Rabs (IZR z) < pw 900). { intros z Hz. rewrite <- abs_IZR. apply Rle_lt_trans with (IZR (2 ^ 24)); [now apply IZR_le|]. rewrite <- pw_IZR by lia. apply pw_lt. lia. }
  set (q := f_div (f_mul d ss) ss) in *.
  assert (P : nearest (IZR (i + f)) (f_add q (f_of_Z (i + f)))). { replace (IZR (i + f)) with (value q + value (f_of_Z (i + f))) by (rewrite Vq, Vs; ring). apply add_nearest; [apply Q|exact Bs|]. apply add_finite; [apply Q|apply Bs|]. rewrite Vq, Vs, Rplus_0_l. now apply B25. }
  pose proof (nearest_exact _ _ _ P Bs Vs) as Vp.
  assert (R : nearest (IZR i) (f_sub (f_add q (f_of_Z (i + f))) (f_of_Z f))). { replace (IZR i) with (value (f_add q (f_of_Z (i + f))) - value (f_of_Z f)) by (rewrite Vp, Vf, plus_IZR; ring). apply sub_nearest; [apply P|exact Bf|]. apply sub_finite; [apply P|apply Bf|]. rewrite Vp, Vf, <- minus_IZR. apply B25. lia. }
  exact (nearest_exact _ _ _ R Bi Vi).
Qed.

(** The pixel of the scene centre has the grid location (0, 0) and comes back exactly. *)
Theorem C112_scene_centre :
  forall (x y column row : Z) (row_ss column_ss : spec_float),
  (Z.abs x <= 2 ^ 24)%Z -> (Z.abs y <= 2 ^ 24)%Z -> (Z.abs column <= 2 ^ 24)%Z -> (Z.abs row <= 2 ^ 24)%Z ->
  (Z.abs (x + column) <= 2 ^ 24)%Z -> (Z.abs (y + row) <= 2 ^ 24)%Z -> spacing row_ss -> spacing column_ss ->
  let c := mkFConverter (f_of_Z (y + row)) (f_of_Z (x + column)) row_ss column_ss (f_of_Z row) (f_of_Z column) in
  let g := f_grid_location c (f_of_Z x) (f_of_Z y) in
  value (fst g) = 0 /\ value (snd g) = 0 /\
  value (fst (f_to_pixel c g)) = IZR x /\ value (snd (f_to_pixel c g)) = IZR y.
Proof.
  intros x y k r rs cs X Y K R XK YR Sr Sc. cbv zeta. unfold f_grid_location, f_to_pixel. cbn [fst snd fc_scp_row fc_scp_column fc_row_ss fc_column_ss fc_first_row fc_first_column].
  destruct (centre_axis x k cs X K XK Sc) as [A1 A2]. destruct (centre_axis y r rs Y R YR Sr) as [B1 B2]. now repeat split.
Qed.
Print Assumptions C112_scene_centre.

(** Rows and columns keep their order. *)
Theorem C112_order :
  forall (c : FConverter) (x x' y y' : spec_float), usable c -> pixel_like x -> pixel_like x' -> pixel_like y -> pixel_like y' ->
  value x <= value x' -> value y <= value y' ->
  value (fst (f_grid_location c x y)) <= value (fst (f_grid_location c x' y')) /\
  value (snd (f_grid_location c x y)) <= value (snd (f_grid_location c x' y')).
Proof.
  assert (K : forall i j f s ss, pixel_like i -> pixel_like j -> pixel_like f -> pixel_like s -> spacing ss -> value i <= value j ->
    value (f_from_pixel (f_add i f) s ss) <= value (f_from_pixel (f_add j f) s ss)).
  { assert (A : forall i f, pixel_like i -> pixel_like f -> nearest (value i + value f) (f_add i f) /\ Rabs (value (f_add i f)) <= 2 ^ 25 + 1).
    { intros i f [Bi Ri] [Bf Rf]. rewrite split_abs in Ri, Rf. assert (Q : Rabs (value i + value f) < pw 900) by (apply below_900; rewrite split_abs; cbn [pow] in *; lra).
      split; [apply add_nearest; [exact Bi|exact Bf|apply add_finite; [apply Bi|apply Bf|exact Q]]|].
      destruct (add_abs i f Bi Bf Q) as [_ E]. apply bounded with (M := 2 ^ 25) in E; [|rewrite split_abs; cbn [pow] in *; lra]. rewrite split_abs in *. cbn [pow] in *. lra. }
    assert (D : forall i f s, pixel_like i -> pixel_like f -> pixel_like s -> nearest (value (f_add i f) - value s) (f_sub (f_add i f) s)).
    { intros i f s Pi Pf [Bs Rs]. destruct (A i f Pi Pf) as [N R]. rewrite split_abs in R, Rs. apply sub_nearest; [apply N|exact Bs|]. apply sub_finite; [apply N|apply Bs|]. apply below_900. rewrite split_abs. cbn [pow] in *. lra. }
    intros i j f s ss Pi Pj Pf Ps Pss L. unfold f_from_pixel.
    assert (L1 : value (f_add i f) <= value (f_add j f)) by (apply (nearest_monotone _ _ _ _ (proj1 (A i f Pi Pf)) (proj1 (A j f Pj Pf))); lra).
    assert (L2 : value (f_sub (f_add i f) s) <= value (f_sub (f_add j f) s)) by (apply (nearest_monotone _ _ _ _ (D i f s Pi Pf Ps) (D j f s Pj Pf Ps)); lra).
    assert (M : forall i, pixel_like i -> nearest (value (f_sub (f_add i f) s) * value ss) (f_mul (f_sub (f_add i f) s) ss)).
    { intros i0 P0. destruct (forward i0 f s ss P0 Pf Ps Pss) as (Bd & Rd & _). destruct Pss as [Bss Rss]. apply mul_nearest; [exact Bd|exact Bss|]. apply mul_finite; [apply Bd|apply Bss|].
      apply below_900. rewrite Rabs_mult, (Rabs_right (value ss)) by (cbn [pow] in Rss; lra). apply Rle_trans with (50331649 * 2 ^ 20); [apply Rmult_le_compat; [apply Rabs_pos|cbn [pow] in *; lra|exact Rd|apply Rss]|cbn [pow]; lra]. }
    apply (nearest_monotone _ _ _ _ (M i Pi) (M j Pj)). destruct Pss as [_ Rss]. apply Rmult_le_compat_r; [cbn [pow] in Rss; lra|exact L2]. }
  intros c x x' y y' (A & B & C & D & E & F) X X' Y Y' LX LY. cbn [f_grid_location fst snd]. split; now apply K.
Qed.
Print Assumptions C112_order.

(** Over the reals a pixel comes back exactly.  Here it does not, not even a whole one: row 1311 of
    a chip of an image with a spacing of 0.3 comes back as 1310.9999999999982, a pixel earlier for
    whoever takes the whole part. *)
Definition three_tenths : spec_float := S754_finite false 5404319552844595 (-54).
Definition chip : FConverter := mkFConverter (f_of_Z 19548) (f_of_Z 500) three_tenths three_tenths (f_of_Z 2421) (f_of_Z 100).
Lemma whole_like n : (Z.abs n <= 2 ^ 24)%Z -> pixel_like (f_of_Z n).
Proof. intros H. destruct (of_Z_exact n) as [B V]; [lia|]. split; [exact B|]. rewrite V, <- abs_IZR. apply Rle_trans with (IZR (2 ^ 24)); [now apply IZR_le|]. cbn [pow]. change (IZR (2 ^ 24)) with 16777216. lra. Qed.
Lemma three_tenths_spacing : spacing three_tenths.
Proof. split; [now split|]. unfold three_tenths. rewrite value_sign. cbn [sign]. change (pw (-54)) with (/ 2 ^ 54). cbn [pow]. lra. Qed.
Lemma chip_usable : usable chip.
Proof. repeat split; try apply whole_like; try apply three_tenths_spacing; lia. Qed.
Theorem C112_exact_refuted :
  ~ (forall (c : FConverter) (x y : Z), usable c -> (0 <= x <= 2 ^ 24)%Z -> (0 <= y <= 2 ^ 24)%Z ->
     f_to_pixel c (f_grid_location c (f_of_Z x) (f_of_Z y)) = (f_of_Z x, f_of_Z y)).
Proof. intros H. specialize (H chip 0%Z 1311%Z chip_usable ltac:(lia) ltac:(lia)). vm_compute in H. discriminate H. Qed.
Print Assumptions C112_exact_refuted.

Example round_trip_non_vacuous :
  usable chip /\ pixel_like (f_of_Z 7) /\ pixel_like (f_of_Z 1311) /\
  f_to_pixel chip (f_grid_location chip (f_of_Z 7) (f_of_Z 1311)) = (f_of_Z 7, S754_finite false 5765838976057336 (-42)) /\
  f_floor (snd (f_to_pixel chip (f_grid_location chip (f_of_Z 7) (f_of_Z 1311)))) = Some 1310%Z.
Proof. split; [exact chip_usable|]. split; [apply whole_like; lia|]. split; [apply whole_like; lia|]. split; now vm_compute. Qed.
Example scene_centre_non_vacuous :
  f_grid_location chip (f_of_Z 400) (f_of_Z 17127) = (S754_zero false, S754_zero false) /\
  f_to_pixel chip (S754_zero false, S754_zero false) = (f_of_Z 400, f_of_Z 17127) /\ spacing three_tenths.
Proof. split; [now vm_compute|]. split; [now vm_compute|exact three_tenths_spacing]. Qed.
Example chip_non_vacuous :
  f_grid_location chip (f_of_Z 7) (f_of_Z 1311) = f_grid_location (mkFConverter (f_of_Z 19548) (f_of_Z 500) three_tenths three_tenths f_zero f_zero) (f_of_Z 107) (f_of_Z 3732).
Proof. now vm_compute. Qed.
