(** C94: displayed pixels in binary64 arithmetic. *)
Require Import ZArith Reals List Bool Lra Lia SpecFloat.
Require Import Verif.Base Verif.BaseFacts Verif.DisplayModel Verif.DisplayProofs Verif.CoordFloatModel Verif.FloatModel Verif.FloatSpec Verif.FloatProofs Verif.FloatNearest
  Verif.TileFloatProofs Verif.DmsFloatModel Verif.DmsFloatProofs Verif.DisplayFloatModel Verif.DisplayFloatSpec Verif.DisplayFloatProofs Verif.DisplayHistProofs.
Import ListNotations.
Local Open Scope R_scope.
Local Notation pw := (powerRZ 2).

(** Every pixel becomes a byte, which is the whole part of the exact shade up to 2^-42. *)
Theorem C94_minmax :
  forall lo hi p, moderate lo -> moderate hi -> moderate p -> exists z, f_minmax_pixel lo hi p = Some z /\
  shows z (minmax_shade (value lo) (value hi) (value p)) (pw (-42)).
Proof.
  intros lo hi p L H P. destruct (minmax_value_level lo hi p L H P) as [B E]. destruct (trunc_level _ B) as (z & T & F & R).
  exists z. split; [exact T|]. exact (shows_close _ _ _ _ F R E).
Qed.
Print Assumptions C94_minmax.

Theorem C94_dra :
  forall smin smax p, moderate smin -> moderate smax -> moderate p -> exists z, f_dra_pixel smin smax p = Some z /\
  shows z (dra_shade (value smin) (value smax) (value p)) (pw (-42)).
Proof.
  intros smin smax p L H P. destruct (dra_value_level smin smax p L H P) as [B E]. destruct (trunc_level _ B) as (z & T & F & R).
  exists z. split; [exact T|]. exact (shows_close _ _ _ _ F R E).
Qed.
Print Assumptions C94_dra.

(** What [shows] amounts to: at most one level off, and none unless the exact shade is next to a whole number. *)
Theorem C94_shows :
  forall z v d, shows z v d -> (d < 1 -> (Z.abs (z - Rfloor v) <= 1)%Z) /\ (apart d v -> z = Rfloor v).
Proof. intros z v d S. split; [apply shows_near; exact S|apply shows_apart; exact S]. Qed.
Print Assumptions C94_shows.

(** The order of the pixels is kept. *)
Theorem C94_order :
  forall a b p q, moderate a -> moderate b -> moderate p -> moderate q -> value p <= value q ->
  (forall x y, f_minmax_pixel a b p = Some x -> f_minmax_pixel a b q = Some y -> (x <= y)%Z) /\
  (forall x y, f_dra_pixel a b p = Some x -> f_dra_pixel a b q = Some y -> (x <= y)%Z).
Proof.
  intros a b p q A B P Q L. split; intros x y X Y.
  - destruct (minmax_value_level a b p A B P) as [Bp _]. destruct (minmax_value_level a b q A B Q) as [Bq _].
    destruct (trunc_level _ Bp) as (x' & Tx & -> & _). destruct (trunc_level _ Bq) as (y' & Ty & -> & _).
    unfold f_minmax_pixel in X, Y. unfold f_minmax_value in Tx, Ty. rewrite Tx in X. rewrite Ty in Y. injection X as <-. injection Y as <-.
    apply Rfloor_mono, level_mono. now apply minmax_value_mono.
  - destruct (dra_value_level a b p A B P) as [Bp _]. destruct (dra_value_level a b q A B Q) as [Bq _].
    destruct (trunc_level _ Bp) as (x' & Tx & -> & _). destruct (trunc_level _ Bq) as (y' & Ty & -> & _).
    unfold f_dra_pixel in X, Y. unfold f_dra_value in Tx, Ty. rewrite Tx in X. rewrite Ty in Y. injection X as <-. injection Y as <-.
    apply Rfloor_mono, level_mono. now apply dra_value_mono.
Qed.
Print Assumptions C94_order.

(** The ends: black is exact, and white is shown as 254 or 255. *)
Theorem C94_ends :
  forall a b p, moderate a -> moderate b -> moderate p ->
  (value p <= value a -> f_minmax_pixel a b p = Some 0%Z /\ f_dra_pixel a b p = Some 0%Z) /\
  (value a <= 0 -> 1 <= value b <= value p -> f_minmax_pixel a b p = Some 254%Z \/ f_minmax_pixel a b p = Some 255%Z) /\
  (1 <= value b - value a -> value b <= value p -> f_dra_pixel a b p = Some 254%Z \/ f_dra_pixel a b p = Some 255%Z).
Proof.
  intros a b p A B P. assert (T : pw (-42) < 1) by (change 1 with (pw 0); apply pw_lt; lia).
  assert (G : forall z v, shows z v (pw (-42)) -> v = 255 -> z = 254%Z \/ z = 255%Z).
  { intros z v (R & S1 & S2) ->. enough (253 < z)%Z by lia. apply lt_IZR. lra. }
  split; [intros L; split|split].
  - assert (Z0 : value (f_minmax_value a b p) <= 0).
    { pose proof (minmax_product a b p A B P) as N. cbn zeta in N. destruct (gain_nearest b B) as (_ & _ & _ & G1). destruct zero_float as [B0 V0]. rewrite <- V0. apply (nearest_le _ _ _ N B0).
      rewrite V0. destruct (moderate_sub p a P A) as (Ns & _). assert (S : value (f_sub p a) <= 0) by (rewrite <- V0; apply (nearest_le _ _ _ Ns B0); rewrite V0; lra). nra. }
    destruct (minmax_value_level a b p A B P) as [Bp _]. destruct (trunc_level _ Bp) as (z & Tz & Ez & _). unfold f_minmax_pixel. unfold f_minmax_value in *. rewrite Tz. f_equal.
    rewrite Ez, (level_low _ Z0). apply (Rfloor_IZR 0).
  - assert (Z0 : value (f_dra_value a b p) <= 0).
    { pose proof (dra_quotient a b p A B P) as N. destruct (dra_width a b A B) as (_ & _ & W & _). destruct zero_float as [B0 V0]. rewrite <- V0. apply (nearest_le _ _ _ N B0).
      rewrite V0. destruct (moderate_sub p a P A) as (Ns & _). assert (S : value (f_sub p a) <= 0) by (rewrite <- V0; apply (nearest_le _ _ _ Ns B0); rewrite V0; lra).
      destruct (dra_product a p A P) as (Nm & _). assert (M : value (f_mul (f_of_Z 255) (f_sub p a)) <= 0) by (rewrite <- V0; apply (nearest_le _ _ _ Nm B0); rewrite V0; lra).
      unfold Rdiv. assert (0 < / value (f_max_one (f_sub b a))) by (apply Rinv_0_lt_compat; lra). nra. }
    destruct (dra_value_level a b p A B P) as [Bp _]. destruct (trunc_level _ Bp) as (z & Tz & Ez & _). unfold f_dra_pixel. unfold f_dra_value in *. rewrite Tz. f_equal.
    rewrite Ez, (level_low _ Z0). apply (Rfloor_IZR 0).
  - intros La Lb. destruct (C94_minmax a b p A B P) as (z & -> & S). destruct (G _ _ S) as [->| ->]; auto. unfold minmax_shade. rewrite (Rmax_left (value b) 1) by lra.
    apply level_high. apply Rmult_le_reg_r with (value b); [lra|]. unfold Rdiv. rewrite Rmult_assoc, Rinv_l by lra. lra.
  - intros La Lb. destruct (C94_dra a b p A B P) as (z & -> & S). destruct (G _ _ S) as [->| ->]; auto. unfold dra_shade. rewrite (Rmax_left _ 1) by lra.
    apply level_high. apply Rmult_le_reg_r with (value b - value a); [lra|]. unfold Rdiv. rewrite Rmult_assoc, Rinv_l by lra. lra.
Qed.
Print Assumptions C94_ends.

(** MINMAX: the brightest pixel of a band is not always white.  Bytes from 0 to m: these are the maxima
    whose own pixels are shown as 254 (in exact arithmetic they are 255, C45_minmax_ends). *)
Theorem C94_brightest :
  List.filter (fun m => negb (match f_minmax_pixel (f_of_Z 0) (f_of_Z m) (f_of_Z m) with Some z => (z =? 255)%Z | None => false end)) (List.map Z.of_nat (seq 1 255)) =
  [25; 29; 50; 53; 58; 91; 93; 100; 103; 105; 106; 116; 117; 121; 182; 185; 186; 187; 191; 200; 203; 206; 207; 210; 212; 217; 221; 232; 233; 234; 235; 242]%Z.
Proof. vm_compute. reflexivity. Qed.
Print Assumptions C94_brightest.

Theorem C94_minmax_white_refuted :
  ~ (forall lo hi, whole 255 lo -> whole 255 hi -> value lo = 0 -> 1 <= value hi -> f_minmax_pixel lo hi hi = Some 255%Z).
Proof.
  intros H. destruct zero_float as [B0 V0]. destruct (of_Z_exact 100 ltac:(lia)) as [B1 V1].
  specialize (H (f_of_Z 0) (f_of_Z 100)). assert (E : f_minmax_pixel (f_of_Z 0) (f_of_Z 100) (f_of_Z 100) = Some 254%Z) by (vm_compute; reflexivity).
  rewrite E in H. enough (Some 254%Z = Some 255%Z) by discriminate. apply H; auto; [split; [exact B0|exists 0%Z; split; [exact V0|lia]]|split; [exact B1|exists 100%Z; split; [exact V1|lia]]|].
  rewrite V1. lra.
Qed.
Print Assumptions C94_minmax_white_refuted.

(** DRA with a range from 0.2 to 10: the pixel 10 is shown as 254. *)
Theorem C94_dra_white_refuted :
  ~ (forall smin smax, moderate smin -> moderate smax -> 1 <= value smax - value smin -> f_dra_pixel smin smax smax = Some 255%Z).
Proof.
  intros H. destruct (of_Z_exact 10 ltac:(lia)) as [B1 V1]. destruct (weight_value 2 (or_introl eq_refl)) as (B0 & _ & V0).
  specialize (H (f_literal 2 10) (f_of_Z 10)). assert (E : f_dra_pixel (f_literal 2 10) (f_of_Z 10) (f_of_Z 10) = Some 254%Z) by (vm_compute; reflexivity).
  rewrite E in H. assert (P : pw 4 <= pw 400) by (apply pw_le; lia). rewrite (pw_IZR 4) in P by lia. change (2 ^ 4)%Z with 16%Z in P.
  enough (Some 254%Z = Some 255%Z) by discriminate. apply H; [split; [exact B0|]|split; [exact B1|]|rewrite V1; lra]; rewrite ?V1, Rabs_pos_eq; lra.
Qed.
Print Assumptions C94_dra_white_refuted.

(** DRA with whole numbers is exact. *)
Theorem C94_dra_whole :
  forall smin smax p, whole (2 ^ 40) smin -> whole (2 ^ 40) smax -> whole (2 ^ 40) p ->
  f_dra_pixel smin smax p = Some (Rfloor (dra_shade (value smin) (value smax) (value p))).
Proof.
  intros smin smax p (Ba & a & Va & Ha) (Bb & b & Vb & Hb) (Bp & q & Vp & Hq).
  destruct (sub_whole p smin (2 ^ 40) q a Bp Ba Vp Va Hq Ha ltac:(lia)) as [Bs Vs]. destruct (sub_whole smax smin (2 ^ 40) b a Bb Ba Vb Va Hb Ha ltac:(lia)) as [Bd Vd].
  assert (Mod : forall x n, is_binary64 x -> value x = IZR n -> (Z.abs n <= 2 ^ 40)%Z -> moderate x).
  { intros x n Bx Vx Hn. split; [exact Bx|]. rewrite Vx, <- abs_IZR. apply Rle_trans with (IZR (2 ^ 40)); [now apply IZR_le|]. rewrite <- pw_IZR by lia. apply pw_le. lia. }
  pose proof (Mod _ _ Ba Va Ha) as Ma. pose proof (Mod _ _ Bb Vb Hb) as Mb. pose proof (Mod _ _ Bp Vp Hq) as Mp.
  pose proof (dra_quotient smin smax p Ma Mb Mp) as N. destruct (max_one_value _ Bd) as [Bm Vm]. rewrite Vd in Vm.
  destruct (dra_product smin p Ma Mp) as (Np & _). destruct (of_Z_exact (255 * (q - a))) as [Bx Vx]; [lia|].
  rewrite Vs, <- mult_IZR in Np. pose proof (nearest_exact _ _ _ Np Bx Vx) as Vn.
  assert (WI : Rmax (IZR (b - a)) 1 = IZR (Z.max (b - a) 1)). { unfold Rmax. destruct Rle_dec as [L|L]; [apply le_IZR in L; f_equal; lia|f_equal; assert (1 < b - a)%Z by (apply lt_IZR; lra); lia]. }
  rewrite WI in Vm. set (W := Z.max (b - a) 1) in *. rewrite Vn, Vm in N. set (n := (255 * (q - a))%Z) in *.
  unfold f_dra_pixel. fold (f_dra_value smin smax p). destruct (trunc_level _ (proj1 N)) as (z & Tz & Ez & Rz). rewrite Tz. f_equal.
  unfold dra_shade. rewrite Va, Vb, Vp, <- !minus_IZR, WI, <- mult_IZR. fold n W. rewrite Ez in *. clear Ez Tz.
  set (v := IZR n / IZR W) in *. set (w := value (f_dra_value smin smax p)) in *.
  assert (W0 : (1 <= W <= 2 ^ 41)%Z) by (unfold W; lia). assert (W0' : 1 <= IZR W) by (apply IZR_le; lia).
  assert (K : forall k : Z, (0 <= k <= 255)%Z -> (IZR k <= w <-> IZR k <= v)).
  { intros k Hk. destruct (of_Z_exact k) as [Bk Vk]; [lia|]. split; intros L.
    - destruct (Rle_lt_dec (IZR k) v) as [|G]; [assumption|exfalso].
      assert (G' : v <= IZR k - pw (-41)).
      { unfold v in *. apply Rmult_le_reg_r with (IZR W); [lra|]. assert (Gn : IZR n < IZR k * IZR W) by (apply Rmult_lt_reg_r with (/ IZR W); [apply Rinv_0_lt_compat; lra|]; rewrite Rmult_assoc, Rinv_r by lra; lra).
        rewrite <- mult_IZR in Gn. apply lt_IZR in Gn. assert (Gn' : (n <= k * W - 1)%Z) by lia. apply IZR_le in Gn'. rewrite minus_IZR, mult_IZR in Gn'.
        unfold Rdiv. rewrite Rmult_assoc, Rinv_l, Rmult_1_r by lra. apply Rle_trans with (1 := Gn'). rewrite Rmult_minus_distr_r.
        enough (pw (-41) * IZR W <= 1) by lra. rewrite (pw_neg 41). assert (IZR W <= IZR (2 ^ 41)) by (apply IZR_le; lia). assert (0 < IZR (2 ^ 41)) by (apply IZR_lt; lia).
        apply Rmult_le_reg_l with (IZR (2 ^ 41)); [lra|]. rewrite <- Rmult_assoc, Rinv_r by lra. lra. }
      destruct (representable (k * 2 ^ 41 - 1) (-41)) as (g & Bg & Vg); [lia|lia|].
      rewrite minus_IZR, mult_IZR, Rmult_minus_distr_r, Rmult_assoc, <- pw_IZR, <- pw_add, Rmult_1_l in Vg by lia. change (pw (41 + -41)) with 1 in Vg. rewrite Rmult_1_r in Vg.
      assert (w <= value g) by (apply (nearest_le _ _ _ N Bg); rewrite Vg; exact G'). pose proof (pw_pos (-41)). lra.
    - unfold w. rewrite <- Vk. apply (nearest_ge _ _ _ N Bk). now rewrite Vk. }
  clear - K. destruct (Rfloor_spec (level v)) as [F1 F2]. destruct (Rfloor_spec (level w)) as [G1 G2]. pose proof (level_bounds v) as Lv. pose proof (level_bounds w) as Lw.
  assert (Q : forall u, 0 <= u -> forall k : Z, (0 <= k <= 255)%Z -> (IZR k <= level u <-> IZR k <= u)).
  { intros u U k Hk. assert (IZR k <= 255) by (apply IZR_le; lia). unfold level, Rmax, Rmin. repeat destruct Rle_dec; split; lra. }
  assert (Nz : forall x, 0 <= level x -> (0 <= Rfloor (level x))%Z) by (intros x X; apply Rfloor_ge_Z; exact X).
  assert (H0 : w < 0 <-> v < 0). { specialize (K 0%Z ltac:(lia)). lra. }
  destruct (Rlt_le_dec v 0) as [V|V]; [rewrite (level_low v), (level_low w) by (apply H0 in V || idtac; lra); reflexivity|].
  assert (Wn : 0 <= w) by (destruct (Rlt_le_dec w 0); [lra|assumption]).
  assert (Fv : (0 <= Rfloor (level v) <= 255)%Z) by (split; [apply Nz; lra|apply le_IZR; lra]). assert (Fw : (0 <= Rfloor (level w) <= 255)%Z) by (split; [apply Nz; lra|apply le_IZR; lra]).
  apply Z.le_antisymm.
  - apply Rfloor_ge_Z. apply Q; [exact V|exact Fw|]. apply K; [exact Fw|]. apply Q; [exact Wn|exact Fw|exact G1].
  - apply Rfloor_ge_Z. apply Q; [exact Wn|exact Fv|]. apply K; [exact Fv|]. apply Q; [exact V|exact Fv|exact F1].
Qed.
Print Assumptions C94_dra_whole.

(** The two cut-off buckets are those of exact arithmetic: the rounding of 0.02, 0.97 and 0.98 and of
    the products never moves them. *)
Theorem C94_buckets :
  forall c counts m, c = 2%Z \/ c = 97%Z \/ c = 98%Z -> pixel_counts counts ->
  let cum := c_cumulative 0 counts in let N := nth m cum 0%Z in
  f_find_low cum (f_mul (f_literal c 100) (f_of_Z N)) 0 m = find_low (cumulative 0 (map IZR counts)) (IZR c / 100 * IZR N) 0 m /\
  f_find_high cum (f_mul (f_literal c 100) (f_of_Z N)) m = find_high (cumulative 0 (map IZR counts)) (IZR c / 100 * IZR N) m.
Proof.
  intros c counts m C PC cum N. change (cumulative 0 (map IZR counts)) with (cumulative (IZR 0) (map IZR counts)). rewrite cumulative_IZR. fold cum.
  pose proof (fun i => nth_bound counts i PC) as Cb. fold cum in Cb. split; symmetry; [apply find_low_IZR|apply find_high_IZR]; auto; apply Cb.
Qed.
Print Assumptions C94_buckets.

(** The suggested and actual ranges are those of exact arithmetic up to 2^-46 of the size of the values. *)
Theorem C94_range :
  forall counts first last c k d, c = 97%Z \/ c = 98%Z -> pixel_counts counts -> (0 <= k <= 300)%Z -> given_size k first -> given_size k last ->
  INR (List.length counts) <= pw k ->
  from_counts (map IZR counts) (option_map value first) (option_map value last) (2/100) (IZR c/100) (2/10) (4/10) = Ok d ->
  exists f, f_from_counts counts first last (f_literal 2 100) (f_literal c 100) (f_literal 2 10) (f_literal 4 10) = Ok f /\
  Rabs (value (f_suggested_min f) - suggested_min d) <= pw (k - 46) /\ Rabs (value (f_suggested_max f) - suggested_max d) <= pw (k - 46) /\
  Rabs (value (f_actual_min f) - actual_min d) <= pw (k - 46) /\ Rabs (value (f_actual_max f) - actual_max d) <= pw (k - 46).
Proof.
  intros counts first last c k d C PC K Gf Gl Ln H. assert (Ne : counts <> []) by (intros ->; discriminate).
  destruct (from_counts_close counts first last c k (or_intror C) PC Ne K Gf Gl Ln) as (d' & f & H' & Hf & F). rewrite H in H'. injection H' as <-.
  exists f. split; [exact Hf|]. inversion F as [|? ? ? ? (_ & F1 & _) G1]; subst. inversion G1 as [|? ? ? ? (_ & F2 & _) G2]; subst.
  inversion G2 as [|? ? ? ? (_ & F3 & _) G3]; subst. inversion G3 as [|? ? ? ? (_ & F4 & _) _]; subst. auto.
Qed.
Print Assumptions C94_range.
Theorem C94_range_empty :
  forall first last a b c d, f_from_counts [] first last a b c d = Err IndexError.
Proof. reflexivity. Qed.
Print Assumptions C94_range_empty.

(** A band whose statistics are whole numbers below 2^(k-1), from its histogram to its bytes: up to
    2^(k-36) what exact arithmetic gives.  For 16 bit images (k = 17) that is two millionths of a level. *)
Theorem C94_dra_band :
  forall hist lo hi pixels out k counts d, (9 <= k <= 40)%Z -> whole (2 ^ (k - 1)) lo -> whole (2 ^ (k - 1)) hi -> Forall moderate pixels ->
  f_normalize_band_dra hist lo hi pixels = Ok out ->
  hist (Z.max 256 (truncate (value hi - value lo))) = Ok counts -> pixel_counts counts -> Z.of_nat (List.length counts) = Z.max 256 (truncate (value hi - value lo)) ->
  from_counts (map IZR counts) (Some (value lo)) (Some (value hi)) (2/100) (97/100) (2/10) (4/10) = Ok d ->
  Forall2 (fun p z => exists b, z = Some b /\ shows b (dra_shade (suggested_min d) (suggested_max d) (value p)) (pw (k - 36))) pixels out.
Proof.
  intros hist lo hi pixels out k counts d K (Bl & l & Vl & Hl) (Bh & h & Vh & Hh) Mp H Hc PC Len Hd.
  assert (P2 : (2 ^ (k - 1) * 2 = 2 ^ k)%Z) by (rewrite Z.mul_comm, <- Z.pow_succ_r by lia; f_equal; lia).
  assert (P40 : (2 ^ (k - 1) <= 2 ^ 40)%Z) by (apply Z.pow_le_mono_r; lia). assert (P8 : (2 ^ 8 <= 2 ^ k)%Z) by (apply Z.pow_le_mono_r; lia).
  destruct (sub_whole hi lo (2 ^ (k - 1)) h l Bh Bl Vh Vl Hh Hl ltac:(lia)) as [Bs Vs].
  assert (T : truncate (value hi - value lo) = (h - l)%Z).
  { rewrite Vh, Vl, <- minus_IZR. unfold truncate. rewrite Rfloor_IZR. destruct Rlt_dec; [|reflexivity]. unfold Rceil. rewrite <- opp_IZR, Rfloor_IZR. lia. }
  rewrite T in *. unfold f_normalize_band_dra in H. unfold f_int in H. rewrite trunc_value in H by apply Bs. rewrite Vs in H.
  assert (Ti : (if Rlt_dec (IZR (h - l)) 0 then Rceil (IZR (h - l)) else Rfloor (IZR (h - l))) = (h - l)%Z).
  { rewrite Vh, Vl, <- minus_IZR in T. exact T. }
  rewrite Ti in H. cbn [bind] in H. rewrite Hc in H. cbn [bind] in H.
  assert (Ne : counts <> []) by (intros ->; discriminate).
  assert (Hs : forall x n, is_binary64 x -> value x = IZR n -> (Z.abs n <= 2 ^ (k - 1))%Z -> given_size k (Some x)).
  { intros x n Bx Vx Hn. split; [exact Bx|]. rewrite Vx, <- abs_IZR. apply Rle_trans with (IZR (2 ^ k)); [apply IZR_le; lia|]. rewrite pw_IZR by lia. lra. }
  assert (Ln : INR (List.length counts) <= pw k). { rewrite INR_IZR_INZ, Len, pw_IZR by lia. apply IZR_le. lia. }
  destruct (from_counts_close counts (Some lo) (Some hi) 97 k (or_intror (or_introl eq_refl)) PC Ne ltac:(lia) (Hs _ _ Bl Vl Hl) (Hs _ _ Bh Vh Hh) Ln) as (d' & f & H' & Hf & F).
  cbn [option_map] in H'. rewrite Hd in H'. injection H' as <-. rewrite Hf in H. cbn [bind] in H. injection H as <-.
  inversion F as [|? ? ? ? (B1 & F1 & A1) G1]; subst. inversion G1 as [|? ? ? ? (B2 & F2 & A2) _]; subst. clear F G1.
  assert (M1 : moderate (f_suggested_min f)) by (split; [exact B1|apply Rle_trans with (1 := A1); apply pw_le; lia]).
  assert (M2 : moderate (f_suggested_max f)) by (split; [exact B2|apply Rle_trans with (1 := A2); apply pw_le; lia]).
  clear - Mp M1 M2 F1 F2 K. induction Mp as [|p r Hp Hr IH]; [constructor|]. cbn [map]. constructor; [|exact IH].
  destruct (dra_value_level _ _ p M1 M2 Hp) as [Bv E]. destruct (trunc_level _ Bv) as (z & Tz & Ez & Rz). exists z. split; [exact Tz|].
  apply (shows_close _ _ _ _ Ez Rz). pose proof (shade_moved _ _ _ _ (value p) _ F1 F2) as S.
  set (x := level (value (f_dra_value (f_suggested_min f) (f_suggested_max f) p))) in *.
  set (y := dra_shade (value (f_suggested_min f)) (value (f_suggested_max f)) (value p)) in *. set (w := dra_shade (suggested_min d) (suggested_max d) (value p)) in *.
  replace (x - w) with ((x - y) + (y - w)) by ring. rewrite (pw_to (k - 46) (k - 36)) by lia. replace (k - 36 - (k - 46))%Z with 10%Z by lia. change (2 ^ 10)%Z with 1024%Z.
  assert (Q : pw (-42) <= pw (k - 46)) by (apply pw_le; lia). apply Rle_trans with (pw (-42) + 765 * pw (k - 46)); [now apply abs_sum|]. pose proof (pw_pos (k - 46)). lra.
Qed.
Print Assumptions C94_dra_band.

(** Against DisplayModel, where C44 and C45 are proved: the same number of bytes, and the same bytes up to one level. *)
Lemma clip_level v : clip 0 255 v = level v.
Proof. unfold clip, level, Rmin, Rmax. repeat destruct Rle_dec; lra. Qed.
Theorem C94_agrees :
  (forall lo hi pixels exact, moderate lo -> moderate hi -> Forall moderate pixels ->
   normalize_band_minmax Floating (Some (value lo)) (Some (value hi)) (map value pixels) = Ok exact ->
   Forall2 (fun z e => exists b, z = Some b /\ (Z.abs (b - e) <= 1)%Z) (f_normalize_band_minmax lo hi pixels) exact) /\
  (forall T hist lo hi pixels out exact, whole (2 ^ 34) lo -> whole (2 ^ 34) hi -> Forall moderate pixels ->
   (forall n counts, hist n = Ok counts -> pixel_counts counts /\ Z.of_nat (List.length counts) = n) ->
   f_normalize_band_dra hist lo hi pixels = Ok out ->
   normalize_band_dra T (fun n _ _ => bind (hist n) (fun c => Ok (map IZR c))) (Some (value lo)) (Some (value hi)) (map value pixels) = Ok exact ->
   Forall2 (fun z e => exists b, z = Some b /\ (Z.abs (b - e) <= 1)%Z) out exact).
Proof.
  assert (T : pw (-42) < 1) by (change 1 with (pw 0); apply pw_lt; lia). split.
  - intros lo hi pixels exact L H Mp E. unfold normalize_band_minmax in E. cbn [bind] in E. injection E as <-. unfold f_normalize_band_minmax.
    induction Mp as [|p r Hp Hr IH]; [constructor|]. cbn [map]. constructor; [|exact IH].
    destruct (C94_minmax lo hi p L H Hp) as (z & Z1 & S). exists z. split; [exact Z1|]. unfold to_uint8. rewrite clip_level.
    replace ((value p - value lo) * (255 / Rmax (value hi) 1)) with (255 * (value p - value lo) / Rmax (value hi) 1) by (unfold Rdiv; ring).
    exact (shows_near _ _ _ S T).
  - intros ty hist lo hi pixels out exact L H Mp Hh F E. rewrite normalize_band_dra_given in E.
    destruct (hist (Z.max 256 (truncate (value hi - value lo)))) as [counts|] eqn:Hc; [|discriminate]. cbn [bind] in E.
    destruct (from_counts _ _ _ _ _ _ _) as [d|] eqn:Hd; [|discriminate]. cbn [bind] in E. injection E as <-. destruct (Hh _ _ Hc) as [PC Len].
    assert (B : Forall2 (fun p z => exists b, z = Some b /\ shows b (dra_shade (suggested_min d) (suggested_max d) (value p)) (pw (35 - 36))) pixels out).
    { apply (C94_dra_band hist lo hi pixels out 35 counts d); auto; lia. }
    clear - B. induction B as [|p z r rs (b & -> & S) Br IH]; [constructor|]. cbn [map]. constructor; [|exact IH]. exists b. split; [reflexivity|].
    unfold to_uint8. rewrite clip_level. apply (shows_near _ _ _ S). change 1 with (pw 0). apply pw_lt. lia.
Qed.
Print Assumptions C94_agrees.

Example C94_non_vacuous :
  moderate (f_of_Z 255) /\ whole (2 ^ 34) (f_of_Z 1000) /\ pixel_counts [0; 3; 5; 2; 0]%Z /\
  f_minmax_pixel (f_of_Z 0) (f_of_Z 255) (f_of_Z 100) = Some 100%Z /\ f_minmax_pixel (f_of_Z 0) (f_of_Z 100) (f_of_Z 100) = Some 254%Z /\
  f_dra_pixel (f_of_Z 10) (f_of_Z 20) (f_of_Z 15) = Some 127%Z /\ f_dra_pixel (f_of_Z 10) (f_of_Z 20) (f_of_Z 30) = Some 255%Z /\ apart (1 / 4) (1 / 2) /\
  (exists out, f_normalize_band_dra (fun n => Ok (repeat 7%Z (Z.to_nat n))) (f_of_Z 0) (f_of_Z 255) [f_of_Z 0; f_of_Z 100; f_of_Z 255] = Ok out /\ out = [Some 0; Some 100; Some 255]%Z).
Proof.
  destruct (of_Z_exact 255 ltac:(lia)) as [B V]. destruct (of_Z_exact 1000 ltac:(lia)) as [B1 V1].
  split. { split; [exact B|]. rewrite V, Rabs_pos_eq by lra. apply Rle_trans with (pw 8); [rewrite pw_IZR by lia; change (2 ^ 8)%Z with 256%Z; lra|apply pw_le; lia]. }
  split. { split; [exact B1|]. exists 1000%Z. split; [exact V1|lia]. }
  split. { split; [repeat constructor; lia|]. cbn. lia. }
  split; [vm_compute; reflexivity|]. split; [vm_compute; reflexivity|]. split; [vm_compute; reflexivity|]. split; [vm_compute; reflexivity|].
  split. { intros k. destruct (Z_le_gt_dec k 0) as [L|L]; [apply IZR_le in L; rewrite Rabs_pos_eq; lra|]. assert (G : (1 <= k)%Z) by lia. apply IZR_le in G. rewrite Rabs_left; lra. }
  eexists. split; [vm_compute; reflexivity|reflexivity].
Qed.

(** A band of bytes from 0 to 255, with as many pixels of each: all that [C94_dra_band] and
    [C94_range] ask for. *)
Example C94_dra_band_case :
  let counts := repeat 7%Z 256 in let hist := fun n => Ok (repeat 7%Z (Z.to_nat n)) in let lo := f_of_Z 0 in let hi := f_of_Z 255 in
  exists d, whole (2 ^ (9 - 1)) lo /\ whole (2 ^ (9 - 1)) hi /\ Forall moderate [f_of_Z 0; f_of_Z 100; f_of_Z 255] /\
  f_normalize_band_dra hist lo hi [f_of_Z 0; f_of_Z 100; f_of_Z 255] = Ok [Some 0; Some 100; Some 255]%Z /\
  hist (Z.max 256 (truncate (value hi - value lo))) = Ok counts /\ pixel_counts counts /\ Z.of_nat (List.length counts) = Z.max 256 (truncate (value hi - value lo)) /\
  from_counts (map IZR counts) (Some (value lo)) (Some (value hi)) (2/100) (97/100) (2/10) (4/10) = Ok d /\
  given_size 9 (Some lo) /\ given_size 9 (Some hi) /\ INR (List.length counts) <= pw 9 /\ actual_min d = 0.
Proof.
  cbv zeta. destruct (of_Z_exact 0 ltac:(lia)) as [B0 V0]. destruct (of_Z_exact 100 ltac:(lia)) as [B1 V1]. destruct (of_Z_exact 255 ltac:(lia)) as [B2 V2].
  assert (P : 1000 <= pw 400) by (apply Rle_trans with (pw 10); [rewrite pw_IZR by lia; change (2 ^ 10)%Z with 1024%Z; lra|apply pw_le; lia]).
  assert (P9 : pw 9 = 512) by (rewrite pw_IZR by lia; reflexivity).
  assert (T : Z.max 256 (truncate (value (f_of_Z 255) - value (f_of_Z 0))) = 256%Z).
  { rewrite V0, V2. replace (255 - 0) with (IZR 255) by ring. unfold truncate. destruct (Rlt_dec 255 0) as [H|H]; [exfalso; lra|]. rewrite Rfloor_IZR. reflexivity. }
  eexists. split; [split; [exact B0|exists 0%Z; split; [exact V0|lia]]|]. split; [split; [exact B2|exists 255%Z; split; [exact V2|lia]]|].
  split; [repeat (apply Forall_cons; [split; [assumption|rewrite ?V0, ?V1, ?V2; apply Rabs_le; lra]|]); apply Forall_nil|].
  split; [vm_compute; reflexivity|]. split; [rewrite T; reflexivity|]. split; [split; [apply Forall_forall; intros x X; apply repeat_spec in X; lia|vm_compute; split; [reflexivity|discriminate]]|].
  split; [rewrite T, repeat_length; reflexivity|]. split; [reflexivity|].
  split; [|split; [|split]].
  - split; [exact B0|]. rewrite V0, P9, Rabs_R0. lra.
  - split; [exact B2|]. rewrite V2, P9, Rabs_pos_eq; lra.
  - rewrite repeat_length, P9. replace (INR 256) with 256 by (rewrite INR_IZR_INZ; reflexivity). lra.
  - cbn [actual_min]. assert (F : first_nonzero (map IZR (repeat 7%Z 256)) = 0%nat) by (change (repeat 7%Z 256) with (7 :: repeat 7 255)%Z; cbn [map first_nonzero]; destruct (Req_EM_T 7 0) as [G|G]; [exfalso; lra|reflexivity]).
    rewrite F. cbn [INR]. unfold bucket_value. destruct (Req_EM_T (value (f_of_Z 0)) 0) as [G|G]; [ring|exfalso; apply G; exact V0].
Qed.
