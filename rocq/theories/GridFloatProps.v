(** C113: the approximation grid of the geolocator in binary64 arithmetic, bit by bit. *)
Require Import ZArith Reals List Lra Lia SpecFloat.
Require Import Verif.Base Verif.BaseFacts Verif.RoundModel Verif.RoundSpec Verif.CoordFloatModel Verif.FloatModel Verif.FloatSpec Verif.FloatProofs Verif.FloatNearest
  Verif.TileFloatProofs Verif.DmsFloatProofs Verif.RpcFloatModel Verif.RpcFloatProofs Verif.GridFloatModel.
Import ListNotations.
Local Open Scope R_scope.
Local Notation pw := (powerRZ 2).

Definition pixel_like (f : spec_float) : Prop := is_binary64 f /\ Rabs (value f) <= 2 ^ 24.

Lemma small_tiny : tiny <= / 2 ^ 100.
Proof. unfold tiny. apply Rle_trans with (pw (-100)); [apply pw_le; lia|]. change (pw (-100)) with (/ 2 ^ 100). lra. Qed.
Lemma below_900 x : Rabs x <= 2 ^ 60 -> Rabs x < pw 900.
Proof. intros H. apply Rle_lt_trans with (1 := H). rewrite (pow_powerRZ 2 60). apply pw_lt. reflexivity. Qed.
Lemma bounded x r M : Rabs (r - x) <= binary64 * Rabs x + tiny -> Rabs x <= M -> Rabs (r - x) <= M / 2 ^ 53 + / 2 ^ 100.
Proof. intros H B. pose proof small_tiny. unfold binary64 in H. assert (/ 2 ^ 53 * Rabs x <= M / 2 ^ 53). { unfold Rdiv. rewrite Rmult_comm. apply Rmult_le_compat_r; [|exact B]. apply Rlt_le, Rinv_0_lt_compat, pow_lt. lra. } lra. Qed.
Lemma split_abs x a : Rabs x <= a <-> - a <= x <= a.
Proof. split; intros H; [revert H; unfold Rabs; destruct (Rcase_abs x); lra|apply Rabs_le; exact H]. Qed.

(** The two ends. *)
Lemma ends lo hi : pixel_like lo -> pixel_like hi ->
  let l := f_sub lo (f_of_Z 10) in
  let e := f_add l (f_sub (f_add hi (f_of_Z 10)) l) in
  is_binary64 l /\ is_binary64 e /\ Rabs (value l - (value lo - 10)) <= / 2 ^ 28 /\ Rabs (value e - (value hi + 10)) <= / 2 ^ 26.
Proof.
  intros [Bl Rl] [Bh Rh]. cbv zeta. rewrite split_abs in Rl, Rh. destruct (of_Z_exact 10) as [Bt Vt]; [lia|].
  destruct (sub_abs lo (f_of_Z 10) Bl Bt) as [B1 E1]; [apply below_900; rewrite Vt, split_abs; cbn [pow] in *; lra|].
  apply bounded with (M := 2 ^ 24 + 10) in E1; [|rewrite Vt, split_abs; cbn [pow] in *; lra]. rewrite Vt, split_abs in E1.
  destruct (add_abs hi (f_of_Z 10) Bh Bt) as [B2 E2]; [apply below_900; rewrite Vt, split_abs; cbn [pow] in *; lra|].
  apply bounded with (M := 2 ^ 24 + 10) in E2; [|rewrite Vt, split_abs; cbn [pow] in *; lra]. rewrite Vt, split_abs in E2.
  set (l := f_sub lo (f_of_Z 10)) in *. set (r := f_add hi (f_of_Z 10)) in *.
  destruct (sub_abs r l B2 B1) as [B3 E3]; [apply below_900; rewrite split_abs; cbn [pow] in *; lra|].
  apply bounded with (M := 2 ^ 25 + 21) in E3; [|rewrite split_abs; cbn [pow] in *; lra]. rewrite split_abs in E3.
  set (w := f_sub r l) in *.
  destruct (add_abs l w B1 B3) as [B4 E4]; [apply below_900; rewrite split_abs; cbn [pow] in *; lra|].
  apply bounded with (M := 2 ^ 24 + 11) in E4; [|rewrite split_abs; cbn [pow] in *; lra]. rewrite split_abs in E4.
  repeat split; try assumption; try apply B1; try apply B4; rewrite split_abs; cbn [pow] in *; lra.
Qed.

(** A point of the grid. *)
Lemma point l e m i : is_binary64 l -> is_binary64 e -> Rabs (value l) <= 2 ^ 24 + 11 -> 10 <= value e - value l <= 2 ^ 25 + 21 ->
  (1 <= m <= 1024)%Z -> (0 <= i <= m)%Z ->
  let x := f_add (f_mul (f_of_Z i) (f_div (f_sub e l) (f_of_Z m))) l in
  is_binary64 x /\ 0 < value (f_div (f_sub e l) (f_of_Z m)) /\
  Rabs (value x - (value l + IZR i / IZR m * (value e - value l))) <= / 2 ^ 25.
Proof.
  intros Bl Be Rl Rd Hm Hi. cbv zeta. rewrite split_abs in Rl.
  destruct (of_Z_exact m) as [Bm Vm]; [lia|]. destruct (of_Z_exact i) as [Bi Vi]; [lia|].
  assert (M : 1 <= IZR m <= 1024) by (split; apply IZR_le; lia). assert (I : 0 <= IZR i <= IZR m) by (split; apply IZR_le; lia).
  destruct (sub_abs e l Be Bl) as [B1 E1]; [apply below_900; rewrite split_abs; cbn [pow] in *; lra|].
  apply bounded with (M := 2 ^ 25 + 21) in E1; [|rewrite split_abs; cbn [pow] in *; lra]. rewrite split_abs in E1.
  set (d := f_sub e l) in *. assert (D : 9 <= value d <= 2 ^ 25 + 22) by (cbn [pow] in *; lra).
  set (mi := / IZR m). assert (MI : 0 < mi <= 1). { unfold mi. split; [apply Rinv_0_lt_compat; lra|]. rewrite <- Rinv_1. apply Rinv_le_contravar; lra. }
  assert (MM : IZR m * mi = 1) by (unfold mi; apply Rinv_r; lra).
  assert (MI2 : / 1024 <= mi) by (unfold mi; apply Rinv_le_contravar; lra).
  assert (Q0 : 0 < value d * mi <= 2 ^ 25 + 22). { split; [apply Rmult_lt_0_compat; lra|]. apply Rle_trans with (value d * 1); [apply Rmult_le_compat_l; lra|lra]. }
  destruct (div_abs d (f_of_Z m) B1 Bm) as [B2 E2]; [rewrite Vm; lra|apply below_900; rewrite Vm; unfold Rdiv; fold mi; rewrite split_abs; cbn [pow] in *; lra|].
  rewrite Vm in E2. unfold Rdiv in E2. fold mi in E2. rewrite (Rabs_right (value d * mi)) in E2 by lra.
  set (s := f_div d (f_of_Z m)) in *. pose proof small_tiny as T. unfold binary64 in E2.
  assert (E2' : Rabs (value s - value d * mi) <= / 2 ^ 52 * (value d * mi)).
  { apply Rle_trans with (1 := E2). assert (9 / 1024 <= value d * mi) by (unfold Rdiv; apply Rmult_le_compat; lra). cbn [pow] in *. lra. }
  rewrite split_abs in E2'.
  assert (S0 : 0 < value s) by (cbn [pow] in *; lra).
  assert (K : IZR i * mi <= 1). { apply Rle_trans with (IZR m * mi); [apply Rmult_le_compat_r; lra|lra]. }
  assert (K0 : 0 <= IZR i * mi) by (apply Rmult_le_pos; lra).
  assert (P : Rabs (IZR i * value s - IZR i * mi * value d) <= / 2 ^ 52 * (2 ^ 25 + 22)).
  { replace (IZR i * value s - IZR i * mi * value d) with (IZR i * (value s - value d * mi)) by ring. rewrite Rabs_mult, (Rabs_right (IZR i)) by lra.
    apply Rle_trans with (IZR i * (/ 2 ^ 52 * (value d * mi))); [apply Rmult_le_compat_l; [lra|rewrite split_abs; exact E2']|].
    replace (IZR i * (/ 2 ^ 52 * (value d * mi))) with (/ 2 ^ 52 * (value d * (IZR i * mi))) by ring. apply Rmult_le_compat_l; [apply Rlt_le, Rinv_0_lt_compat, pow_lt; lra|].
    apply Rle_trans with (value d * 1); [apply Rmult_le_compat_l; lra|lra]. }
  rewrite split_abs in P.
  assert (W : 0 <= IZR i * mi * value d <= 2 ^ 25 + 22). { split; [apply Rmult_le_pos; lra|]. apply Rle_trans with (1 * value d); [apply Rmult_le_compat_r; lra|lra]. }
  destruct (mul_abs (f_of_Z i) s Bi B2) as [B3 E3]; [apply below_900; rewrite Vi, split_abs; cbn [pow] in *; lra|].
  apply bounded with (M := 2 ^ 25 + 23) in E3; [|rewrite Vi, split_abs; cbn [pow] in *; lra]. rewrite Vi, split_abs in E3.
  destruct (add_abs (f_mul (f_of_Z i) s) l B3 Bl) as [B4 E4]; [apply below_900; rewrite split_abs; cbn [pow] in *; lra|].
  apply bounded with (M := 2 ^ 26) in E4; [|rewrite split_abs; cbn [pow] in *; lra]. rewrite split_abs in E4.
  split; [exact B4|]. split; [exact S0|]. unfold Rdiv. fold mi.
  assert (V : Rabs (IZR i * mi * (value e - value l) - IZR i * mi * value d) <= (2 ^ 25 + 21) / 2 ^ 53 + / 2 ^ 100).
  { rewrite <- Rmult_minus_distr_l, Rabs_mult, (Rabs_right (IZR i * mi)) by lra.
    apply Rle_trans with (1 * Rabs (value e - value l - value d)); [apply Rmult_le_compat_r; [apply Rabs_pos|exact K]|]. rewrite Rmult_1_l, split_abs. lra. }
  rewrite split_abs in V |- *. cbn [pow] in *. lra.
Qed.

(** Every point of the grid is where the exact formula puts it, within 2^-24 of a pixel. *)
Theorem C113_points :
  forall (lo hi : spec_float) (n : nat), pixel_like lo -> pixel_like hi -> value lo <= value hi -> (2 <= n <= 1025)%nat ->
  List.length (f_grid_axis lo hi n) = n /\
  forall i, (i < n)%nat -> exists x, nth_error (f_grid_axis lo hi n) i = Some x /\ is_binary64 x /\
    Rabs (value x - (value lo - 10 + INR i / INR (n - 1) * (value hi - value lo + 20))) <= / 2 ^ 24.
Proof.
  intros lo hi n Pl Ph L Hn. destruct (ends lo hi Pl Ph) as (Bl & Be & El & Ee). unfold f_grid_axis.
  set (l := f_sub lo (f_of_Z 10)) in *. set (e := f_add l (f_sub (f_add hi (f_of_Z 10)) l)) in *.
  destruct Pl as [_ Rl]. destruct Ph as [_ Rh]. rewrite split_abs in Rl, Rh, El, Ee.
  destruct n as [|[|k]]; [lia|lia|]. unfold f_linspace. cbv beta iota zeta. remember (S k) as m eqn:Em. replace (S m - 1)%nat with m by lia.
  assert (Pt : forall i, (0 <= i <= Z.of_nat m)%Z -> let x := f_add (f_mul (f_of_Z i) (f_div (f_sub e l) (f_of_Z (Z.of_nat m)))) l in
    is_binary64 x /\ 0 < value (f_div (f_sub e l) (f_of_Z (Z.of_nat m))) /\ Rabs (value x - (value l + IZR i / IZR (Z.of_nat m) * (value e - value l))) <= / 2 ^ 25).
  { intros i Hi. apply point; [exact Bl|exact Be|rewrite split_abs; cbn [pow] in *; lra|cbn [pow] in *; lra|lia|exact Hi]. }
  assert (Nz : forall A (a b : A), match f_div (f_sub e l) (f_of_Z (Z.of_nat m)) with S754_zero _ => a | _ => b end = b).
  { intros A a b. destruct (Pt 0%Z ltac:(lia)) as (_ & S0 & _). destruct (f_div (f_sub e l) (f_of_Z (Z.of_nat m))); [cbn [value] in S0; lra|reflexivity..]. }
  assert (Conv : forall t x, 0 <= t <= 1 -> Rabs (x - (value l + t * (value e - value l))) <= / 2 ^ 25 -> Rabs (x - (value lo - 10 + t * (value hi - value lo + 20))) <= / 2 ^ 24).
  { intros t x Ht Hx. rewrite split_abs in *. set (a := value l - (value lo - 10)) in *. set (b := value e - (value hi + 10)) in *.
    assert (- / 2 ^ 26 <= (1 - t) * a + t * b <= / 2 ^ 26).
    { assert (/ 2 ^ 28 <= / 2 ^ 26) by (cbn [pow]; lra). split; nra. }
    replace (x - (value lo - 10 + t * (value hi - value lo + 20))) with ((x - (value l + t * (value e - value l))) + ((1 - t) * a + t * b)) by (unfold a, b; ring).
    cbn [pow] in *. lra. }
  split; [rewrite app_length, map_length, seq_length; cbn [List.length]; lia|].
  intros i Hi. assert (M0 : 0 < INR m) by (apply lt_0_INR; lia).
  destruct (Nat.eq_dec i m) as [->|Ne].
  - exists e. rewrite nth_error_app2 by (rewrite map_length, seq_length; lia). rewrite map_length, seq_length, Nat.sub_diag. split; [reflexivity|]. split; [exact Be|].
    replace (INR m / INR m) with 1 by (field; lra). rewrite split_abs. cbn [pow] in *. lra.
  - destruct (Pt (Z.of_nat i) ltac:(lia)) as (B & _ & E). eexists. rewrite nth_error_app1 by (rewrite map_length, seq_length; lia).
    rewrite nth_error_map, (nth_error_nth' (seq 0 m) 0%nat) by (rewrite seq_length; lia). rewrite seq_nth by lia. cbn [option_map Nat.add]. rewrite Nz.
    split; [reflexivity|]. split; [exact B|]. rewrite !INR_IZR_INZ. apply Conv; [|exact E].
    rewrite INR_IZR_INZ in M0. assert (0 <= IZR (Z.of_nat i) <= IZR (Z.of_nat m)) by (split; apply IZR_le; lia).
    split; [apply Rmult_le_pos; [lra|apply Rlt_le, Rinv_0_lt_compat; lra]|]. apply Rmult_le_reg_r with (1 := M0). unfold Rdiv. rewrite Rmult_assoc, Rinv_l by lra. lra.
Qed.
Print Assumptions C113_points.

(** The points increase strictly, which the spline over them demands. *)
Theorem C113_increasing :
  forall (lo hi : spec_float) (n : nat), pixel_like lo -> pixel_like hi -> value lo <= value hi -> (2 <= n <= 1025)%nat ->
  forall i j x y, (i < j)%nat -> nth_error (f_grid_axis lo hi n) i = Some x -> nth_error (f_grid_axis lo hi n) j = Some y -> value x < value y.
Proof.
  intros lo hi n Pl Ph L Hn i j x y Hij Hx Hy. destruct (C113_points lo hi n Pl Ph L Hn) as [Len Pt].
  assert (j < n)%nat by (rewrite <- Len; apply nth_error_Some; congruence).
  destruct (Pt i) as (x' & Hx' & _ & Ex); [lia|]. destruct (Pt j) as (y' & Hy' & _ & Ey); [lia|].
  rewrite Hx in Hx'. rewrite Hy in Hy'. injection Hx' as <-. injection Hy' as <-. rewrite split_abs in Ex, Ey.
  assert (N : 1 <= INR (n - 1) <= 1024). { rewrite INR_IZR_INZ. split; apply IZR_le; lia. }
  assert (D : 1 <= INR j - INR i). { rewrite !INR_IZR_INZ, <- minus_IZR. apply IZR_le. lia. }
  assert (Mi : / 1024 <= / INR (n - 1)) by (apply Rinv_le_contravar; lra).
  assert (G : 20 / 1024 <= (INR j - INR i) * / INR (n - 1) * (value hi - value lo + 20)).
  { replace (20 / 1024) with (1 * / 1024 * 20) by field. apply Rmult_le_compat; [lra|lra|apply Rmult_le_compat; lra|lra]. }
  unfold Rdiv in Ex, Ey. cbn [pow] in *. lra.
Qed.
Print Assumptions C113_increasing.

(** The grid reaches past every feature on both sides: no vertex is extrapolated. *)
Theorem C113_covers :
  forall (lo hi : spec_float) (n : nat), pixel_like lo -> pixel_like hi -> value lo <= value hi -> (2 <= n <= 1025)%nat ->
  exists first last, nth_error (f_grid_axis lo hi n) 0 = Some first /\ nth_error (f_grid_axis lo hi n) (n - 1) = Some last /\
  forall v, value lo <= v <= value hi -> value first + 9 < v < value last - 9.
Proof.
  intros lo hi n Pl Ph L Hn. destruct (C113_points lo hi n Pl Ph L Hn) as [_ Pt].
  destruct (Pt 0%nat) as (a & Ha & _ & Ea); [lia|]. destruct (Pt (n - 1)%nat) as (b & Hb & _ & Eb); [lia|].
  exists a, b. split; [exact Ha|]. split; [exact Hb|]. intros v Hv. rewrite split_abs in Ea, Eb.
  assert (N : 1 <= INR (n - 1)). { rewrite INR_IZR_INZ. apply IZR_le. lia. }
  replace (INR (n - 1) / INR (n - 1)) with 1 in Eb by (field; lra). cbn [INR] in Ea. unfold Rdiv in Ea. rewrite !Rmult_0_l in Ea. cbn [pow] in *. lra.
Qed.
Print Assumptions C113_covers.

(** A grid of one point is at the upper left corner, and a grid of none is empty. *)
Theorem C113_short :
  forall lo hi : spec_float, pixel_like lo -> pixel_like hi -> value lo <= value hi ->
  f_grid_axis lo hi 0 = [] /\
  exists x, f_grid_axis lo hi 1 = [x] /\ is_binary64 x /\ Rabs (value x - (value lo - 10)) <= / 2 ^ 24.
Proof.
  intros lo hi Pl Ph L. destruct (ends lo hi Pl Ph) as (Bl & Be & El & Ee). unfold f_grid_axis.
  set (l := f_sub lo (f_of_Z 10)) in *. set (e := f_add l (f_sub (f_add hi (f_of_Z 10)) l)) in *.
  destruct Pl as [_ Rl]. destruct Ph as [_ Rh]. rewrite split_abs in Rl, Rh, El, Ee. split; [reflexivity|].
  exists (f_add (f_mul (f_of_Z 0) (f_sub e l)) l). split; [reflexivity|].
  destruct (of_Z_exact 0) as [Bz Vz]; [lia|].
  destruct (sub_abs e l Be Bl) as [B1 _]; [apply below_900; rewrite split_abs; cbn [pow] in *; lra|].
  destruct (mul_abs (f_of_Z 0) (f_sub e l) Bz B1) as [B2 E2]; [rewrite Vz, Rmult_0_l; apply below_900; rewrite Rabs_R0; cbn [pow]; lra|].
  rewrite Vz, Rmult_0_l in E2. apply bounded with (M := 1) in E2; [|rewrite Rabs_R0; lra]. rewrite split_abs in E2.
  destruct (add_abs (f_mul (f_of_Z 0) (f_sub e l)) l B2 Bl) as [B3 E3]; [apply below_900; rewrite split_abs; cbn [pow] in *; lra|].
  apply bounded with (M := 2 ^ 24 + 11) in E3; [|rewrite split_abs; cbn [pow] in *; lra]. rewrite split_abs in E3.
  split; [exact B3|]. rewrite split_abs. cbn [pow] in *. lra.
Qed.
Print Assumptions C113_short.

(** For coordinates of any size the margin of ten can be lost: all the points coincide. *)
Theorem C113_any_size_refuted :
  ~ (forall (lo hi : spec_float) (n : nat), is_binary64 lo -> is_binary64 hi -> value lo <= value hi -> (2 <= n <= 1025)%nat ->
     forall i j x y, (i < j)%nat -> nth_error (f_grid_axis lo hi n) i = Some x -> nth_error (f_grid_axis lo hi n) j = Some y -> value x < value y).
Proof.
  intros H. assert (B : is_binary64 (f_of_Z (2 ^ 60))) by (vm_compute; repeat split; reflexivity).
  specialize (H (f_of_Z (2 ^ 60)) (f_of_Z (2 ^ 60)) 11%nat B B (Rle_refl _) ltac:(lia) 0%nat 1%nat (f_of_Z (2 ^ 60)) (f_of_Z (2 ^ 60)) ltac:(lia)).
  apply (Rlt_irrefl (value (f_of_Z (2 ^ 60)))). apply H; vm_compute; reflexivity.
Qed.
Print Assumptions C113_any_size_refuted.

(** The hypotheses are met: features between the columns 100 and 612. *)
Lemma pixel_of_Z z : (0 <= z <= 2 ^ 24)%Z -> pixel_like (f_of_Z z) /\ value (f_of_Z z) = IZR z.
Proof.
  intros Hz. destruct (of_Z_exact z) as [B V]; [lia|]. split; [split; [exact B|]|exact V]. rewrite V, Rabs_right by (apply Rle_ge, IZR_le; lia).
  rewrite pow_IZR. apply IZR_le. exact (proj2 Hz).
Qed.
Example C113_met : pixel_like (f_of_Z 100) /\ pixel_like (f_of_Z 612) /\ value (f_of_Z 100) <= value (f_of_Z 612) /\ (2 <= 11 <= 1025)%nat.
Proof. destruct (pixel_of_Z 100) as [P Vp]; [lia|]. destruct (pixel_of_Z 612) as [Q Vq]; [lia|]. split; [exact P|]. split; [exact Q|]. rewrite Vp, Vq. split; [lra|lia]. Qed.
(** Three points over the columns 100 to 612: 90, 356 and 622. *)
Example C113_three : List.map (fun x => f_sub x (f_of_Z 90)) (f_grid_axis (f_of_Z 100) (f_of_Z 612) 3)
  = [S754_zero false; f_of_Z 266; f_of_Z 532].
Proof. vm_compute. reflexivity. Qed.
(** A single point column 7: the grid is still twenty wide. *)
Example C113_single : nth_error (f_grid_axis (f_of_Z 7) (f_of_Z 7) 11) 10 = Some (f_of_Z 17) /\ List.hd_error (f_grid_axis (f_of_Z 7) (f_of_Z 7) 11) = Some (f_sub (f_of_Z 7) (f_of_Z 10)).
Proof. vm_compute. split; reflexivity. Qed.
(** A step that underflows to zero: linspace divides before it multiplies, and the points of a
    range of three subnormal units still rise from 0 to 3. *)
Example C113_underflow :
  f_linspace (S754_zero false) (S754_finite false 3 (-1074)) 11
  = List.map (fun k => match k with Zpos m => S754_finite false m (-1074) | _ => S754_zero false end) [0; 0; 1; 1; 1; 2; 2; 2; 2; 3; 3]%Z.
Proof. vm_compute. reflexivity. Qed.
