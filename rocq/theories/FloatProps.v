(** C89: Python's binary64 arithmetic, bit by bit, stays within the error bounds. *)
Require Import ZArith Reals List Lra Lia SpecFloat String.
Require Import Verif.Base Verif.BaseFacts Verif.Vec Verif.CoordModel Verif.CoordProofs Verif.CoordFloatModel Verif.CoordProps Verif.RpcModel Verif.RsmModel
  Verif.RoundModel Verif.RoundSpec Verif.RoundProofs Verif.RoundProps Verif.FloatModel Verif.FloatSpec Verif.FloatProofs Verif.FloatNearest.
Import ListNotations.
Local Open Scope R_scope.

(** Sums and differences are rounded with a relative error of at most 2^-53 unless they overflow,
    products and quotients unless they overflow or are subnormal. *)
Theorem C89_operations : forall x y, proper x -> proper y ->
  (finite (f_add x y) -> rounded (value x + value y) (value (f_add x y)) /\ proper (f_add x y)) /\
  (finite (f_sub x y) -> rounded (value x - value y) (value (f_sub x y)) /\ proper (f_sub x y)) /\
  (finite (f_mul x y) -> normal (value x * value y) -> rounded (value x * value y) (value (f_mul x y)) /\ proper (f_mul x y)) /\
  (finite (f_div x y) -> value y <> 0 -> normal (value x / value y) -> rounded (value x / value y) (value (f_div x y)) /\ proper (f_div x y)).
Proof.
  intros x y Px Py. pose proof (proper_finite x Px). pose proof (proper_finite y Py).
  repeat split; intros; first [now apply add_rounded|now apply sub_rounded|now apply mul_rounded|now apply div_rounded].
Qed.
Print Assumptions C89_operations.

(** The result of an operation is the binary64 number nearest to the exact result, with an even
    last digit if two are as near; it is determined by that, and larger for larger exact results. *)
Theorem C89_nearest : forall x y, is_binary64 x -> is_binary64 y ->
  (finite (f_add x y) -> nearest (value x + value y) (f_add x y)) /\
  (finite (f_sub x y) -> nearest (value x - value y) (f_sub x y)) /\
  (finite (f_mul x y) -> nearest (value x * value y) (f_mul x y)) /\
  (finite (f_div x y) -> value y <> 0 -> nearest (value x / value y) (f_div x y)).
Proof.
  intros x y Bx By. split; [|split; [|split]]; intros; first [now apply add_nearest|now apply sub_nearest|now apply mul_nearest|now apply div_nearest].
Qed.
Print Assumptions C89_nearest.

Theorem C89_nearest_determined : forall x y f g, nearest x f -> nearest y g -> x <= y ->
  value f <= value g /\ (x = y -> value f = value g /\ (value f <> 0 -> f = g)).
Proof.
  intros x y f g F G L. split; [exact (nearest_monotone x y f g F G L)|]. intros ->. pose proof (nearest_unique y f g F G) as E. split; [exact E|].
  intros N. apply same_value; [apply F|apply G|exact E|exact N].
Qed.
Print Assumptions C89_nearest_determined.

(** Integers become the nearest binary64 number. *)
Theorem C89_integers : forall n, finite (f_of_Z n) -> nearest (IZR n) (f_of_Z n).
Proof. intros n F. replace (IZR n) with (IZR n * powerRZ 2 0) by (cbn [powerRZ]; ring). now apply normalize_nearest. Qed.
Print Assumptions C89_integers.

(** Results whose exact values are below 2^900 do not overflow. *)
Theorem C89_no_overflow : forall x y, finite x -> finite y ->
  (Rabs (value x + value y) < powerRZ 2 900 -> finite (f_add x y)) /\
  (Rabs (value x - value y) < powerRZ 2 900 -> finite (f_sub x y)) /\
  (Rabs (value x * value y) < powerRZ 2 900 -> finite (f_mul x y)) /\
  (value y <> 0 -> Rabs (value x / value y) < powerRZ 2 900 -> finite (f_div x y)).
Proof.
  intros x y Fx Fy. split; [|split; [|split]]; intros; first [now apply add_finite|now apply sub_finite|now apply mul_finite|now apply div_finite].
Qed.
Print Assumptions C89_no_overflow.

(** Bit-exact evaluation is one of the evaluations that C88 bounds. *)
Theorem C89_formulas : forall e f, runs e f -> proper f /\ computed binary64 e (value f).
Proof. exact runs_computed. Qed.
Print Assumptions C89_formulas.

Theorem C89_rpc : forall m g i fs fl,
  long_scale m <> 0 -> lat_scale m <> 0 -> height_scale m <> 0 ->
  rpc_world_to_image m g = Ok i ->
  runs (rpc_sample m (degrees (longitude g)) (degrees (latitude g)) (elevation g)) fs ->
  runs (rpc_line m (degrees (longitude g)) (degrees (latitude g)) (elevation g)) fl ->
  let l := (degrees (longitude g) - long_off m) / long_scale m in
  let p := (degrees (latitude g) - lat_off m) / lat_scale m in
  let h := (elevation g - height_off m) / height_scale m in
  (rpc_tame (samp_num_poly m) (samp_den_poly m) l p h (samp_scale m) (samp_off m) -> Rabs (value fs - ix i) <= / 1000000) /\
  (rpc_tame (line_num_poly m) (line_den_poly m) l p h (line_scale m) (line_off m) -> Rabs (value fl - iy i) <= / 1000000).
Proof.
  intros m g i fs fl H1 H2 H3 Hi Hs Hl. apply C88_rpc_binary64; auto; [exact (proj2 (runs_computed _ _ Hs))|exact (proj2 (runs_computed _ _ Hl))].
Qed.
Print Assumptions C89_rpc.

Theorem C89_rsm : forall m v fc fr,
  x_scale m <> 0 -> y_scale m <> 0 -> z_scale m <> 0 ->
  (forall p, In p [column_num m; column_den m; row_num m; row_den m] -> (max_x p <= 5 /\ max_y p <= 5 /\ max_z p <= 5)%nat) ->
  runs (rsm_column m v) fc -> runs (rsm_row m v) fr ->
  let n := normalize_world_coordinate m v in
  (rsm_tame (column_num m) (column_den m) n (column_scale m) (column_off m) ->
     Rabs (value fc - ix (ground_domain_to_image m v)) <= / 1000000) /\
  (rsm_tame (row_num m) (row_den m) n (row_scale m) (row_off m) ->
     Rabs (value fr - iy (ground_domain_to_image m v)) <= / 1000000).
Proof.
  intros m v fc fr H1 H2 H3 Hp Hc Hr. apply C88_rsm_binary64; auto; [exact (proj2 (runs_computed _ _ Hc))|exact (proj2 (runs_computed _ _ Hr))].
Qed.
Print Assumptions C89_rsm.

Theorem C89_affine : forall m x y fx fy,
  runs (affine_formula (row1 m) x y) fx -> runs (affine_formula (row2 m) x y) fy ->
  let e r := growth binary64 3 * (Rabs (vx r * x) + Rabs (vy r * y) + Rabs (vz r)) in
  Rabs (value fx - vx (mulv m (mkVec x y 1))) <= e (row1 m) /\ Rabs (value fy - vy (mulv m (mkVec x y 1))) <= e (row2 m).
Proof.
  intros m x y fx fy Hx Hy. apply C88_affine; [|exact (proj2 (runs_computed _ _ Hx))|exact (proj2 (runs_computed _ _ Hy))].
  rewrite <- binary64_pw. apply Rlt_le, pw_pos.
Qed.
Print Assumptions C89_affine.

(** math.floor and int() of a float. *)
Theorem C89_whole_numbers : forall x, finite x ->
  f_floor x = Some (Rfloor (value x)) /\ f_trunc x = Some (if Rlt_dec (value x) 0 then Rceil (value x) else Rfloor (value x)).
Proof. intros x F. split; [now apply floor_value|now apply trunc_value]. Qed.
Print Assumptions C89_whole_numbers.

(** math.pi is the binary64 number nearest to pi. *)
Theorem C89_pi : nearest PI f_pi /\ Rabs (value f_pi - PI) <= powerRZ 2 (-52).
Proof.
  pose proof pi_constant as P. split; [|exact P].
  assert (Q51 : powerRZ 2 (-51) = / 2251799813685248) by (change (powerRZ 2 (-51)) with (/ (2 ^ 51)); replace (2 ^ 51) with 2251799813685248 by ring; reflexivity).
  assert (V : value f_pi = 7074237752028440 * / 2251799813685248) by (unfold f_pi; rewrite value_sign, Q51; cbn [sign]; ring).
  pose proof pi_bounds as B. split; [split; [exact I|reflexivity]|]. intros g Bg.
  enough (G : value g = value f_pi \/ Rabs (value f_pi - PI) < Rabs (value g - PI)).
  { destruct G as [->|G]; [split; [lra|tauto]|split; [lra|intros; lra]]. }
  assert (D : value g = value f_pi \/ powerRZ 2 (-51) <= Rabs (value g - value f_pi)).
  { destruct (binary64_form g Bg) as (N & k & E & HN & Hk). destruct (Z.le_gt_cases (-51) k) as [C|C].
    - assert (Eg : value g = IZR (N * 2 ^ (k + 51)) * powerRZ 2 (-51)).
      { rewrite E, mult_IZR, <- pw_IZR by lia. rewrite Rmult_assoc, <- pw_add. do 2 f_equal. lia. }
      destruct (Z.eq_dec (N * 2 ^ (k + 51)) 7074237752028440) as [Q|Q]; [left; rewrite Eg, Q, V, Q51; ring|right].
      rewrite Eg, V, <- Q51, <- Rmult_minus_distr_r, Rabs_mult, (Rabs_pos_eq (powerRZ 2 (-51))) by apply Rlt_le, pw_pos.
      rewrite <- minus_IZR, <- abs_IZR. rewrite <- (Rmult_1_l (powerRZ 2 (-51))) at 1. apply Rmult_le_compat_r; [apply Rlt_le, pw_pos|]. apply IZR_le. lia.
    - right. assert (U : Rabs (value g) < 2).
      { rewrite E, Rabs_mult, (Rabs_pos_eq (powerRZ 2 k)), <- abs_IZR by apply Rlt_le, pw_pos. assert (E2 : 2 = powerRZ 2 53 * powerRZ 2 (-52)) by (rewrite <- pw_add; change (powerRZ 2 (53 + -52)) with (2 * 1); ring).
        apply Rlt_le_trans with (powerRZ 2 53 * powerRZ 2 k); [apply Rmult_lt_compat_r; [apply pw_pos|]; rewrite pw_IZR by lia; now apply IZR_lt|].
        apply Rle_trans with (powerRZ 2 53 * powerRZ 2 (-52)); [|rewrite <- E2; apply Rle_refl].
        apply Rmult_le_compat_l; [apply Rlt_le, pw_pos|apply pw_le; lia]. }
      apply Rabs_def2 in U. rewrite V, Q51, Rabs_left; lra. }
  destruct D as [D|D]; [now left|right]. rewrite V, Q51 in *. unfold Rabs in *; repeat destruct Rcase_abs in *; lra.
Qed.
Print Assumptions C89_pi.

(** math.degrees and math.radians err by no more than two roundings. *)
Theorem C89_degrees : forall x, proper x -> normal (value x) -> Rabs (value x) <= powerRZ 2 800 ->
  Rabs (value (f_degrees x) - degrees (value x)) <= growth binary64 2 * Rabs (degrees (value x)) /\ proper (f_degrees x).
Proof.
  intros x P N B. destruct deg_per_rad as (d & D & E). pose proof pi_bounds as PB.
  assert (U : 0 < binary64 < / 2) by (unfold binary64; split; [apply Rinv_0_lt_compat, pow_lt; lra|apply Rinv_lt_contravar; [apply Rmult_lt_0_compat; [lra|apply pow_lt; lra]|]; rewrite <- (pow_1 2) at 1; apply Rlt_pow; [lra|lia]]).
  assert (C : 1 <= value f_deg_per_rad <= pw 10).
  { assert (E' : f_deg_per_rad = S754_finite false 8063664102031864 (-47)) by (vm_compute; reflexivity). rewrite E', value_sign. cbn [sign].
    assert (Q : pw (-47) = / IZR (2 ^ 47)) by (rewrite <- pw_IZR by lia; reflexivity). rewrite Q, pw_IZR by lia.
    change (2 ^ 47)%Z with 140737488355328%Z. change (2 ^ 10)%Z with 1024%Z. lra. }
  assert (Fc : finite f_deg_per_rad) by (vm_compute; exact I).
  assert (Nx : normal (value x * value f_deg_per_rad)).
  { destruct N as [->|N]; [left; ring|right]. rewrite Rabs_mult, (Rabs_pos_eq (value f_deg_per_rad)) by lra. pose proof (Rabs_pos (value x)). nra. }
  assert (F : finite (f_degrees x)).
  { apply mul_finite; [now apply proper_finite|exact Fc|]. rewrite Rabs_mult, (Rabs_pos_eq (value f_deg_per_rad)) by lra.
    apply Rle_lt_trans with (pw 800 * pw 10); [apply Rmult_le_compat; try apply Rabs_pos; lra|]. rewrite <- pw_add. apply pw_lt. lia. }
  destruct (mul_rounded x f_deg_per_rad F (proper_finite x P) Fc Nx) as [(d' & D' & V) P']. split; [|exact P'].
  unfold f_degrees, f_mul. rewrite V, E. unfold degrees. set (y := value x * 180 / PI).
  replace (value x * (180 / PI * (1 + d)) * (1 + d') - y) with (((1 + d) * (1 + d') - 1) * y) by (unfold y; field; lra).
  rewrite Rabs_mult. apply Rmult_le_compat_r; [apply Rabs_pos|]. rewrite binary64_pw in D'. unfold growth.
  apply abs_interval in D, D'. apply Rabs_le. split; nra.
Qed.
Print Assumptions C89_degrees.

Theorem C89_radians : forall x, proper x -> normal (value x / 64) -> Rabs (value x) <= powerRZ 2 800 ->
  Rabs (value (f_radians x) - radians (value x)) <= growth binary64 2 * Rabs (radians (value x)) /\ proper (f_radians x).
Proof.
  intros x P N B. destruct rad_per_deg as (d & D & E). pose proof pi_bounds as PB.
  assert (U : 0 < binary64 < / 2) by (unfold binary64; split; [apply Rinv_0_lt_compat, pow_lt; lra|apply Rinv_lt_contravar; [apply Rmult_lt_0_compat; [lra|apply pow_lt; lra]|]; rewrite <- (pow_1 2) at 1; apply Rlt_pow; [lra|lia]]).
  assert (C : / 64 <= value f_rad_per_deg <= 1).
  { assert (E' : f_rad_per_deg = S754_finite false 5030569068109113 (-58)) by (vm_compute; reflexivity). rewrite E', value_sign. cbn [sign].
    assert (Q : pw (-58) = / IZR (2 ^ 58)) by (rewrite <- pw_IZR by lia; reflexivity). rewrite Q.
    change (2 ^ 58)%Z with 288230376151711744%Z. lra. }
  assert (Fc : finite f_rad_per_deg) by (vm_compute; exact I).
  assert (Nx : normal (value x * value f_rad_per_deg)).
  { destruct N as [N|N]; [left; replace (value x) with 0 by lra; ring|right]. rewrite Rabs_mult, (Rabs_pos_eq (value f_rad_per_deg)) by lra.
    unfold Rdiv in N. rewrite Rabs_mult, (Rabs_pos_eq (/ 64)) in N by lra. pose proof (Rabs_pos (value x)). nra. }
  assert (F : finite (f_radians x)).
  { apply mul_finite; [now apply proper_finite|exact Fc|]. rewrite Rabs_mult, (Rabs_pos_eq (value f_rad_per_deg)) by lra.
    apply Rle_lt_trans with (pw 800 * 1); [apply Rmult_le_compat; try apply Rabs_pos; lra|]. rewrite Rmult_1_r. apply pw_lt. lia. }
  destruct (mul_rounded x f_rad_per_deg F (proper_finite x P) Fc Nx) as [(d' & D' & V) P']. split; [|exact P'].
  unfold f_radians, f_mul. rewrite V, E. unfold radians. set (y := value x * PI / 180).
  replace (value x * (PI / 180 * (1 + d)) * (1 + d') - y) with (((1 + d) * (1 + d') - 1) * y) by (unfold y; field; lra).
  rewrite Rabs_mult. apply Rmult_le_compat_r; [apply Rabs_pos|]. rewrite binary64_pw in D'. unfold growth.
  apply abs_interval in D, D'. apply Rabs_le. split; nra.
Qed.
Print Assumptions C89_radians.

(** The whole degree of an angle is right unless the angle is within 2^-44 degrees of one. *)
Definition clear_of_whole (x : R) : Prop := forall k : Z, powerRZ 2 (-44) < Rabs (x - IZR k).
Theorem C89_whole_degree : forall x, proper x -> Rabs (degrees (value x)) <= 180 -> clear_of_whole (degrees (value x)) ->
  f_floor (f_degrees x) = Some (Rfloor (degrees (value x))).
Proof.
  intros x P B C. pose proof pi_bounds as PB. set (y := degrees (value x)) in *.
  assert (Vx : value x = y * (PI / 180)) by (unfold y, degrees; field; lra).
  assert (Y0 : pw (-44) < Rabs y) by (specialize (C 0%Z); now rewrite Rminus_0_r in C).
  assert (Ax : Rabs (value x) = Rabs y * (PI / 180)) by (rewrite Vx, Rabs_mult, (Rabs_pos_eq (PI / 180)) by lra; reflexivity).
  destruct (C89_degrees x P) as [E F].
  - right. rewrite Ax. unfold smallest_normal. apply Rle_trans with (pw (-44) * pw (-7)).
    + rewrite <- pw_add. apply pw_le. lia.
    + apply Rmult_le_compat; try (apply Rlt_le, pw_pos); [lra|]. change (pw (-7)) with (/ 2 ^ 7). lra.
  - rewrite Ax. apply Rle_trans with (180 * 1); [apply Rmult_le_compat; try apply Rabs_pos; lra|].
    apply Rle_trans with (pw 8); [change (pw 8) with (2 ^ 8); lra|apply pw_le; lia].
  - rewrite floor_value by now apply proper_finite. f_equal. fold y in E.
    assert (W : Rabs (value (f_degrees x) - y) <= pw (-44)).
    { apply Rle_trans with (1 := E). apply Rle_trans with (growth binary64 2 * 180).
      - apply Rmult_le_compat_l; [|exact B]. unfold growth. assert (0 < binary64) by (rewrite <- binary64_pw; apply pw_pos). nra.
      - unfold growth. rewrite <- binary64_pw.
        assert (Q : forall n, pw (- Z.pos n) = / IZR (2 ^ Z.pos n)) by (intros; rewrite <- pw_IZR by lia; cbn [powerRZ Z.opp]; reflexivity).
        change (-53)%Z with (- Z.pos 53)%Z. change (-44)%Z with (- Z.pos 44)%Z. rewrite !Q.
        change (2 ^ 53)%Z with 9007199254740992%Z. change (2 ^ 44)%Z with 17592186044416%Z. lra. }
    apply abs_interval in W. destruct (Rfloor_spec y) as [L U]. apply Rfloor_unique.
    pose proof (C (Rfloor y)) as C1. pose proof (C (Rfloor y + 1)%Z) as C2. rewrite plus_IZR in C2.
    rewrite Rabs_pos_eq in C1 by lra. rewrite Rabs_left1 in C2 by lra. lra.
Qed.
Print Assumptions C89_whole_degree.

(** So the generic tile name of a coordinate, as computed in binary64, names the one-degree cell the
    coordinate lies in, except in the cells C14 lists and within 2^-44 degrees of a cell's edge. *)
Theorem C89_tile_name : forall lon lat, proper lon -> proper lat ->
  Rabs (degrees (value lon)) <= 180 -> Rabs (degrees (value lat)) <= 90 ->
  clear_of_whole (degrees (value lon)) -> clear_of_whole (degrees (value lat)) ->
  let klon := Rfloor (degrees (value lon)) in let klat := Rfloor (degrees (value lat)) in
  (f_generic_tile_id lon lat = Some (generic_name klon klat)
   <-> (~ In (Z.abs klon) [15; 30; 60; 120]%Z /\ ~ In (Z.abs klat) [15; 30; 60; 120]%Z)).
Proof.
  assert (G : forall y n, Rabs y <= IZR n -> (- n <= Rfloor y <= n)%Z).
  { intros y n H. apply abs_interval in H. destruct (Rfloor_spec y) as [L U]. rewrite <- plus_IZR in U. split.
    - apply Z.lt_succ_r, lt_IZR. unfold Z.succ. apply Rle_lt_trans with y; [rewrite opp_IZR; lra|exact U].
    - apply le_IZR. lra. }
  intros lon lat P1 P2 B1 B2 C1 C2 klon klat. apply C14_binary64_name_correct_iff.
  - now apply C89_whole_degree.
  - apply C89_whole_degree; auto. lra.
  - exact (G _ 180%Z B1).
  - exact (G _ 90%Z B2).
Qed.
Print Assumptions C89_tile_name.

(** 2/3 + 1/3 in binary64, and a coordinate to which the tile theorem applies: one radian. *)
Definition f_third : spec_float := f_div (f_of_Z 1) (f_of_Z 3).
Example C89_non_vacuous :
  (exists f, runs (Add (Mul (Num 2) (Div (Num 1) (Num 3))) (Num 1)) f /\ value f <> 5 / 3) /\
  (let x := S754_finite false 1 0 in
   proper x /\ value x = 1 /\ clear_of_whole (degrees (value x)) /\ f_generic_tile_id x x = Some "057e/57n.dt2"%string).
Proof.
  assert (V : forall n, (0 < n)%Z -> (n < 4)%Z -> value (f_of_Z n) = IZR n /\ proper (f_of_Z n)).
  { intros n A B. assert (K : n = 1%Z \/ n = 2%Z \/ n = 3%Z) by lia.
    assert (Q : forall k, pw (- Z.pos k) = / IZR (2 ^ Z.pos k)) by (intros; rewrite <- pw_IZR by lia; cbn [powerRZ Z.opp]; reflexivity).
    destruct K as [->|[->| ->]].
    - change (f_of_Z 1) with (S754_finite false 4503599627370496 (- Z.pos 52)). rewrite value_sign, Q. change (2 ^ 52)%Z with 4503599627370496%Z. cbn [sign proper]. split; [lra|lia].
    - change (f_of_Z 2) with (S754_finite false 4503599627370496 (- Z.pos 51)). rewrite value_sign, Q. change (2 ^ 51)%Z with 2251799813685248%Z. cbn [sign proper]. split; [lra|lia].
    - change (f_of_Z 3) with (S754_finite false 6755399441055744 (- Z.pos 51)). rewrite value_sign, Q. change (2 ^ 51)%Z with 2251799813685248%Z. cbn [sign proper]. split; [lra|lia]. }
  destruct (V 1%Z) as [V1 P1]; [lia|lia|]. destruct (V 2%Z) as [V2 P2]; [lia|lia|]. destruct (V 3%Z) as [V3 P3]; [lia|lia|].
  assert (S : smallest_normal <= / 4) by (apply Rle_trans with (pw (-2)); [apply pw_le; lia|change (pw (-2)) with (/ 2 ^ 2); lra]).
  split.
  - exists (f_add (f_mul (f_of_Z 2) f_third) (f_of_Z 1)). split.
    + assert (F3 : f_third = S754_finite false 6004799503160661 (-54)) by (vm_compute; reflexivity).
      assert (Q : pw (-54) = / IZR (2 ^ 54)) by (rewrite <- pw_IZR by lia; reflexivity).
      assert (VT : 1 / 4 <= value f_third) by (rewrite F3, value_sign, Q; change (2 ^ 54)%Z with 18014398509481984%Z; cbn [sign]; lra).
      constructor; [|now constructor|vm_compute; exact I].
      constructor; [now constructor| |vm_compute; exact I|right; rewrite V2, Rabs_pos_eq; lra].
      constructor; [now constructor|now constructor|rewrite V3; lra|vm_compute; exact I|right; rewrite V1, V3, Rabs_pos_eq; lra].
    + assert (E : f_add (f_mul (f_of_Z 2) f_third) (f_of_Z 1) = S754_finite false 7505999378950826 (-52)) by (vm_compute; reflexivity).
      rewrite E, value_sign. assert (Q : pw (-52) = / IZR (2 ^ 52)) by (rewrite <- pw_IZR by lia; reflexivity).
      rewrite Q. change (2 ^ 52)%Z with 4503599627370496%Z. cbn [sign]. lra.
  - assert (V0 : value (S754_finite false 1 0) = 1) by (cbn; ring). cbv zeta. rewrite V0.
    split; [cbn; lia|]. split; [reflexivity|]. split; [|vm_compute; reflexivity].
    pose proof pi_bounds as B. unfold degrees. assert (D : 57.29 < 1 * 180 / PI < 57.3).
    { split; [apply Rmult_lt_reg_r with PI|apply Rmult_lt_reg_r with PI]; try lra; unfold Rdiv; rewrite Rmult_assoc, Rinv_l; lra. }
    intros k. change (powerRZ 2 (-44)) with (/ 2 ^ 44). assert (K : / 2 ^ 44 < 1 / 10) by lra.
    destruct (Z.le_gt_cases k 57) as [H|H].
    + apply IZR_le in H. rewrite Rabs_pos_eq; lra.
    + assert (H' : (58 <= k)%Z) by lia. apply IZR_le in H'. rewrite Rabs_left1; lra.
Qed.
