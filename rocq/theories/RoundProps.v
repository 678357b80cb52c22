(** C88: the pixel coordinates of polynomial sensor models are accurate in floating point. *)
Require Import Reals List Lia Lra.
Require Import Verif.Base Verif.Vec Verif.RpcModel Verif.RsmModel Verif.RoundModel Verif.RoundSpec Verif.RoundProofs.
Import ListNotations.
Local Open Scope R_scope.

(** Any formula without divisions by computed values: the error is relative to the sum of the
    absolute values of its terms. *)
Theorem C88_formulas : forall u e x, 0 <= u -> polynomial e -> computed u e x ->
  Rabs (x - exact e) <= growth u (roundings e) * magnitude e.
Proof. exact computed_error. Qed.
Print Assumptions C88_formulas.

(** The relation allows exact evaluation, and with u = 0 nothing else. *)
Theorem C88_no_rounding : forall e x, polynomial e -> (computed 0 e x <-> x = exact e).
Proof.
  intros e x Hp. split.
  - intros Hc. pose proof (computed_error 0 e x (Rle_refl 0) Hp Hc) as H. unfold growth in H. rewrite Rplus_0_r, pow1 in H.
    replace ((1 - 1) * magnitude e) with 0 in H by ring. pose proof (Rabs_pos (x - exact e)).
    destruct (Req_dec (x - exact e) 0) as [E|E]; [lra|]. apply Rabs_pos_lt in E. lra.
  - intros ->. apply exact_computed; [apply Rle_refl|exact Hp].
Qed.
Print Assumptions C88_no_rounding.

(** RPC: a polynomial of the normalised longitude, latitude and height errs by at most the growth
    of 22 roundings, relative to the polynomial with absolute values. *)
Theorem C88_rpc_polynomial : forall u c lon lat height lo ls po ps ho hs x,
  0 <= u -> (20 <= length c)%nat -> ls <> 0 -> ps <> 0 -> hs <> 0 ->
  computed u (rpc_formula c (normalized lon lo ls) (normalized lat po ps) (normalized height ho hs)) x ->
  exists r a,
    rpc_evaluate c ((lon - lo) / ls) ((lat - po) / ps) ((height - ho) / hs) = Ok r /\
    rpc_evaluate (map Rabs c) (Rabs ((lon - lo) / ls)) (Rabs ((lat - po) / ps)) (Rabs ((height - ho) / hs)) = Ok a /\
    Rabs (x - r) <= growth u 22 * a.
Proof.
  intros u c lon lat height lo ls po ps ho hs x Hu Hc H1 H2 H3 Hx.
  do 2 eexists. split; [apply (rpc_formula_exact c (normalized lon lo ls) (normalized lat po ps) (normalized height ho hs) Hc)|].
  split.
  - rewrite <- !normalized_magnitude. now apply rpc_formula_magnitude.
  - apply bounded_error; auto.
    + apply rpc_formula_polynomial; auto using normalized_polynomial.
    + rewrite rpc_formula_roundings by exact Hc. constructor.
Qed.
Print Assumptions C88_rpc_polynomial.

(** RPC pixels: [lon] and [lat] are the degrees the code has computed. *)
Theorem C88_rpc_pixel : forall u m g i xs xl,
  0 <= u -> long_scale m <> 0 -> lat_scale m <> 0 -> height_scale m <> 0 ->
  rpc_world_to_image m g = Ok i ->
  computed u (rpc_sample m (degrees (longitude g)) (degrees (latitude g)) (elevation g)) xs ->
  computed u (rpc_line m (degrees (longitude g)) (degrees (latitude g)) (elevation g)) xl ->
  let l := (degrees (longitude g) - long_off m) / long_scale m in
  let p := (degrees (latitude g) - lat_off m) / lat_scale m in
  let h := (elevation g - height_off m) / height_scale m in
  exists sn sd ln ld asn asd aln ald,
    rpc_evaluate (samp_num_poly m) l p h = Ok sn /\ rpc_evaluate (samp_den_poly m) l p h = Ok sd /\
    rpc_evaluate (line_num_poly m) l p h = Ok ln /\ rpc_evaluate (line_den_poly m) l p h = Ok ld /\
    rpc_evaluate (map Rabs (samp_num_poly m)) (Rabs l) (Rabs p) (Rabs h) = Ok asn /\
    rpc_evaluate (map Rabs (samp_den_poly m)) (Rabs l) (Rabs p) (Rabs h) = Ok asd /\
    rpc_evaluate (map Rabs (line_num_poly m)) (Rabs l) (Rabs p) (Rabs h) = Ok aln /\
    rpc_evaluate (map Rabs (line_den_poly m)) (Rabs l) (Rabs p) (Rabs h) = Ok ald /\
    (growth u 22 * asd < Rabs sd ->
       Rabs (xs - ix i) <= quotient_error u (growth u 22 * asn) (growth u 22 * asd) sn sd (samp_scale m) (samp_off m)) /\
    (growth u 22 * ald < Rabs ld ->
       Rabs (xl - iy i) <= quotient_error u (growth u 22 * aln) (growth u 22 * ald) ln ld (line_scale m) (line_off m)).
Proof.
  intros u m g i xs xl Hu H1 H2 H3 Hi Hs Hl l p h. unfold rpc_world_to_image in Hi. fold l p h in Hi.
  assert (L : forall c r, rpc_evaluate c l p h = Ok r -> (20 <= length c)%nat).
  { intros c r. unfold rpc_evaluate. destruct (Nat.ltb (length c) 20) eqn:E; [discriminate|]. intros _. now apply Nat.ltb_ge in E. }
  assert (P : forall c r, rpc_evaluate c l p h = Ok r ->
    exists a, rpc_evaluate (map Rabs c) (Rabs l) (Rabs p) (Rabs h) = Ok a /\
      forall x, computed u (rpc_normalized m (degrees (longitude g)) (degrees (latitude g)) (elevation g) (rpc_formula c)) x -> Rabs (x - r) <= growth u 22 * a).
  { intros c r Hr. pose proof (L _ _ Hr) as Hc.
    destruct (rpc_evaluate (map Rabs c) (Rabs l) (Rabs p) (Rabs h)) as [a|] eqn:Ea.
    - exists a. split; [reflexivity|]. intros x Hx.
      destruct (C88_rpc_polynomial u c _ _ _ _ _ _ _ _ _ x Hu Hc H1 H2 H3 Hx) as (r' & a' & E1 & E2 & E3).
      fold l p h in E1, E2. rewrite Hr in E1. rewrite Ea in E2. injection E1 as <-. injection E2 as <-. exact E3.
    - unfold rpc_evaluate in Ea. rewrite map_length in Ea. apply Nat.ltb_ge in Hc. rewrite Hc in Ea. discriminate. }
  destruct (rpc_evaluate (samp_num_poly m) l p h) as [sn|] eqn:E1; cbn [bind] in Hi; [|discriminate].
  destruct (rpc_evaluate (samp_den_poly m) l p h) as [sd|] eqn:E2; cbn [bind] in Hi; [|discriminate].
  destruct (rpc_evaluate (line_num_poly m) l p h) as [ln|] eqn:E3; cbn [bind] in Hi; [|discriminate].
  destruct (rpc_evaluate (line_den_poly m) l p h) as [ld|] eqn:E4; cbn [bind] in Hi; [|discriminate].
  injection Hi as <-. cbn [ix iy].
  destruct (P _ _ E1) as (asn & A1 & B1). destruct (P _ _ E2) as (asd & A2 & B2).
  destruct (P _ _ E3) as (aln & A3 & B3). destruct (P _ _ E4) as (ald & A4 & B4).
  exists sn, sd, ln, ld, asn, asd, aln, ald. repeat (split; [first [reflexivity|assumption]|]).
  split; intros Hd.
  - eapply quotient_computed; eauto.
  - eapply quotient_computed; eauto.
Qed.
Print Assumptions C88_rpc_pixel.

(** In binary64: when the terms of numerator and denominator add up to at most 4 in absolute value,
    the denominator is at least 1/2 and scale and offset are at most 100000, a pixel coordinate is
    wrong by at most a millionth of a pixel. *)
Theorem C88_rpc_binary64 : forall m g i xs xl,
  long_scale m <> 0 -> lat_scale m <> 0 -> height_scale m <> 0 ->
  rpc_world_to_image m g = Ok i ->
  computed binary64 (rpc_sample m (degrees (longitude g)) (degrees (latitude g)) (elevation g)) xs ->
  computed binary64 (rpc_line m (degrees (longitude g)) (degrees (latitude g)) (elevation g)) xl ->
  let l := (degrees (longitude g) - long_off m) / long_scale m in
  let p := (degrees (latitude g) - lat_off m) / lat_scale m in
  let h := (elevation g - height_off m) / height_scale m in
  (rpc_tame (samp_num_poly m) (samp_den_poly m) l p h (samp_scale m) (samp_off m) -> Rabs (xs - ix i) <= / 1000000) /\
  (rpc_tame (line_num_poly m) (line_den_poly m) l p h (line_scale m) (line_off m) -> Rabs (xl - iy i) <= / 1000000).
Proof.
  intros m g i xs xl H1 H2 H3 Hi Hs Hl l p h.
  assert (U : 0 <= binary64) by (unfold binary64; apply Rlt_le, Rinv_0_lt_compat, pow_lt; lra).
  destruct (C88_rpc_pixel binary64 m g i xs xl U H1 H2 H3 Hi Hs Hl) as (sn & sd & ln & ld & asn & asd & aln & ald & E1 & E2 & E3 & E4 & A1 & A2 & A3 & A4 & B1 & B2).
  fold l p h in E1, E2, E3, E4, A1, A2, A3, A4.
  split; intros (an & ad & d & T1 & T2 & T3 & T4 & T5 & T6 & T7 & T8).
  - rewrite A1 in T1. rewrite A2 in T3. rewrite E2 in T5. injection T1 as <-. injection T3 as <-. injection T5 as <-.
    pose proof (rpc_evaluate_abs _ _ _ _ _ _ E1 A1). pose proof (rpc_evaluate_abs _ _ _ _ _ _ E2 A2). pose proof (Rabs_pos sd).
    destruct (small_quotient_error 22 22 sn sd asn asd (samp_scale m) (samp_off m)) as [X Y]; [lia|lia|lra|lra|lra|lra|lra|].
    eapply Rle_trans; [exact (B1 X)|exact Y].
  - rewrite A3 in T1. rewrite A4 in T3. rewrite E4 in T5. injection T1 as <-. injection T3 as <-. injection T5 as <-.
    pose proof (rpc_evaluate_abs _ _ _ _ _ _ E3 A3). pose proof (rpc_evaluate_abs _ _ _ _ _ _ E4 A4). pose proof (Rabs_pos ld).
    destruct (small_quotient_error 22 22 ln ld aln ald (line_scale m) (line_off m)) as [X Y]; [lia|lia|lra|lra|lra|lra|lra|].
    eapply Rle_trans; [exact (B2 X)|exact Y].
Qed.
Print Assumptions C88_rpc_binary64.

(** RSM polynomials. *)
Theorem C88_rsm_polynomial : forall u p v xo xs yo ys zo zs x,
  0 <= u -> xs <> 0 -> ys <> 0 -> zs <> 0 ->
  computed u (rsm_formula p (normalized (vx v) xo xs) (normalized (vy v) yo ys) (normalized (vz v) zo zs)) x ->
  let n := mkVec ((vx v - xo) / xs) ((vy v - yo) / ys) ((vz v - zo) / zs) in
  Rabs (x - poly_evaluate p n) <= growth u (rsm_roundings p) * poly_evaluate (absolute p) (vabs n).
Proof.
  intros u p v xo xs yo ys zo zs x Hu H1 H2 H3 Hx n.
  assert (Ev : poly_evaluate p n = exact (rsm_formula p (normalized (vx v) xo xs) (normalized (vy v) yo ys) (normalized (vz v) zo zs)))
    by (rewrite rsm_formula_exact; reflexivity).
  assert (Am : poly_evaluate (absolute p) (vabs n) = magnitude (rsm_formula p (normalized (vx v) xo xs) (normalized (vy v) yo ys) (normalized (vz v) zo zs)))
    by (rewrite rsm_formula_magnitude, !normalized_magnitude; reflexivity).
  rewrite Ev, Am. apply bounded_error; auto.
  - apply rsm_formula_polynomial; now apply normalized_polynomial.
  - apply rsm_formula_roundings; cbn; lia.
Qed.
Print Assumptions C88_rsm_polynomial.

Theorem C88_rsm_pixel : forall u m v xc xr,
  0 <= u -> x_scale m <> 0 -> y_scale m <> 0 -> z_scale m <> 0 ->
  computed u (rsm_column m v) xc -> computed u (rsm_row m v) xr ->
  let n := normalize_world_coordinate m v in
  let err p := growth u (rsm_roundings p) * poly_evaluate (absolute p) (vabs n) in
  (err (column_den m) < Rabs (poly_evaluate (column_den m) n) ->
     Rabs (xc - ix (ground_domain_to_image m v)) <=
       quotient_error u (err (column_num m)) (err (column_den m)) (poly_evaluate (column_num m) n) (poly_evaluate (column_den m) n) (column_scale m) (column_off m)) /\
  (err (row_den m) < Rabs (poly_evaluate (row_den m) n) ->
     Rabs (xr - iy (ground_domain_to_image m v)) <=
       quotient_error u (err (row_num m)) (err (row_den m)) (poly_evaluate (row_num m) n) (poly_evaluate (row_den m) n) (row_scale m) (row_off m)).
Proof.
  intros u m v xc xr Hu H1 H2 H3 Hc Hr n err.
  assert (P : forall p x, computed u (rsm_normalized m v (rsm_formula p)) x -> Rabs (x - poly_evaluate p n) <= err p).
  { intros p x Hx. apply (C88_rsm_polynomial u p v _ _ _ _ _ _ x Hu H1 H2 H3 Hx). }
  split; intros Hd.
  - apply (quotient_computed u _ _ _ _ _ _ _ _ _ Hu Hc); auto.
  - apply (quotient_computed u _ _ _ _ _ _ _ _ _ Hu Hr); auto.
Qed.
Print Assumptions C88_rsm_pixel.

(** In binary64, for polynomials with powers up to 5 of each coordinate: a millionth of a pixel. *)
Theorem C88_rsm_binary64 : forall m v xc xr,
  x_scale m <> 0 -> y_scale m <> 0 -> z_scale m <> 0 ->
  (forall p, In p [column_num m; column_den m; row_num m; row_den m] -> (max_x p <= 5 /\ max_y p <= 5 /\ max_z p <= 5)%nat) ->
  computed binary64 (rsm_column m v) xc -> computed binary64 (rsm_row m v) xr ->
  let n := normalize_world_coordinate m v in
  (rsm_tame (column_num m) (column_den m) n (column_scale m) (column_off m) ->
     Rabs (xc - ix (ground_domain_to_image m v)) <= / 1000000) /\
  (rsm_tame (row_num m) (row_den m) n (row_scale m) (row_off m) ->
     Rabs (xr - iy (ground_domain_to_image m v)) <= / 1000000).
Proof.
  intros m v xc xr H1 H2 H3 Hp Hc Hr n.
  assert (U : 0 <= binary64) by (unfold binary64; apply Rlt_le, Rinv_0_lt_compat, pow_lt; lra).
  assert (K : forall p, (max_x p <= 5 /\ max_y p <= 5 /\ max_z p <= 5)%nat -> (rsm_roundings p <= 256)%nat).
  { intros p (A & B & C). unfold rsm_roundings.
    assert ((max_x p + 1) * (max_y p + 1) * (max_z p + 1) <= 6 * 6 * 6)%nat by (repeat apply Nat.mul_le_mono; lia). lia. }
  destruct (C88_rsm_pixel binary64 m v xc xr U H1 H2 H3 Hc Hr) as [B1 B2]. fold n in B1, B2.
  split; intros (T1 & T2 & T3 & T4 & T5).
  - pose proof (poly_evaluate_abs (column_num m) n). pose proof (poly_evaluate_abs (column_den m) n). pose proof (Rabs_pos (poly_evaluate (column_den m) n)).
    destruct (small_quotient_error (rsm_roundings (column_num m)) (rsm_roundings (column_den m)) (poly_evaluate (column_num m) n) (poly_evaluate (column_den m) n)
      (poly_evaluate (absolute (column_num m)) (vabs n)) (poly_evaluate (absolute (column_den m)) (vabs n)) (column_scale m) (column_off m)) as [X Y];
      [apply K, Hp; cbn; tauto|apply K, Hp; cbn; tauto|lra|lra|lra|lra|lra|].
    eapply Rle_trans; [exact (B1 X)|exact Y].
  - pose proof (poly_evaluate_abs (row_num m) n). pose proof (poly_evaluate_abs (row_den m) n). pose proof (Rabs_pos (poly_evaluate (row_den m) n)).
    destruct (small_quotient_error (rsm_roundings (row_num m)) (rsm_roundings (row_den m)) (poly_evaluate (row_num m) n) (poly_evaluate (row_den m) n)
      (poly_evaluate (absolute (row_num m)) (vabs n)) (poly_evaluate (absolute (row_den m)) (vabs n)) (row_scale m) (row_off m)) as [X Y];
      [apply K, Hp; cbn; tauto|apply K, Hp; cbn; tauto|lra|lra|lra|lra|lra|].
    eapply Rle_trans; [exact (B2 X)|exact Y].
Qed.
Print Assumptions C88_rsm_binary64.

(** Affine transforms: three roundings, relative to the sum of the absolute terms. *)
Theorem C88_affine : forall u m x y xr yr,
  0 <= u -> computed u (affine_formula (row1 m) x y) xr -> computed u (affine_formula (row2 m) x y) yr ->
  let e r := growth u 3 * (Rabs (vx r * x) + Rabs (vy r * y) + Rabs (vz r)) in
  Rabs (xr - vx (mulv m (mkVec x y 1))) <= e (row1 m) /\ Rabs (yr - vy (mulv m (mkVec x y 1))) <= e (row2 m).
Proof.
  assert (G : forall u r x y c, 0 <= u -> computed u (affine_formula r x y) c ->
    Rabs (c - vdot r (mkVec x y 1)) <= growth u 3 * (Rabs (vx r * x) + Rabs (vy r * y) + Rabs (vz r))).
  { intros u r x y c Hu Hc.
    replace (vdot r (mkVec x y 1)) with (exact (affine_formula r x y)) by (unfold vdot; cbn; ring).
    replace (Rabs (vx r * x) + Rabs (vy r * y) + Rabs (vz r)) with (magnitude (affine_formula r x y))
      by (cbn; rewrite !Rabs_mult, Rabs_R1; ring).
    apply bounded_error; auto; cbn; first [tauto|lia]. }
  intros. split; now apply G.
Qed.
Print Assumptions C88_affine.

(** A model and a point to which the bounds apply: longitude and latitude are sample and line. *)
Definition unit_poly : list R := 1 :: repeat 0 19.
Definition demo_rpc : RPC :=
  mkRPC 50 50 0 0 0 100 100 1 1 1 ([0; 0; 1] ++ repeat 0 17) unit_poly ([0; 1] ++ repeat 0 18) unit_poly.
Example C88_non_vacuous :
  let g := mkGeo (radians (1 / 2)) (radians (1 / 4)) 0 in
  rpc_world_to_image demo_rpc g = Ok (mkImage 100 75) /\
  computed binary64 (rpc_sample demo_rpc (degrees (longitude g)) (degrees (latitude g)) (elevation g)) (100 * (1 + binary64)) /\
  computed binary64 (rpc_line demo_rpc (degrees (longitude g)) (degrees (latitude g)) (elevation g)) 75 /\
  rpc_tame (samp_num_poly demo_rpc) (samp_den_poly demo_rpc) ((degrees (longitude g) - 0) / 1) ((degrees (latitude g) - 0) / 1) ((0 - 0) / 1) 100 50.
Proof.
  assert (D : forall a, degrees (radians a) = a) by (intros; unfold degrees, radians; field; apply PI_neq0).
  assert (Z : Rabs 0 <= binary64) by (rewrite Rabs_R0; unfold binary64; apply Rlt_le, Rinv_0_lt_compat, pow_lt; lra).
  assert (U : 0 <= binary64) by (rewrite Rabs_R0 in Z; exact Z).
  cbn [longitude latitude elevation]. rewrite !D.
  assert (N : forall c, length c = 20%nat -> computed binary64 (rpc_normalized demo_rpc (1 / 2) (1 / 4) 0 (rpc_formula c)) (exact (rpc_normalized demo_rpc (1 / 2) (1 / 4) 0 (rpc_formula c)))).
  { intros c Hc. apply exact_computed; [exact U|]. apply rpc_formula_polynomial; [lia| | |]; apply normalized_polynomial; cbn; lra. }
  split; [|split; [|split]].
  - unfold rpc_world_to_image. cbn [longitude latitude elevation demo_rpc long_off long_scale lat_off lat_scale height_off height_scale].
    rewrite !D. cbn. f_equal. f_equal; field.
  - replace (100 * (1 + binary64)) with ((exact (rpc_normalized demo_rpc (1 / 2) (1 / 4) 0 (rpc_formula (samp_num_poly demo_rpc)))
      / exact (rpc_normalized demo_rpc (1 / 2) (1 / 4) 0 (rpc_formula (samp_den_poly demo_rpc))) * (1 + 0) * 100 * (1 + 0) + 50) * (1 + binary64)) by (cbn; field).
    constructor; [|constructor|rewrite Rabs_pos_eq; [apply Rle_refl|exact U]].
    constructor; [|constructor|exact Z]. constructor; [apply N; reflexivity|apply N; reflexivity|cbn; lra|exact Z].
  - replace 75 with ((exact (rpc_normalized demo_rpc (1 / 2) (1 / 4) 0 (rpc_formula (line_num_poly demo_rpc)))
      / exact (rpc_normalized demo_rpc (1 / 2) (1 / 4) 0 (rpc_formula (line_den_poly demo_rpc))) * (1 + 0) * 100 * (1 + 0) + 50) * (1 + 0)) by (cbn; field).
    constructor; [|constructor|exact Z].
    constructor; [|constructor|exact Z]. constructor; [apply N; reflexivity|apply N; reflexivity|cbn; lra|exact Z].
  - replace ((1 / 2 - 0) / 1) with (1 / 2) by field. replace ((1 / 4 - 0) / 1) with (1 / 4) by field. replace ((0 - 0) / 1) with 0 by field.
    do 3 eexists. split; [reflexivity|].
    rewrite (Rabs_pos_eq (1 / 2)), (Rabs_pos_eq (1 / 4)), Rabs_R0 by lra.
    split; [cbn; rewrite ?Rabs_R0, ?Rabs_R1; lra|]. split; [reflexivity|].
    split; [cbn; rewrite ?Rabs_R0, ?Rabs_R1; lra|]. split; [reflexivity|].
    split; [cbn; rewrite Rabs_pos_eq; lra|]. rewrite !Rabs_pos_eq; lra.
Qed.
