(** C109: an ordinary RSM polynomial camera gives accurate pixels in binary64, for every power function
    that is accurate to a few units in the last place. *)
Require Import ZArith Reals List Lra Lia SpecFloat.
Require Import Verif.Base Verif.Vec Verif.RsmModel Verif.CoordFloatModel
  Verif.RoundModel Verif.RoundSpec Verif.RoundProofs Verif.FloatModel Verif.FloatSpec Verif.FloatProofs Verif.FloatNearest
  Verif.RpcFloatModel Verif.RpcFloatSpec Verif.RpcFloatProofs Verif.RpcFloatProps Verif.RsmFloatModel Verif.RsmFloatSpec Verif.RsmFloatProofs.
Import ListNotations.
Local Open Scope R_scope.

(** The program's pixel is a pair of numbers within a millionth of a pixel of the exact one. *)
Theorem C109_pixel : forall pow d m v, accurate_power pow -> ordinary_rsm m -> in_range m v ->
  let f := f_ground_domain_to_image pow m v in let i := ground_domain_to_image (real_rsm d m) (real_vec v) in
  is_binary64 (fst f) /\ is_binary64 (snd f) /\ Rabs (value (fst f) - ix i) <= / 1000000 /\ Rabs (value (snd f) - iy i) <= / 1000000.
Proof.
  intros pw' d m v A O (Bx & By & Bz & Rx & Ry & Rz). destruct O. set (n := f_normalize_world m v). set (N := normalize_world_coordinate (real_rsm d m) (real_vec v)).
  assert (Sx : stands (fvx n) (vx N)) by exact (norm_float _ _ _ Bx or_x_off or_x_scale Rx).
  assert (Sy : stands (fvy n) (vy N)) by exact (norm_float _ _ _ By or_y_off or_y_scale Ry).
  assert (Sz : stands (fvz n) (vz N)) by exact (norm_float _ _ _ Bz or_z_off or_z_scale Rz).
  assert (NU : forall p, rsm_numerator p -> is_binary64 (f_poly_evaluate pw' p n) /\ Rabs (value (f_poly_evaluate pw' p n) - poly_evaluate (real_poly p) N) <= 30 / 10 ^ 14 /\ Rabs (poly_evaluate (real_poly p) N) <= 4).
  { intros p [C T]. destruct (rsm_poly_float pw' A p n N C T Sx Sy Sz) as (P1 & P2 & P3 & _). split; [exact P1|]. split; [exact P2|]. lra. }
  assert (DE : forall p, rsm_denominator p -> is_binary64 (f_poly_evaluate pw' p n) /\ Rabs (value (f_poly_evaluate pw' p n) - poly_evaluate (real_poly p) N) <= 30 / 10 ^ 14 /\ 1 / 2 <= Rabs (poly_evaluate (real_poly p) N)).
  { intros p [C (c0 & rest & E & V & T)]. assert (T3 : total (f_coefs p) <= 3) by (rewrite E; change (total (c0 :: rest)) with (Rabs (value c0) + total rest); rewrite V, Rabs_R1; lra).
    destruct (rsm_poly_float pw' A p n N C T3 Sx Sy Sz) as (P1 & P2 & _ & P4). split; [exact P1|]. split; [exact P2|].
    specialize (P4 _ _ E). rewrite V in P4. pose proof (Rle_trans _ _ _ P4 T) as Q. apply abs_interval in Q. rewrite Rabs_pos_eq; lra. }
  destruct (NU _ or_row_num) as (A1 & A2 & A3). destruct (NU _ or_column_num) as (B1 & B2 & B3).
  destruct (DE _ or_row_den) as (C1 & C2 & C3). destruct (DE _ or_column_den) as (D1 & D2 & D3).
  destruct or_row_scale as [Ba Ha], or_row_off as [Bb Hb], or_column_scale as [Bc Hc], or_column_off as [Bd Hd].
  destruct (f_quotient_wide _ _ _ _ _ _ B1 D1 Bc Bd B2 D2 B3 D3 ltac:(lra) ltac:(lra)) as [X1 X2].
  destruct (f_quotient_wide _ _ _ _ _ _ A1 C1 Ba Bb A2 C2 A3 C3 ltac:(lra) ltac:(lra)) as [Y1 Y2].
  cbv zeta. unfold f_ground_domain_to_image, f_denormalize, ground_domain_to_image, denormalize_image_coordinate, denormalize. fold n. fold N. cbn [fst snd ix iy real_rsm row_num row_den column_num column_den row_off row_scale column_off column_scale].
  split; [exact X1|]. split; [exact Y1|]. split; [exact X2|exact Y2].
Qed.
(** Repeated multiplication is such a power function; with it nothing is left open. *)
Theorem C109_multiplication : accurate_power f_pow_mul /\
  forall d m v, ordinary_rsm m -> in_range m v ->
  let f := f_ground_domain_to_image f_pow_mul m v in let i := ground_domain_to_image (real_rsm d m) (real_vec v) in
  is_binary64 (fst f) /\ is_binary64 (snd f) /\ Rabs (value (fst f) - ix i) <= / 1000000 /\ Rabs (value (snd f) - iy i) <= / 1000000.
Proof. split; [exact pow_mul_accurate|]. intros d m v. apply C109_pixel, pow_mul_accurate. Qed.

Print Assumptions C109_pixel.

(** In the geodetic form the ground domain's coordinates are longitude, latitude and height. *)
Theorem C109_geodetic : forall pow to_geocentric d m v, accurate_power pow -> ordinary_rsm m -> in_range m v -> gd_form d = GEODETIC ->
  exists i, rsm_world_to_image to_geocentric (real_rsm d m) (mkGeo (value (fvx v)) (value (fvy v)) (value (fvz v))) = Ok i /\
    Rabs (value (fst (f_ground_domain_to_image pow m v)) - ix i) <= / 1000000 /\ Rabs (value (snd (f_ground_domain_to_image pow m v)) - iy i) <= / 1000000.
Proof.
  intros pw' tg d m v A O I F. destruct (C109_pixel pw' d m v A O I) as (_ & _ & X & Y). eexists. split; [|split; [exact X|exact Y]].
  unfold rsm_world_to_image, geodetic_to_ground_domain_coordinate. cbn [real_rsm rp_domain]. rewrite F. reflexivity.
Qed.
Print Assumptions C109_geodetic.

(** Two power functions within the demanded accuracy give pixels within two millionths of each other. *)
Theorem C109_any_power : forall pow pow' m v, accurate_power pow -> accurate_power pow' -> ordinary_rsm m -> in_range m v ->
  Rabs (value (fst (f_ground_domain_to_image pow m v)) - value (fst (f_ground_domain_to_image pow' m v))) <= / 500000 /\
  Rabs (value (snd (f_ground_domain_to_image pow m v)) - value (snd (f_ground_domain_to_image pow' m v))) <= / 500000.
Proof.
  intros p p' m v A A' O I. set (d := mkGroundDomain GEODETIC [] None None [] None 0).
  destruct (C109_pixel p d m v A O I) as (_ & _ & X & Y). destruct (C109_pixel p' d m v A' O I) as (_ & _ & X' & Y').
  apply abs_interval in X, Y, X', Y'. split; apply Rabs_le; lra.
Qed.
Print Assumptions C109_any_power.
Print Assumptions C109_multiplication.

(** A camera with powers up to 2, 1 and 1, near longitude 1.2 and latitude 0.7 radians. *)
Definition demo_rsm_den : FPoly := mkFPoly 1 0 0 [f_of_Z 1; f_ratio 1 1000].
Definition demo_rsm : FRsm :=
  mkFRsm (f_of_Z 4000) (f_of_Z 5000) (f_ratio 12 10) (f_ratio 7 10) (f_of_Z 50)
    (f_of_Z 4000) (f_of_Z 5000) (f_ratio 1 100) (f_ratio 1 90) (f_of_Z 500)
    (mkFPoly 2 1 1 [f_ratio 1 1000; f_ratio 1 700; f_ratio 1 10000; f_ratio (-99) 100; f_zero; f_ratio 1 300; f_ratio 1 50; f_zero; f_zero; f_zero; f_zero; f_smallest]) demo_rsm_den
    (mkFPoly 2 1 1 [f_ratio 1 500; f_ratio 101 100; f_ratio 1 7000; f_zero; f_ratio (-1) 300; f_zero; f_ratio (-1) 50; f_zero; f_zero; f_zero; f_zero; f_zero]) demo_rsm_den.
Definition demo_place : FVec := mkFVec (f_ratio 1205 1000) (f_ratio 705 1000) (f_of_Z 100).

Lemma demo_ordinary_rsm : ordinary_rsm demo_rsm.
Proof.
  assert (D : rsm_denominator demo_rsm_den).
  { split.
    - unfold complete, demo_rsm_den. cbn [f_max_x f_max_y f_max_z f_coefs]. repeat (split; [lia|]). split; [reflexivity|]. see. repeat (apply Forall_cons; [bits|]). apply Forall_nil.
    - exists (f_of_Z 1), [f_ratio 1 1000]. split; [reflexivity|]. split.
      + see. rewrite value_sign, pw_neg. cbn [sign]. powers. lra.
      + cbn [total fold_right]. see. rewrite !abs_value. powers. lra. }
  assert (N : forall p, p = f_row_num demo_rsm \/ p = f_column_num demo_rsm -> rsm_numerator p).
  { intros p [-> | ->]; cbn [demo_rsm f_row_num f_column_num]; (split;
      [unfold complete; cbn [f_max_x f_max_y f_max_z f_coefs]; repeat (split; [lia|]); split; [reflexivity|]; see; repeat (apply Forall_cons; [bits|]); apply Forall_nil
      |cbn [f_coefs total fold_right]; see; rewrite !abs_value; unfold f_zero; rewrite !abs_zero; pose proof smallest_abs; powers; lra]). }
  constructor; try exact D; try (apply N; auto); cbn [demo_rsm f_row_off f_column_off f_x_off f_y_off f_z_off f_row_scale f_column_scale f_x_scale f_y_scale f_z_scale];
    see; (split; [bits|rewrite abs_value; powers; lra]).
Qed.

(** The hypotheses hold, with repeated multiplication for a power function; the program returns
    column 7520.2 and row 2235.3. *)
Example C109_non_vacuous :
  accurate_power f_pow_mul /\ ordinary_rsm demo_rsm /\ in_range demo_rsm demo_place /\
  make_poly 2 1 1 (map value (f_coefs (f_row_num demo_rsm))) = Ok (real_poly (f_row_num demo_rsm)) /\
  f_ground_domain_to_image f_pow_mul demo_rsm demo_place = (S754_finite false 8268512694494600 (-40), S754_finite false 4915563485445512 (-41)).
Proof.
  split; [exact pow_mul_accurate|]. split; [exact demo_ordinary_rsm|]. split; [|split; [reflexivity|vm_compute; reflexivity]].
  unfold in_range. cbn [demo_rsm demo_place fvx fvy fvz f_x_off f_y_off f_z_off f_x_scale f_y_scale f_z_scale]. see.
  repeat (split; [bits|]). rewrite !abs_value, !value_sign, !pw_neg. cbn [sign]. powers. repeat split; apply Rabs_le; lra.
Qed.
