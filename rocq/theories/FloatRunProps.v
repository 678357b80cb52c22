(** Concrete sensor models to which C88 and C89 apply, run bit by bit. *)
Require Import ZArith Reals List Bool Lra Lia SpecFloat.
Require Import Verif.Base Verif.BaseFacts Verif.Vec Verif.CoordModel Verif.CoordFloatModel Verif.RpcModel Verif.RsmModel
  Verif.RoundModel Verif.RoundSpec Verif.RoundProofs Verif.RoundProps Verif.FloatModel Verif.FloatSpec Verif.FloatProofs Verif.FloatNearest Verif.FloatProps
  Verif.DmsFloatProofs Verif.RpcFloatModel Verif.RpcFloatSpec Verif.RpcFloatProofs Verif.RpcFloatProps.
Import ListNotations.
Local Open Scope R_scope.
Local Notation pw := (powerRZ 2).

(** Formulas of floats, and their results.  Squares stand in for pow, which is only needed up to 2. *)
Inductive prog := PNum (f : spec_float) | PAdd (a b : prog) | PSub (a b : prog) | PMul (a b : prog) | PDiv (a b : prog) | PPow (a : prog) (n : nat).
Fixpoint formula (p : prog) : expr :=
  match p with
  | PNum f => Num (value f) | PAdd a b => Add (formula a) (formula b) | PSub a b => Sub (formula a) (formula b)
  | PMul a b => Mul (formula a) (formula b) | PDiv a b => Div (formula a) (formula b) | PPow a n => Pow (formula a) n
  end.
Fixpoint outcome (p : prog) : spec_float :=
  match p with
  | PNum f => f | PAdd a b => f_add (outcome a) (outcome b) | PSub a b => f_sub (outcome a) (outcome b)
  | PMul a b => f_mul (outcome a) (outcome b) | PDiv a b => f_div (outcome a) (outcome b)
  | PPow a n => match n with O => f_of_Z 1 | S O => outcome a | _ => f_mul (outcome a) (outcome a) end
  end.
Definition is_finite (f : spec_float) : bool := match f with S754_zero _ | S754_finite _ _ _ => true | _ => false end.
Definition is_proper (f : spec_float) : bool := match f with S754_zero _ => true | S754_finite _ _ e => (-1074 <=? e)%Z | _ => false end.
Definition mul_normal (f g : spec_float) : bool :=
  match f, g with S754_finite _ _ e, S754_finite _ _ e' => (-1022 <=? e + e')%Z | _, _ => true end.
Definition div_normal (f g : spec_float) : bool :=
  match f, g with S754_finite _ _ e, S754_finite _ m e' => (Z.pos m <=? 2 ^ 53)%Z && (-900 <=? e - e')%Z | S754_zero _, S754_finite _ _ _ => true | _, _ => false end.
Fixpoint runs_well (p : prog) : bool :=
  match p with
  | PNum f => is_proper f
  | PAdd a b => runs_well a && runs_well b && is_finite (f_add (outcome a) (outcome b))
  | PSub a b => runs_well a && runs_well b && is_finite (f_sub (outcome a) (outcome b))
  | PMul a b => runs_well a && runs_well b && is_finite (f_mul (outcome a) (outcome b)) && mul_normal (outcome a) (outcome b)
  | PDiv a b => runs_well a && runs_well b && is_finite (f_div (outcome a) (outcome b)) && div_normal (outcome a) (outcome b)
  | PPow a n => runs_well a && Nat.leb n 2 && is_finite (f_mul (outcome a) (outcome a)) && mul_normal (outcome a) (outcome a)
  end.
Lemma is_finite_ok f : is_finite f = true -> finite f.
Proof. destruct f; cbn; intros; try discriminate; exact I. Qed.
Lemma abs_finite s m e : Rabs (value (S754_finite s m e)) = IZR (Z.pos m) * pw e.
Proof. rewrite value_sign, Rmult_assoc. assert (0 < IZR (Z.pos m)) by now apply IZR_lt. pose proof (pw_pos e). apply abs_sign. nra. Qed.
Lemma mul_normal_ok f g : mul_normal f g = true -> normal (value f * value g).
Proof.
  destruct f as [| | |s m e], g as [| | |s' m' e']; intros H; try (left; cbn [value]; ring).
  right. cbn [mul_normal] in H. apply Z.leb_le in H. rewrite Rabs_mult, !abs_finite. unfold smallest_normal.
  apply Rle_trans with (pw (e + e')); [now apply pw_le|]. rewrite pw_add. pose proof (pw_pos e). pose proof (pw_pos e').
  assert (1 <= IZR (Z.pos m)) by (apply IZR_le; lia). assert (1 <= IZR (Z.pos m')) by (apply IZR_le; lia).
  assert (pw e <= IZR (Z.pos m) * pw e) by nra. assert (pw e' <= IZR (Z.pos m') * pw e') by nra. apply Rmult_le_compat; lra.
Qed.
Lemma div_normal_ok f g : div_normal f g = true -> value g <> 0 /\ normal (value f / value g).
Proof.
  destruct g as [| | |s' m' e']; try (destruct f; discriminate).
  assert (N : value (S754_finite s' m' e') <> 0).
  { intros E. pose proof (abs_finite s' m' e') as A. rewrite E, Rabs_R0 in A. pose proof (pw_pos e'). assert (0 < IZR (Z.pos m')) by now apply IZR_lt. nra. }
  destruct f as [| | |s m e]; intros H; try discriminate; (split; [exact N|]); [left; cbn [value]; unfold Rdiv; ring|].
  right. cbn [div_normal] in H. apply andb_prop in H as [H1 H2]. apply Z.leb_le in H1, H2. unfold Rdiv. rewrite Rabs_mult, Rabs_inv, !abs_finite. unfold smallest_normal.
  assert (1 <= IZR (Z.pos m)) by (apply IZR_le; lia). assert (M0 : 0 < IZR (Z.pos m')) by now apply IZR_lt. assert (M : IZR (Z.pos m') <= pw 53) by (rewrite pw_IZR by lia; now apply IZR_le).
  pose proof (pw_pos e). pose proof (pw_pos e'). pose proof (pw_pos 53).
  apply Rmult_le_reg_r with (IZR (Z.pos m') * pw e'); [nra|]. rewrite Rmult_assoc, Rinv_l, Rmult_1_r by nra.
  apply Rle_trans with (pw (-1022) * (pw 53 * pw e')); [pose proof (pw_pos (-1022)); apply Rmult_le_compat_l; nra|].
  rewrite <- !pw_add. apply Rle_trans with (pw e); [apply pw_le; lia|nra].
Qed.
Lemma one_float : is_binary64 (f_of_Z 1) /\ value (f_of_Z 1) = 1.
Proof. apply of_Z_exact. lia. Qed.
Lemma runs_well_ok p : runs_well p = true -> runs (formula p) (outcome p).
Proof.
  induction p; cbn [runs_well formula outcome]; intros H; repeat match goal with H : _ && _ = true |- _ => apply andb_prop in H as [? ?] end.
  - constructor; [|reflexivity]. destruct f; try discriminate H; [exact I|]. apply Z.leb_le, H.
  - constructor; auto using is_finite_ok.
  - constructor; auto using is_finite_ok.
  - constructor; auto using is_finite_ok, mul_normal_ok.
  - match goal with H : div_normal _ _ = true |- _ => destruct (div_normal_ok _ _ H) as [N1 N2] end. constructor; auto using is_finite_ok.
  - match goal with H : Nat.leb _ _ = true |- _ => apply Nat.leb_le in H end. assert (Ra : runs (formula p) (outcome p)) by auto. destruct (C89_formulas _ _ Ra) as [P _].
    assert (Z : Rabs 0 <= binary64) by (rewrite Rabs_R0; unfold binary64; apply Rlt_le, Rinv_0_lt_compat, pow_lt; lra).
    destruct n as [|[|[|n]]]; [| | |lia].
    + apply (RPow _ 0 _ _ 0 0 Ra); [vm_compute; discriminate|exact Z|exact Z|]. rewrite (proj2 one_float). cbn [pow]. ring.
    + apply (RPow _ 1 _ _ 0 0 Ra); [exact P|exact Z|exact Z|]. cbn [pow]. ring.
    + destruct (C89_operations _ _ P P) as (_ & _ & M & _). destruct M as ((d & D & E) & Pm); [auto using is_finite_ok|auto using mul_normal_ok|].
      apply (RPow _ 2 _ _ d 0 Ra); [exact Pm|unfold binary64; exact D|exact Z|]. rewrite E. cbn [pow]. ring.
Qed.

(** ** RPC *)
Lemma evaluate_some c l p h : (20 <= length c)%nat -> exists r, rpc_evaluate c l p h = Ok r.
Proof. intros L. unfold rpc_evaluate. destruct (Nat.ltb_spec (length c) 20); [lia|]. eexists. reflexivity. Qed.
Lemma cube_abs x : Rabs x <= 1 -> Rabs x <= 1.01.
Proof. lra. Qed.
(** The polynomials of an ordinary camera are well conditioned in its cube. *)
Lemma tame_ordinary num den l p h scale off : numerator num -> denominator den -> Rabs l <= 1 -> Rabs p <= 1 -> Rabs h <= 1 -> Rabs scale <= 100000 -> Rabs off <= 100000 ->
  rpc_tame (map value num) (map value den) l p h scale off.
Proof.
  intros (Ln & _ & Tn) (Ld & _ & c0 & rest & -> & V0 & Td) Hl Hp Hh Hs Ho.
  assert (Nn : (20 <= length (map Rabs (map value num)))%nat) by (rewrite !map_length; lia).
  assert (Nd : (20 <= length (map Rabs (map value (c0 :: rest))))%nat) by (rewrite !map_length; lia).
  assert (Ne : (20 <= length (map value (c0 :: rest)))%nat) by (rewrite map_length; lia).
  destruct (evaluate_some _ (Rabs l) (Rabs p) (Rabs h) Nn) as (an & En). destruct (evaluate_some _ (Rabs l) (Rabs p) (Rabs h) Nd) as (ad & Ed). destruct (evaluate_some _ l p h Ne) as (d & E).
  assert (B : forall x, Rabs x <= 1 -> 0 <= Rabs x <= 1.01) by (intros x X; pose proof (Rabs_pos x); lra).
  pose proof (weight _ _ _ _ _ Nn (B l Hl) (B p Hp) (B h Hh) (abs_nonneg _) En) as [_ Wn]. pose proof (weight _ _ _ _ _ Nd (B l Hl) (B p Hp) (B h Hh) (abs_nonneg _) Ed) as [_ Wd].
  assert (D : Rabs (d - value c0) <= 1.04 * total rest).
  { apply (poly_bound c0 rest l p h d); [cbn [length] in Ld; lia|now apply cube_abs..|exact E]. }
  destruct num as [|n0 num]; [discriminate|]. cbn [map tl hd] in Wn, Wd. rewrite total_sum in Wn, Wd. cbn [total fold_right] in Tn. fold (total num) in Tn. rewrite V0, Rabs_R1 in Wd.
  assert (T0 : forall c, 0 <= total c) by (intros c; induction c as [|x c IH]; cbn [total fold_right]; [lra|fold (total c); pose proof (Rabs_pos (value x)); lra]). pose proof (T0 num). pose proof (T0 rest). pose proof (Rabs_pos (value n0)).
  exists an, ad, d. split; [exact En|]. split; [lra|]. split; [exact Ed|]. split; [lra|]. split; [exact E|]. split; [|split; assumption].
  rewrite V0 in D. pose proof (Rabs_triang_inv 1 (1 - d)) as Q. replace (1 - (1 - d)) with d in Q by ring. rewrite Rabs_R1 in Q. rewrite (Rabs_minus_sym d 1) in D. lra.
Qed.

Definition p_terms (l p h : prog) : list (list prog) :=
  [[]; [l]; [p]; [h]; [l; p]; [l; h]; [p; h]; [l; l]; [p; p]; [h; h]; [l; p; h]; [l; l; l]; [l; p; p]; [l; h; h];
   [l; l; p]; [p; p; p]; [p; h; h]; [l; l; h]; [p; p; h]; [h; h; h]].
Definition p_rpc (c : list spec_float) (l p h : prog) : prog :=
  fold_left (fun result ct => PAdd result (fold_left PMul (snd ct) (PNum (fst ct)))) (combine c (p_terms l p h)) (PNum f_zero).
Definition p_normalized (v o s : spec_float) : prog := PDiv (PSub (PNum v) (PNum o)) (PNum s).
Definition p_pixel (n d : prog) (o s : spec_float) : prog := PAdd (PMul (PDiv n d) (PNum s)) (PNum o).
Lemma formula_rpc c l p h : formula (p_rpc c l p h) = rpc_formula (map value c) (formula l) (formula p) (formula h).
Proof.
  unfold p_rpc, rpc_formula. change (rpc_terms (formula l) (formula p) (formula h)) with (map (map formula) (p_terms l p h)). change (Num 0) with (formula (PNum f_zero)).
  generalize (PNum f_zero) (p_terms l p h). induction c as [|x c IH]; intros a [|t ts]; try reflexivity. cbn [combine map fold_left fst snd]. rewrite IH. cbn [formula]. f_equal. f_equal.
  change (Num (value x)) with (formula (PNum x)). generalize (PNum x). induction t as [|y t IH']; intros b; [reflexivity|]. cbn [fold_left map]. rewrite IH'. reflexivity.
Qed.
(** The camera of C108 without the coefficient that underflows, and a point 1/20 of a degree away. *)
Definition plain_num : list spec_float := [f_ratio 1 1000; f_zero; f_ratio (-99) 100; f_ratio 1 50] ++ repeat f_zero 16.
Definition plain_frpc : FRPC :=
  mkFRPC (f_of_Z 4000) (f_of_Z 5000) (f_ratio 57 2) (f_ratio 229 4) (f_of_Z 50)
    (f_of_Z 4000) (f_of_Z 5000) (f_ratio 1 4) (f_ratio 1 8) (f_of_Z 500) plain_num demo_den (f_samp_num demo_frpc) demo_den.
Definition plain_lon : spec_float := f_ratio 573 10.
Definition plain_lat : spec_float := f_ratio 286 10.
Definition plain_point : Geodetic := mkGeo (radians (value plain_lon)) (radians (value plain_lat)) (value (f_of_Z 100)).
Definition p_plain (num den : list spec_float) (o s : spec_float) : prog :=
  let k c := p_rpc c (p_normalized plain_lon (f_long_off plain_frpc) (f_long_scale plain_frpc)) (p_normalized plain_lat (f_lat_off plain_frpc) (f_lat_scale plain_frpc))
    (p_normalized (f_of_Z 100) (f_height_off plain_frpc) (f_height_scale plain_frpc)) in
  p_pixel (k num) (k den) o s.
Definition p_sample : prog := p_plain (f_samp_num plain_frpc) (f_samp_den plain_frpc) (f_samp_off plain_frpc) (f_samp_scale plain_frpc).
Definition p_line : prog := p_plain (f_line_num plain_frpc) (f_line_den plain_frpc) (f_line_off plain_frpc) (f_line_scale plain_frpc).
Lemma degrees_radians a : degrees (radians a) = a.
Proof. unfold degrees, radians. field. apply PI_neq0. Qed.
Lemma plain_polynomials : numerator plain_num /\ numerator (f_samp_num demo_frpc) /\ denominator demo_den.
Proof.
  split; [|split; [apply demo_ordinary|apply demo_ordinary]]. unfold plain_num.
  split; [reflexivity|]. split; [see; cbn [app repeat]; repeat (apply Forall_cons; [bits|]); apply Forall_nil|].
  cbn [app repeat total fold_right]. see. rewrite !abs_value. unfold f_zero. rewrite !abs_zero. powers. lra.
Qed.

Lemma formula_sample : formula p_sample = rpc_sample (real_rpc plain_frpc) (value plain_lon) (value plain_lat) (value (f_of_Z 100)).
Proof. unfold p_sample, p_plain, p_pixel. cbn [formula]. rewrite !formula_rpc. reflexivity. Qed.
Lemma formula_line : formula p_line = rpc_line (real_rpc plain_frpc) (value plain_lon) (value plain_lat) (value (f_of_Z 100)).
Proof. unfold p_line, p_plain, p_pixel. cbn [formula]. rewrite !formula_rpc. reflexivity. Qed.

Example C89_rpc_case : exists i,
  long_scale (real_rpc plain_frpc) <> 0 /\ lat_scale (real_rpc plain_frpc) <> 0 /\ height_scale (real_rpc plain_frpc) <> 0 /\
  rpc_world_to_image (real_rpc plain_frpc) plain_point = Ok i /\
  runs (rpc_sample (real_rpc plain_frpc) (degrees (longitude plain_point)) (degrees (latitude plain_point)) (elevation plain_point)) (outcome p_sample) /\
  runs (rpc_line (real_rpc plain_frpc) (degrees (longitude plain_point)) (degrees (latitude plain_point)) (elevation plain_point)) (outcome p_line) /\
  outcome p_sample = S754_finite false 7717770139667608 (-40) /\ outcome p_line = S754_finite false 5340150049272990 (-41) /\
  Rabs (value (outcome p_sample) - ix i) <= / 1000000 /\ Rabs (value (outcome p_line) - iy i) <= / 1000000.
Proof.
  destruct plain_polynomials as (N1 & N2 & D). set (m := real_rpc plain_frpc).
  assert (Rs : runs (rpc_sample m (degrees (longitude plain_point)) (degrees (latitude plain_point)) (elevation plain_point)) (outcome p_sample)).
  { unfold plain_point. cbn [longitude latitude elevation]. rewrite !degrees_radians. unfold m. rewrite <- formula_sample. apply runs_well_ok. vm_compute. reflexivity. }
  assert (Rl : runs (rpc_line m (degrees (longitude plain_point)) (degrees (latitude plain_point)) (elevation plain_point)) (outcome p_line)).
  { unfold plain_point. cbn [longitude latitude elevation]. rewrite !degrees_radians. unfold m. rewrite <- formula_line. apply runs_well_ok. vm_compute. reflexivity. }
  assert (Z : long_scale m <> 0 /\ lat_scale m <> 0 /\ height_scale m <> 0).
  { unfold m. cbn [plain_frpc real_rpc long_scale lat_scale height_scale f_long_scale f_lat_scale f_height_scale]. see. rewrite !value_sign, !pw_neg. cbn [sign]. powers. lra. }
  destruct Z as (Z1 & Z2 & Z3).
  assert (C : Rabs ((value plain_lon - long_off m) / long_scale m) <= 1 /\ Rabs ((value plain_lat - lat_off m) / lat_scale m) <= 1 /\ Rabs ((value (f_of_Z 100) - height_off m) / height_scale m) <= 1).
  { unfold m, plain_lon, plain_lat. cbn [plain_frpc real_rpc long_off lat_off height_off long_scale lat_scale height_scale f_long_off f_lat_off f_height_off f_long_scale f_lat_scale f_height_scale].
    see. rewrite !value_sign, !pw_neg. cbn [sign]. powers. repeat split; apply Rabs_le; lra. }
  destruct C as (C1 & C2 & C3).
  assert (K : exists i, rpc_world_to_image m plain_point = Ok i).
  { unfold rpc_world_to_image.
    repeat match goal with |- context [rpc_evaluate ?c ?l ?p ?h] => let r := fresh "r" in let E := fresh "E" in destruct (evaluate_some c l p h) as (r & E); [vm_compute; lia|]; rewrite E; clear E; cbn [bind] end.
    eexists. reflexivity. }
  destruct K as (i & Ei). exists i. do 6 (split; [assumption|]). split; [vm_compute; reflexivity|]. split; [vm_compute; reflexivity|].
  destruct (C89_rpc m plain_point i _ _ Z1 Z2 Z3 Ei Rs Rl) as [Ps Pl]. unfold plain_point in Ps, Pl. cbn [longitude latitude elevation] in Ps, Pl. rewrite !degrees_radians in Ps, Pl.
  split; [apply Ps|apply Pl]; apply tame_ordinary; try assumption; unfold m; cbn [plain_frpc real_rpc samp_scale samp_off line_scale line_off f_samp_scale f_samp_off f_line_scale f_line_off]; see; rewrite !abs_value; powers; lra.
Qed.

(** ** RSM *)
Definition p_rsm_term (cs : list spec_float) (x y z : prog) (k j i : nat) (st : prog * nat) : prog * nat :=
  (PAdd (fst st) (PMul (PMul (PMul (PNum (nth (snd st) cs f_zero)) (PPow x i)) (PPow y j)) (PPow z k)), (snd st + 1)%nat).
Definition p_rsm (mx my mz : nat) (cs : list spec_float) (x y z : prog) : prog :=
  fst (fold_left (fun st k =>
         fold_left (fun st j =>
           fold_left (fun st i => p_rsm_term cs x y z k j i st) (seq 0 (mx + 1)) st)
         (seq 0 (my + 1)) st)
       (seq 0 (mz + 1)) (PNum f_zero, 0%nat)).
(** Coefficients of 1, x, x^2, y, x y, x^2 y, and the same times z. *)
Definition rsm_num_cs : list spec_float := [f_ratio 1 100; f_ratio 9 10; f_ratio 1 50; f_ratio (-1) 20; f_ratio 1 70; f_zero; f_ratio 1 30; f_zero; f_zero; f_ratio 1 900; f_zero; f_ratio 1 800].
Definition rsm_den_cs : list spec_float := [f_of_Z 1; f_ratio 1 300].
Definition real_poly (mx my mz : nat) (cs : list spec_float) : Poly := mkPoly mx my mz (map value cs).
Definition plain_rsm (domain : GroundDomain) : RsmPoly :=
  mkRsmPoly domain (value (f_of_Z 4000)) (value (f_of_Z 5000)) (value (f_ratio 12 10)) (value (f_ratio 7 10)) (value (f_of_Z 50))
    (value (f_of_Z 4000)) (value (f_of_Z 5000)) (value (f_ratio 1 100)) (value (f_ratio 1 90)) (value (f_of_Z 500))
    (real_poly 2 1 1 rsm_num_cs) (real_poly 1 0 0 rsm_den_cs) (real_poly 2 1 1 (rev rsm_num_cs)) (real_poly 1 0 0 rsm_den_cs).
Definition plain_place : Vec := mkVec (value (f_ratio 1205 1000)) (value (f_ratio 705 1000)) (value (f_of_Z 100)).
Definition p_place (k : prog -> prog -> prog -> prog) : prog :=
  k (p_normalized (f_ratio 1205 1000) (f_ratio 12 10) (f_ratio 1 100)) (p_normalized (f_ratio 705 1000) (f_ratio 7 10) (f_ratio 1 90)) (p_normalized (f_of_Z 100) (f_of_Z 50) (f_of_Z 500)).
Definition p_column : prog := p_pixel (p_place (p_rsm 2 1 1 (rev rsm_num_cs))) (p_place (p_rsm 1 0 0 rsm_den_cs)) (f_of_Z 5000) (f_of_Z 5000).
Definition p_row : prog := p_pixel (p_place (p_rsm 2 1 1 rsm_num_cs)) (p_place (p_rsm 1 0 0 rsm_den_cs)) (f_of_Z 4000) (f_of_Z 4000).
Lemma formula_column d : formula p_column = rsm_column (plain_rsm d) plain_place.
Proof. reflexivity. Qed.
Lemma formula_row d : formula p_row = rsm_row (plain_rsm d) plain_place.
Proof. reflexivity. Qed.
Lemma term_le c x y z i j k : 0 <= c -> 0 <= x <= 1 -> 0 <= y <= 1 -> 0 <= z <= 1 -> 0 <= c * x ^ i * y ^ j * z ^ k <= c.
Proof.
  intros C X Y Z. assert (P : forall u n, 0 <= u <= 1 -> 0 <= u ^ n <= 1).
  { intros u n U. split; [apply pow_le; lra|]. rewrite <- (pow1 n). apply pow_incr. exact U. }
  pose proof (P x i X). pose proof (P y j Y). pose proof (P z k Z). assert (0 <= c * x ^ i <= c) by nra. assert (0 <= c * x ^ i * y ^ j <= c) by nra. nra.
Qed.
Example C89_rsm_case : forall d,
  x_scale (plain_rsm d) <> 0 /\ y_scale (plain_rsm d) <> 0 /\ z_scale (plain_rsm d) <> 0 /\
  runs (rsm_column (plain_rsm d) plain_place) (outcome p_column) /\ runs (rsm_row (plain_rsm d) plain_place) (outcome p_row) /\
  outcome p_column = S754_finite false 5640281865675826 (-40) /\ outcome p_row = S754_finite false 6369974029366832 (-40) /\
  Rabs (value (outcome p_column) - ix (ground_domain_to_image (plain_rsm d) plain_place)) <= / 1000000 /\
  Rabs (value (outcome p_row) - iy (ground_domain_to_image (plain_rsm d) plain_place)) <= / 1000000.
Proof.
  intros d. set (m := plain_rsm d).
  assert (Rc : runs (rsm_column m plain_place) (outcome p_column)) by (unfold m; rewrite <- formula_column; apply runs_well_ok; vm_compute; reflexivity).
  assert (Rr : runs (rsm_row m plain_place) (outcome p_row)) by (unfold m; rewrite <- formula_row; apply runs_well_ok; vm_compute; reflexivity).
  assert (Z : x_scale m <> 0 /\ y_scale m <> 0 /\ z_scale m <> 0).
  { unfold m. cbn [plain_rsm x_scale y_scale z_scale]. see. rewrite !value_sign, !pw_neg. cbn [sign]. powers. lra. }
  destruct Z as (Z1 & Z2 & Z3).
  assert (C : Rabs (vx (normalize_world_coordinate m plain_place)) <= 1 /\ Rabs (vy (normalize_world_coordinate m plain_place)) <= 1 /\ Rabs (vz (normalize_world_coordinate m plain_place)) <= 1).
  { unfold m, normalize_world_coordinate, normalize, plain_place. cbn [plain_rsm vx vy vz x_off y_off z_off x_scale y_scale z_scale].
    see. rewrite !value_sign, !pw_neg. cbn [sign]. powers. repeat split; apply Rabs_le; lra. }
  assert (Q : forall p, In p [column_num m; column_den m; row_num m; row_den m] -> (max_x p <= 5 /\ max_y p <= 5 /\ max_z p <= 5)%nat).
  { intros p I. cbn [In] in I. decompose [or] I; try contradiction; subst p; unfold m; cbn [plain_rsm column_num column_den row_num row_den real_poly max_x max_y max_z]; lia. }
  destruct (C89_rsm m plain_place _ _ Z1 Z2 Z3 Q Rc Rr) as [Pc Pr].
  destruct C as (C1 & C2 & C3). set (n := normalize_world_coordinate m plain_place) in *. clearbody n.
  assert (T : forall cs, cs = rsm_num_cs \/ cs = rev rsm_num_cs -> forall sc off, Rabs sc <= 100000 -> Rabs off <= 100000 -> rsm_tame (real_poly 2 1 1 cs) (real_poly 1 0 0 rsm_den_cs) n sc off).
  { intros cs Hc sc off Hs Ho. pose proof (Rabs_pos (vx n)). pose proof (Rabs_pos (vy n)). pose proof (Rabs_pos (vz n)).
    assert (TL : forall c i j k, 0 <= Rabs (value c) * Rabs (vx n) ^ i * Rabs (vy n) ^ j * Rabs (vz n) ^ k <= Rabs (value c)) by (intros; apply term_le; [apply Rabs_pos|lra..]).
    split; [|split; [|split; [|split; assumption]]].
    - apply Rle_trans with (total cs).
      + destruct Hc as [-> | ->]; unfold poly_evaluate, absolute, real_poly, vabs; cbn [rsm_num_cs rev app max_x max_y max_z coefs map seq fold_left Nat.add fst snd term nth vx vy vz total fold_right];
          match goal with |- context [Rabs (value ?a) * _ * _ * _] => idtac end;
          repeat match goal with |- context [Rabs (value ?c) * Rabs (vx n) ^ ?i * Rabs (vy n) ^ ?j * Rabs (vz n) ^ ?k] => pose proof (TL c i j k); generalize dependent (Rabs (value c) * Rabs (vx n) ^ i * Rabs (vy n) ^ j * Rabs (vz n) ^ k); intros end; lra.
      + destruct Hc as [-> | ->]; cbn [rsm_num_cs rev app total fold_right]; see; rewrite !abs_value; unfold f_zero; rewrite !abs_zero; powers; lra.
    - unfold poly_evaluate, absolute, real_poly, vabs; cbn [rsm_den_cs rev app max_x max_y max_z coefs map seq fold_left Nat.add fst snd term nth vx vy vz].
      pose proof (TL (f_of_Z 1) 0 0 0)%nat. pose proof (TL (f_ratio 1 300) 1 0 0)%nat. assert (Rabs (value (f_of_Z 1)) <= 1 /\ Rabs (value (f_ratio 1 300)) <= 1) by (see; rewrite !abs_value; powers; lra). lra.
    - unfold poly_evaluate, real_poly; cbn [rsm_den_cs rev app max_x max_y max_z coefs map seq fold_left Nat.add fst snd term nth vx vy vz pow].
      rewrite (proj2 one_float). assert (V : 0 <= value (f_ratio 1 300) <= 1 / 4) by (see; rewrite value_sign, pw_neg; cbn [sign]; powers; lra).
      assert (X : -1 <= vx n <= 1) by (revert C1; unfold Rabs; destruct Rcase_abs; lra). rewrite Rabs_pos_eq; nra. }
  do 5 (split; [assumption|]). split; [vm_compute; reflexivity|]. split; [vm_compute; reflexivity|].
  split; [apply Pc|apply Pr]; apply T; auto; unfold m; cbn [plain_rsm column_scale column_off row_scale row_off]; see; rewrite !abs_value; powers; lra.
Qed.

(** ** Affine transforms: longitude -77 + x / 1000 + y / 7, latitude 38 - y / 3000 - x / 9. *)
Definition plain_matrix : Mat :=
  mkMat (mkVec (value (f_ratio 1 1000)) (value (f_ratio 1 7)) (value (f_of_Z (-77)))) (mkVec (value (f_ratio (-1) 9)) (value (f_ratio (-1) 3000)) (value (f_of_Z 38))) (mkVec 0 0 1).
Definition p_affine (a b c x y : spec_float) : prog := PAdd (PAdd (PMul (PNum a) (PNum x)) (PMul (PNum b) (PNum y))) (PMul (PNum c) (PNum (f_of_Z 1))).
Definition p_east : prog := p_affine (f_ratio 1 1000) (f_ratio 1 7) (f_of_Z (-77)) (f_ratio 201 2) (f_ratio 777 10).
Definition p_north : prog := p_affine (f_ratio (-1) 9) (f_ratio (-1) 3000) (f_of_Z 38) (f_ratio 201 2) (f_ratio 777 10).
Example C89_affine_case :
  let x := value (f_ratio 201 2) in let y := value (f_ratio 777 10) in
  runs (affine_formula (row1 plain_matrix) x y) (outcome p_east) /\ runs (affine_formula (row2 plain_matrix) x y) (outcome p_north) /\
  outcome p_east = S754_finite true 4630228182518202 (-46) /\ outcome p_north = S754_finite false 7545621673172464 (-48) /\
  Rabs (value (outcome p_east) - vx (mulv plain_matrix (mkVec x y 1))) <= growth binary64 3 * 100 /\
  Rabs (value (outcome p_north) - vy (mulv plain_matrix (mkVec x y 1))) <= growth binary64 3 * 100.
Proof.
  intros x y.
  assert (R1 : runs (affine_formula (row1 plain_matrix) x y) (outcome p_east)).
  { replace (affine_formula (row1 plain_matrix) x y) with (formula p_east); [apply runs_well_ok; vm_compute; reflexivity|]. unfold p_east, p_affine. cbn [formula]. rewrite (proj2 one_float). reflexivity. }
  assert (R2 : runs (affine_formula (row2 plain_matrix) x y) (outcome p_north)).
  { replace (affine_formula (row2 plain_matrix) x y) with (formula p_north); [apply runs_well_ok; vm_compute; reflexivity|]. unfold p_north, p_affine. cbn [formula]. rewrite (proj2 one_float). reflexivity. }
  split; [exact R1|]. split; [exact R2|]. split; [vm_compute; reflexivity|]. split; [vm_compute; reflexivity|].
  destruct (C89_affine plain_matrix x y _ _ R1 R2) as [E1 E2]. cbn zeta in E1, E2.
  assert (G : 0 <= growth binary64 3) by (apply growth_nonneg, Rlt_le, Rinv_0_lt_compat, pow_lt; lra).
  split; [eapply Rle_trans; [exact E1|]|eapply Rle_trans; [exact E2|]]; apply Rmult_le_compat_l; try exact G; unfold x, y, plain_matrix; cbn [row1 row2 vx vy vz];
    rewrite !Rabs_mult; see; rewrite !abs_value; powers; lra.
Qed.
