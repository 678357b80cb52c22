(** C110: the section of an RSM sectioned polynomial model in binary64 arithmetic, bit by bit. *)
Require Import ZArith Reals List Lra Lia SpecFloat.
Require Import Verif.Base Verif.BaseFacts Verif.Vec Verif.RsmModel Verif.PolySpec Verif.RoundModel Verif.RoundSpec Verif.RoundProofs Verif.CoordFloatModel Verif.FloatModel Verif.FloatSpec Verif.FloatProofs Verif.FloatNearest
  Verif.TileFloatProofs Verif.DmsFloatProofs Verif.RpcFloatModel Verif.RpcFloatProofs Verif.RsmFloatModel Verif.SectionFloatModel Verif.SectionFloatProofs.
Import ListNotations.
Local Open Scope R_scope.
Local Notation pw := (powerRZ 2).

(** Locations and sizes far beyond any image. *)
Definition pixel_range (x : R) : Prop := Rabs x <= IZR (2 ^ 40).
Definition range_whole (z : Z) : Prop := (Z.abs z <= 2 ^ 40)%Z.
Definition usable_size (x : R) : Prop := / IZR (2 ^ 40) <= x <= IZR (2 ^ 40).

Lemma operations v a size : is_binary64 v -> is_binary64 size -> pixel_range (value v) -> range_whole a -> usable_size (value size) ->
  nearest (value v - IZR a) (f_sub v (f_of_Z a)) /\ rounded (value v - IZR a) (value (f_sub v (f_of_Z a))) /\
  nearest (value (f_sub v (f_of_Z a)) / value size) (f_div (f_sub v (f_of_Z a)) size) /\
  forall n, f_section v a size n = Ok (clamp_index (Rfloor (value (f_div (f_sub v (f_of_Z a)) size))) n).
Proof.
  intros Bv Bs Rv Ra [S0 S1]. destruct (of_Z_exact a) as [Ba Va]; [unfold range_whole in Ra; lia|].
  assert (Ra' : Rabs (IZR a) <= IZR (2 ^ 40)) by (rewrite <- abs_IZR; apply IZR_le; exact Ra).
  unfold pixel_range in Rv. assert (D : Rabs (value v - IZR a) <= IZR (2 ^ 41)).
  { unfold Rminus. apply Rle_trans with (1 := Rabs_triang _ _). rewrite Rabs_Ropp. change (IZR (2 ^ 41)) with (2 * 1099511627776). change (IZR (2 ^ 40)) with 1099511627776 in *. lra. }
  assert (F : finite (f_sub v (f_of_Z a))).
  { apply sub_finite; [apply Bv|apply Ba|]. rewrite Va. apply Rle_lt_trans with (1 := D). rewrite <- pw_IZR by lia. apply pw_lt. lia. }
  assert (N : nearest (value v - IZR a) (f_sub v (f_of_Z a))). { rewrite <- Va. now apply sub_nearest. }
  assert (P : rounded (value v - IZR a) (value (f_sub v (f_of_Z a)))). { rewrite <- Va. apply sub_rounded; [now apply binary64_proper|now apply binary64_proper|exact F]. }
  assert (S : 0 < value size). { apply Rlt_le_trans with (2 := S0). apply Rinv_0_lt_compat. apply IZR_lt. lia. }
  assert (E : Rabs (value (f_sub v (f_of_Z a))) <= IZR (2 ^ 41)).
  { destruct (representable (2 ^ 41) 0) as (g & Bg & Vg); [lia|lia|]. destruct (representable (- 2 ^ 41) 0) as (g' & Bg' & Vg'); [lia|lia|].
    cbn [powerRZ] in Vg, Vg'. rewrite Rmult_1_r in Vg, Vg'. rewrite opp_IZR in Vg'. apply Rabs_le. revert D. unfold Rabs at 1. destruct (Rcase_abs _); intros D.
    - split; [rewrite <- Vg'; apply (nearest_ge _ _ g' N Bg'); rewrite Vg'; lra|rewrite <- Vg; apply (nearest_le _ _ g N Bg); rewrite Vg; lra].
    - split; [rewrite <- Vg'; apply (nearest_ge _ _ g' N Bg'); rewrite Vg'; lra|rewrite <- Vg; apply (nearest_le _ _ g N Bg); rewrite Vg; lra]. }
  assert (F' : finite (f_div (f_sub v (f_of_Z a)) size)).
  { apply div_finite; [exact F|apply Bs|lra|]. unfold Rdiv. rewrite Rabs_mult, (Rabs_pos_eq (/ _)) by (apply Rlt_le, Rinv_0_lt_compat; exact S).
    assert (I : / value size <= IZR (2 ^ 40)).
    { rewrite <- (Rinv_inv (IZR (2 ^ 40))). apply Rinv_le_contravar; [apply Rinv_0_lt_compat, IZR_lt; lia|exact S0]. }
    apply Rle_lt_trans with (IZR (2 ^ 41) * IZR (2 ^ 40)); [apply Rmult_le_compat; [apply Rabs_pos|apply Rlt_le, Rinv_0_lt_compat; exact S|exact E|exact I]|].
    rewrite <- !pw_IZR, <- pw_add by lia. apply pw_lt. lia. }
  split; [exact N|]. split; [exact P|]. split; [apply div_nearest; [apply N|exact Bs|lra|exact F']|].
  intros n. unfold f_section. rewrite (py_floor_finite _ F'). reflexivity.
Qed.

(** ** Sections of a whole number of pixels *)
Lemma whole_axis v a size s n : is_binary64 v -> is_binary64 size -> pixel_range (value v) -> (0 <= a <= 2 ^ 40)%Z ->
  value size = IZR s -> (1 <= s <= 2 ^ 40)%Z -> (1 <= n)%Z ->
  exists r, f_section v a size n = Ok r /\ section_of (IZR a) (value size) n (value v) r.
Proof.
  intros Bv Bs Rv Ra Vs S N. assert (S1 : 1 <= IZR s) by (apply IZR_le; lia).
  destruct (operations v a size Bv Bs Rv) as (Nd & _ & Nq & E).
  { unfold range_whole. lia. } { rewrite Vs. split; [|apply IZR_le; lia]. apply Rle_trans with 1; [|exact S1]. rewrite <- Rinv_1. apply Rinv_le_contravar; [lra|apply IZR_le; lia]. }
  rewrite Vs in *. rewrite E. eexists. split; [reflexivity|]. destruct (Rle_lt_dec (IZR a) (value v)) as [L|L].
  - assert (U : value v <= IZR (2 ^ 40)). { apply Rle_trans with (2 := Rv). apply Rle_abs. }
    destruct (sub_whole v a Bv) as (g & Bg & Vg); [lia|exact L|exact U|].
    pose proof (nearest_exact _ _ g Nd Bg Vg) as Ed.
    assert (A0 : 0 <= IZR a) by (apply IZR_le; lia).
    rewrite (whole_quotient _ s _ (proj1 Nd)); [|rewrite Ed; lra|rewrite Ed; apply Rle_trans with (IZR (2 ^ 40)); [lra|apply IZR_le; lia]|exact S|exact Nq].
    rewrite Ed. apply clamped_section; [lra|exact N].
  - assert (Z0 : is_binary64 (S754_zero false)) by (split; [exact I|reflexivity]).
    assert (D : value (f_sub v (f_of_Z a)) <= 0) by (apply (nearest_le _ _ (S754_zero false) Nd Z0); cbn [value]; lra).
    assert (Q : value (f_div (f_sub v (f_of_Z a)) size) <= 0).
    { apply (nearest_le _ _ (S754_zero false) Nq Z0). cbn [value]. unfold Rdiv. assert (0 < / IZR s) by (apply Rinv_0_lt_compat; lra). nra. }
    destruct (Rfloor_spec (value (f_div (f_sub v (f_of_Z a)) size))) as [F _]. set (k := Rfloor _) in *.
    assert (K : (k <= 0)%Z) by (apply le_IZR; lra). replace (clamp_index k n) with 0%Z.
    + split; [lia|]. split; [now left|right]. change (0 + 1)%Z with 1%Z. lra.
    + unfold clamp_index. destruct (Z.ltb_spec k 0); [reflexivity|]. destruct (Z.geb_spec k n); lia.
Qed.

Theorem C110_whole_sections :
  forall (m : FSections) (x y : spec_float) (row_size column_size : Z),
  is_binary64 x -> is_binary64 y -> pixel_range (value x) -> pixel_range (value y) ->
  is_binary64 (fs_row_size m) -> is_binary64 (fs_column_size m) ->
  value (fs_row_size m) = IZR row_size -> value (fs_column_size m) = IZR column_size ->
  (1 <= row_size <= 2 ^ 40)%Z -> (1 <= column_size <= 2 ^ 40)%Z ->
  (0 <= fs_min_row m <= 2 ^ 40)%Z -> (0 <= fs_min_column m <= 2 ^ 40)%Z -> (1 <= fs_rows m)%Z -> (1 <= fs_columns m)%Z ->
  exists c r, f_get_section_index m x y = Ok (c, r) /\
    section_of (IZR (fs_min_column m)) (IZR column_size) (fs_columns m) (value x) c /\
    section_of (IZR (fs_min_row m)) (IZR row_size) (fs_rows m) (value y) r.
Proof.
  intros m x y rs cs Bx By Rx Ry Br Bc Vr Vc Hr Hc Mr Mc Nr Nc.
  destruct (whole_axis y _ _ rs _ By Br Ry Mr Vr Hr Nr) as (r & Er & Sr). destruct (whole_axis x _ _ cs _ Bx Bc Rx Mc Vc Hc Nc) as (c & Ec & Sc).
  rewrite Vr in Sr. rewrite Vc in Sc. exists c, r. split; [|now split]. unfold f_get_section_index. rewrite Er. cbn [bind]. rewrite Ec. reflexivity.
Qed.
Print Assumptions C110_whole_sections.

(** ** From a ground location to its section *)
(** A quadratic polynomial in three variables, and the sum of the absolute values of its terms. *)
Definition quadratic (a : nat -> R) (x y z : R) : R :=
  a 0%nat + (a 1%nat * x + a 2%nat * y + a 3%nat * z) +
  (a 4%nat * x ^ 2 + a 5%nat * x * y + a 6%nat * x * z + a 7%nat * y ^ 2 + a 8%nat * y * z + a 9%nat * z ^ 2).
Definition coefficient (c : list spec_float) (i : nat) : R := value (nth i c (S754_zero false)).
Definition exact_location (c : list spec_float) (v : FVec) : R := quadratic (coefficient c) (value (fvx v)) (value (fvy v)) (value (fvz v)).
Definition absolute_terms (c : list spec_float) (v : FVec) : R :=
  quadratic (fun i => Rabs (coefficient c i)) (Rabs (value (fvx v))) (Rabs (value (fvy v))) (Rabs (value (fvz v))).
Definition within (limit : Z) (f : spec_float) : Prop := is_binary64 f /\ Rabs (value f) <= IZR limit.

Theorem C110_approximate_location :
  forall (c : list spec_float) (v : FVec),
  Forall (within (2 ^ 40)) c -> within (2 ^ 24) (fvx v) -> within (2 ^ 24) (fvy v) -> within (2 ^ 24) (fvz v) ->
  is_binary64 (f_low_order_evaluate c v) /\
  Rabs (value (f_low_order_evaluate c v) - exact_location c v) <= pw (-49) * absolute_terms c v + pw (-800).
Proof.
  intros c v C X Y Z. destruct (low_order_error c v C) as [B E].
  { intros f [<-|[<-|[<-|[]]]]; assumption. }
  split; [exact B|]. replace (exact_location c v) with (low_order_evaluate (map value c) (mkVec (value (fvx v)) (value (fvy v)) (value (fvz v)))).
  - replace (absolute_terms c v) with (low_order_evaluate (map (fun f => Rabs (value f)) c) (mkVec (Rabs (value (fvx v))) (Rabs (value (fvy v))) (Rabs (value (fvz v))))); [exact E|].
    unfold low_order_evaluate, absolute_terms, quadratic, coefficient. rewrite !nth_abs. cbn [vx vy vz]. unfold f_zero. ring.
  - unfold low_order_evaluate, exact_location, quadratic, coefficient. rewrite !nth_value. cbn [vx vy vz]. unfold f_zero. ring.
Qed.
Print Assumptions C110_approximate_location.

Lemma exact_below_absolute c v : Rabs (exact_location c v) <= absolute_terms c v.
Proof.
  unfold exact_location, absolute_terms, quadratic. generalize (coefficient c). intros a. set (x := value (fvx v)). set (y := value (fvy v)). set (z := value (fvz v)).
  rewrite !RPow_abs. repeat (eapply Rle_trans; [apply Rabs_triang|]; apply Rplus_le_compat); rewrite ?Rabs_mult; apply Rle_refl || idtac.
Qed.

Theorem C110_world_section :
  forall (m : FSections) (row_polynomial column_polynomial : list spec_float) (v : FVec) (row_size column_size : Z),
  Forall (within (2 ^ 40)) row_polynomial -> Forall (within (2 ^ 40)) column_polynomial ->
  within (2 ^ 24) (fvx v) -> within (2 ^ 24) (fvy v) -> within (2 ^ 24) (fvz v) ->
  absolute_terms row_polynomial v <= IZR (2 ^ 39) -> absolute_terms column_polynomial v <= IZR (2 ^ 39) ->
  is_binary64 (fs_row_size m) -> is_binary64 (fs_column_size m) ->
  value (fs_row_size m) = IZR row_size -> value (fs_column_size m) = IZR column_size ->
  (1 <= row_size <= 2 ^ 40)%Z -> (1 <= column_size <= 2 ^ 40)%Z ->
  (0 <= fs_min_row m <= 2 ^ 40)%Z -> (0 <= fs_min_column m <= 2 ^ 40)%Z -> (1 <= fs_rows m)%Z -> (1 <= fs_columns m)%Z ->
  exists c r x y, f_world_section m row_polynomial column_polynomial v = Ok (c, r) /\
    Rabs (x - exact_location column_polynomial v) <= pw (-49) * absolute_terms column_polynomial v + pw (-800) /\
    Rabs (y - exact_location row_polynomial v) <= pw (-49) * absolute_terms row_polynomial v + pw (-800) /\
    section_of (IZR (fs_min_column m)) (IZR column_size) (fs_columns m) x c /\
    section_of (IZR (fs_min_row m)) (IZR row_size) (fs_rows m) y r.
Proof.
  intros m rp cp v rs cs Cr Cc X Y Z Ar Ac Br Bc Vr Vc Hr Hc Mr Mc Nr Nc.
  destruct (C110_approximate_location rp v Cr X Y Z) as [By Ey]. destruct (C110_approximate_location cp v Cc X Y Z) as [Bx Ex].
  assert (P : forall p, absolute_terms p v <= IZR (2 ^ 39) -> Rabs (value (f_low_order_evaluate p v) - exact_location p v) <= pw (-49) * absolute_terms p v + pw (-800) ->
    pixel_range (value (f_low_order_evaluate p v))).
  { intros p A E. unfold pixel_range. generalize dependent (value (f_low_order_evaluate p v)). intros f E. pose proof (exact_below_absolute p v) as L.
    assert (P1 : pw (-49) <= / 4) by (apply Rle_trans with (pw (-2)); [apply pw_le; lia|rewrite pw_neg; cbn; lra]).
    assert (P2 : pw (-800) <= / 4) by (apply Rle_trans with (pw (-2)); [apply pw_le; lia|rewrite pw_neg; cbn; lra]).
    pose proof (Rabs_pos (exact_location p v)). pose proof (pw_pos (-49)).
    replace f with ((f - exact_location p v) + exact_location p v) by ring.
    apply Rle_trans with (1 := Rabs_triang _ _). change (2 ^ 40)%Z with 1099511627776%Z. change (2 ^ 39)%Z with 549755813888%Z in A. nra. }
  destruct (C110_whole_sections m _ _ rs cs Bx By (P _ Ac Ex) (P _ Ar Ey) Br Bc Vr Vc Hr Hc Mr Mc Nr Nc) as (c & r & E & Sc & Sr).
  exists c, r, (value (f_low_order_evaluate cp v)), (value (f_low_order_evaluate rp v)). exact (conj E (conj Ex (conj Ey (conj Sc Sr)))).
Qed.
Print Assumptions C110_world_section.

(** ** Sections of any size *)
Theorem C110_any_size :
  forall (v : spec_float) (a : Z) (size : spec_float) (n : Z),
  is_binary64 v -> is_binary64 size -> pixel_range (value v) -> range_whole a -> usable_size (value size) -> (1 <= n)%Z ->
  exists r v', f_section v a size n = Ok r /\ Rabs (v' - value v) <= Rabs (value v - IZR a) * pw (-51) /\
    section_of (IZR a) (value size) n v' r.
Proof.
  intros v a size n Bv Bs Rv Ra Us N. destruct (operations v a size Bv Bs Rv Ra Us) as (Nd & Pd & Nq & E). destruct Us as [S0 S1].
  assert (S : 0 < value size). { apply Rlt_le_trans with (2 := S0). apply Rinv_0_lt_compat. apply IZR_lt. lia. }
  set (D := f_sub v (f_of_Z a)) in *. set (Q := f_div D size) in *. set (d := value v - IZR a) in *.
  assert (P51 : pw (-51) = 4 * pw (-53)). { change (-51)%Z with (2 + -53)%Z. rewrite pw_add, (pw_IZR 2) by lia. reflexivity. }
  assert (P53 : 0 < pw (-53)) by apply pw_pos. assert (P53' : pw (-53) <= / 4) by (apply Rle_trans with (pw (-2)); [apply pw_le; lia|rewrite pw_neg; cbn; lra]).
  destruct Pd as (e1 & H1 & Ed). rewrite E. destruct (Rlt_le_dec (Rabs (value D / value size)) (/ 2)) as [C|C].
  - exists (clamp_index (Rfloor (value Q)) n), (IZR a + value D). split; [reflexivity|]. split.
    { replace (IZR a + value D - value v) with (value D - d) by (unfold d; ring). rewrite Ed. replace (d * (1 + e1) - d) with (d * e1) by ring.
      rewrite Rabs_mult. apply Rmult_le_compat_l; [apply Rabs_pos|]. lra. }
    destruct (representable 1 (-1)) as (g & Bg & Vg); [lia|lia|]. destruct (representable (-1) (-1)) as (g' & Bg' & Vg'); [lia|lia|].
    rewrite pw_neg in Vg, Vg'. change (2 ^ 1)%Z with 2%Z in *. apply Rabs_def2 in C.
    assert (L1 : - / 2 <= value Q) by (replace (- / 2) with (value g') by (rewrite Vg'; lra); apply (nearest_ge _ _ g' Nq Bg'); rewrite Vg'; lra).
    assert (L2 : value Q <= / 2) by (replace (/ 2) with (value g) by (rewrite Vg; lra); apply (nearest_le _ _ g Nq Bg); rewrite Vg; lra).
    destruct (Rfloor_spec (value Q)) as [F1 F2]. set (k := Rfloor _) in *. assert (K : (k <= 0)%Z) by (apply Z.lt_succ_r, lt_IZR; unfold Z.succ; rewrite plus_IZR; lra).
    replace (clamp_index k n) with 0%Z.
    + split; [lia|]. split; [now left|right]. change (0 + 1)%Z with 1%Z. assert (X : value D = value D / value size * value size) by (field; lra). nra.
    + unfold clamp_index. destruct (Z.ltb_spec k 0); [reflexivity|]. destruct (Z.geb_spec k n); lia.
  - assert (R2 : rounded (value D / value size) (value Q)).
    { apply div_rounded; [apply Nq|apply Nd|apply Bs|lra|]. right. apply Rle_trans with (2 := C). unfold smallest_normal. apply Rle_trans with (pw (-1)); [apply pw_le; lia|rewrite pw_neg; cbn; lra]. }
    destruct R2 as (e2 & H2 & Eq). exists (clamp_index (Rfloor (value Q)) n), (IZR a + d * ((1 + e1) * (1 + e2))). split; [reflexivity|]. split.
    + replace (IZR a + d * ((1 + e1) * (1 + e2)) - value v) with (d * (e1 + e2 + e1 * e2)) by (unfold d; ring). rewrite Rabs_mult.
      apply Rmult_le_compat_l; [apply Rabs_pos|]. rewrite P51. apply Rle_trans with (1 := Rabs_triang _ _). rewrite Rabs_mult.
      pose proof (Rabs_triang e1 e2). pose proof (Rabs_pos e1). pose proof (Rabs_pos e2). nra.
    + replace (Rfloor (value Q)) with (Rfloor ((IZR a + d * ((1 + e1) * (1 + e2)) - IZR a) / value size)); [now apply clamped_section|].
      f_equal. rewrite Eq, Ed. field. lra.
Qed.
Print Assumptions C110_any_size.

(** A location further down or right is never in an earlier section. *)
Theorem C110_monotone :
  forall (v w : spec_float) (a : Z) (size : spec_float) (n r s : Z),
  is_binary64 v -> is_binary64 w -> is_binary64 size -> pixel_range (value v) -> pixel_range (value w) -> range_whole a ->
  usable_size (value size) -> (1 <= n)%Z -> value v <= value w ->
  f_section v a size n = Ok r -> f_section w a size n = Ok s -> (r <= s)%Z.
Proof.
  intros v w a size n r s Bv Bw Bs Rv Rw Ra Us N L Er Es.
  destruct (operations v a size Bv Bs Rv Ra Us) as (Nd & _ & Nq & E). destruct (operations w a size Bw Bs Rw Ra Us) as (Nd' & _ & Nq' & E').
  rewrite E in Er. rewrite E' in Es. inversion Er. inversion Es. apply clamp_mono; [exact N|]. apply Rfloor_mono. apply (nearest_monotone _ _ _ _ Nq Nq').
  destruct Us as [S0 _]. assert (S : 0 < value size). { apply Rlt_le_trans with (2 := S0). apply Rinv_0_lt_compat. apply IZR_lt. lia. }
  apply Rmult_le_compat_r; [apply Rlt_le, Rinv_0_lt_compat; exact S|]. apply (nearest_monotone _ _ _ _ Nd Nd'). lra.
Qed.
Print Assumptions C110_monotone.

(** ** No section *)
Lemma finite_nonzero s p e : value (S754_finite s p e) <> 0.
Proof.
  rewrite value_sign. pose proof (pw_pos e). assert (0 < IZR (Zpos p)) by (apply IZR_lt; lia). assert (0 < IZR (Zpos p) * pw e) by now apply Rmult_lt_0_compat.
  destruct s; cbn [sign]; lra.
Qed.
Theorem C110_zero_size :
  forall (v : spec_float) (a : Z) (size : spec_float) (n : Z),
  is_binary64 v -> pixel_range (value v) -> range_whole a -> is_binary64 size -> value size = 0 ->
  f_section v a size n = Err (if Req_EM_T (value v) (IZR a) then ValueError else OtherError).
Proof.
  intros v a size n Bv Rv Ra Bs Z. assert (U : exists u, is_binary64 u /\ value u = 1).
  { destruct (of_Z_exact 1) as [B V]; [lia|]. now exists (f_of_Z 1). }
  destruct U as (u & Bu & Vu). destruct (operations v a u Bv Bu Rv Ra) as (Nd & (e & He & Ed) & _).
  { rewrite Vu. split; [|apply IZR_le; lia]. apply Rle_trans with (/ 1); [apply Rinv_le_contravar; [lra|apply IZR_le; lia]|lra]. }
  unfold f_section. set (D := f_sub v (f_of_Z a)) in *. destruct size as [zs| | |zs zm ze]; try (destruct Bs; contradiction).
  - assert (P : Rabs e < 1). { apply Rle_lt_trans with (1 := He). change 1 with (pw 0). apply pw_lt. lia. } apply Rabs_def2 in P.
    destruct D as [ds| | |ds dm de] eqn:HD; try (destruct Nd as [[[] _] _]).
    + cbn. destruct (Req_EM_T _ _) as [|X]; [reflexivity|]. exfalso. apply X. cbn [value] in Ed. symmetry in Ed. apply Rmult_integral in Ed. lra.
    + cbn. destruct (Req_EM_T _ _) as [X|]; [|reflexivity]. exfalso. rewrite X, Rminus_diag_eq, Rmult_0_l in Ed by reflexivity. exact (finite_nonzero _ _ _ Ed).
  - exfalso. exact (finite_nonzero _ _ _ Z).
Qed.
Print Assumptions C110_zero_size.

(** A location that is not a number has no section, and neither has one at infinity. *)
Theorem C110_not_finite :
  forall (a : Z) (size : spec_float) (n : Z), range_whole a ->
  f_section S754_nan a size n = Err ValueError /\
  forall sign, f_section (S754_infinity sign) a size n =
    Err (match size with S754_infinity _ | S754_nan => ValueError | _ => OtherError end).
Proof.
  intros a size n Ra. destruct (of_Z_exact a) as [[F _] _]; [unfold range_whole in Ra; lia|]. unfold f_section, f_sub, f_div.
  destruct (f_of_Z a); try contradiction; (split; [reflexivity|]); intros sign; destruct size; reflexivity.
Qed.
Print Assumptions C110_not_finite.

(** ** Concrete sections *)
(** The last number below 3000. *)
Definition f_below_3000 : spec_float := S754_finite false 6597069766655999 (-41).
(** 500.2 and 1500.6 *)
Definition f_size_500_2 : spec_float := S754_finite false 8799611459416883 (-44).
Definition f_row_1500_6 : spec_float := S754_finite false 6599708594562662 (-42).

(** Rows 1000 to 4999 in four sections, columns 0 to 6143 in three. *)
Definition four_by_three : FSections := mkFSections 1000 0 4 3 (f_of_Z 1000) (f_of_Z 2048).

Example C110_whole_sections_non_vacuous :
  f_get_section_index four_by_three (f_of_Z 4096) (f_of_Z 3999) = Ok (2, 2)%Z /\
  f_get_section_index four_by_three (f_of_Z 4095) (f_of_Z 4000) = Ok (1, 3)%Z /\
  f_get_section_index four_by_three (f_of_Z (-5)) (f_of_Z 90000) = Ok (0, 3)%Z /\
  is_binary64 (fs_row_size four_by_three) /\ value (fs_row_size four_by_three) = 1000 /\ value (fs_column_size four_by_three) = 2048.
Proof.
  split; [vm_compute; reflexivity|]. split; [vm_compute; reflexivity|]. split; [vm_compute; reflexivity|].
  destruct (of_Z_exact 1000) as [B V]; [lia|]. destruct (of_Z_exact 2048) as [B' V']; [lia|]. split; [exact B|]. split; [exact V|exact V'].
Qed.

(** The last location of the third section of 1000 rows: the quotient does not round to 3. *)
Example C110_last_location :
  f_section f_below_3000 0 (f_of_Z 1000) 4 = Ok 2%Z /\ is_binary64 f_below_3000 /\ 2999.999 < value f_below_3000 < 3000.
Proof.
  split; [vm_compute; reflexivity|]. split; [split; [exact I|vm_compute; reflexivity]|].
  unfold f_below_3000, value. rewrite pw_neg. change (2 ^ 41)%Z with 2199023255552%Z. lra.
Qed.

(** With a size that is not whole a location can get the next section: rows in sections of 500.2,
    row 1500.6 is before the end of the third section, but is in the fourth for the code. *)
Theorem C110_fractional_sections_refuted :
  exists v size n r, is_binary64 v /\ is_binary64 size /\ 500 <= value size <= 501 /\ 0 <= value v <= IZR n * value size /\
    f_section v 0 size n = Ok r /\ ~ section_of 0 (value size) n (value v) r /\ section_of 0 (value size) n (value v) (r - 1).
Proof.
  exists f_row_1500_6, f_size_500_2, 8%Z, 3%Z.
  assert (V : value f_row_1500_6 = 6599708594562662 * / 4398046511104) by (unfold f_row_1500_6, value; rewrite pw_neg; change (2 ^ 42)%Z with 4398046511104%Z; ring).
  assert (S : value f_size_500_2 = 8799611459416883 * / 17592186044416) by (unfold f_size_500_2, value; rewrite pw_neg; change (2 ^ 44)%Z with 17592186044416%Z; ring).
  split; [split; [exact I|vm_compute; reflexivity]|]. split; [split; [exact I|vm_compute; reflexivity]|]. rewrite V, S.
  split; [lra|]. split; [lra|]. split; [vm_compute; reflexivity|]. unfold section_of. split.
  - intros (_ & [X|X] & _); [discriminate X|]. lra.
  - change (3 - 1)%Z with 2%Z. change (2 + 1)%Z with 3%Z. split; [lia|]. split; right; lra.
Qed.
Print Assumptions C110_fractional_sections_refuted.

(** The same sections half a row away, in both directions. *)
Example C110_any_size_non_vacuous :
  usable_size (value f_size_500_2) /\ pixel_range (value f_row_1500_6) /\
  f_section (f_of_Z 1500) 0 f_size_500_2 8 = Ok 2%Z /\ f_section (f_of_Z 1501) 0 f_size_500_2 8 = Ok 3%Z /\
  f_section (f_of_Z (-300)) 0 f_size_500_2 8 = Ok 0%Z /\ f_section (f_of_Z 100000) 0 f_size_500_2 8 = Ok 7%Z.
Proof.
  assert (V : value f_row_1500_6 = 6599708594562662 * / 4398046511104) by (unfold f_row_1500_6, value; rewrite pw_neg; change (2 ^ 42)%Z with 4398046511104%Z; ring).
  assert (S : value f_size_500_2 = 8799611459416883 * / 17592186044416) by (unfold f_size_500_2, value; rewrite pw_neg; change (2 ^ 44)%Z with 17592186044416%Z; ring).
  unfold usable_size, pixel_range. rewrite V, S. change (2 ^ 40)%Z with 1099511627776%Z. split; [lra|]. split; [rewrite Rabs_pos_eq by lra; lra|].
  repeat (split; [vm_compute; reflexivity|]). vm_compute; reflexivity.
Qed.

(** An image without a section size: the first row raises one error, every other row another one. *)
Example C110_zero_size_cases :
  f_section (f_of_Z 7) 7 (S754_zero false) 1 = Err ValueError /\ f_section (f_of_Z 8) 7 (S754_zero false) 1 = Err OtherError /\
  f_section S754_nan 7 (f_of_Z 10) 1 = Err ValueError /\ f_section (S754_infinity true) 7 (f_of_Z 10) 1 = Err OtherError.
Proof. vm_compute. repeat split. Qed.

(** A ground location in radians and metres: longitude 0.1, latitude 0.5, height 120. *)
Definition tenth : spec_float := S754_finite false 7205759403792794 (-56).
Definition ground_case : FVec := mkFVec tenth (S754_finite false 4503599627370496 (-53)) (f_of_Z 120).
Definition row_case : list spec_float := List.map f_of_Z [1200; 3000; -400; 1; 2; 30; 0; 4; 1; 0]%Z.
Definition column_case : list spec_float := List.map f_of_Z [5; 20000; 4000; 1; 100; 0; 1; 0; 0; 0]%Z.
Lemma whole_within n limit : (Z.abs n <= limit)%Z -> (limit < 2 ^ 53)%Z -> within limit (f_of_Z n).
Proof. intros H L. destruct (of_Z_exact n) as [B V]; [lia|]. split; [exact B|]. rewrite V, <- abs_IZR. apply IZR_le. exact H. Qed.
Example C110_world_section_non_vacuous :
  Forall (within (2 ^ 40)) row_case /\ Forall (within (2 ^ 40)) column_case /\
  within (2 ^ 24) (fvx ground_case) /\ within (2 ^ 24) (fvy ground_case) /\ within (2 ^ 24) (fvz ground_case) /\
  f_world_section four_by_three row_case column_case ground_case = Ok (2, 0)%Z /\
  f_world_section four_by_three column_case row_case ground_case = Ok (0, 3)%Z.
Proof.
  assert (W : forall l, Forall (fun n => (Z.abs n <= 2 ^ 40)%Z) l -> Forall (within (2 ^ 40)) (List.map f_of_Z l)).
  { intros l H. induction H; [constructor|]. cbn [List.map]. constructor; [apply whole_within; [assumption|lia]|assumption]. }
  split; [apply W; repeat (constructor; [lia|]); constructor|]. split; [apply W; repeat (constructor; [lia|]); constructor|].
  split; [split; [split; [exact I|vm_compute; reflexivity]|unfold ground_case, fvx, tenth, value; rewrite pw_neg; change (2 ^ 56)%Z with 72057594037927936%Z; change (2 ^ 24)%Z with 16777216%Z; rewrite Rabs_pos_eq; lra]|].
  split; [split; [split; [exact I|vm_compute; reflexivity]|unfold ground_case, fvy, value; rewrite pw_neg; change (2 ^ 53)%Z with 9007199254740992%Z; change (2 ^ 24)%Z with 16777216%Z; rewrite Rabs_pos_eq; lra]|].
  split; [apply whole_within; lia|]. split; vm_compute; reflexivity.
Qed.
(** Its exact row is about 1482.5, in the first section (rows 1000 to 1999); its exact column is about 4138. *)
Example C110_world_section_exact :
  1000 <= exact_location row_case ground_case < 2000 /\ 2 * 2048 <= exact_location column_case ground_case < 3 * 2048 /\
  absolute_terms row_case ground_case <= IZR (2 ^ 39) /\ absolute_terms column_case ground_case <= IZR (2 ^ 39).
Proof.
  assert (C : forall l, Forall (fun n => (Z.abs n < 2 ^ 53)%Z) l -> forall i, coefficient (List.map f_of_Z l) i = IZR (nth i l 0%Z)).
  { intros l H. induction H as [|n l Hn H IH]; intros [|i]; cbn [List.map]; try reflexivity; unfold coefficient; cbn [nth]; [now apply of_Z_exact|apply IH]. }
  assert (X : value (fvx ground_case) = 7205759403792794 * / 72057594037927936) by (unfold ground_case, fvx, tenth, value; rewrite pw_neg; change (2 ^ 56)%Z with 72057594037927936%Z; ring).
  assert (Y : value (fvy ground_case) = / 2) by (unfold ground_case, fvy, value; rewrite pw_neg; change (2 ^ 53)%Z with 9007199254740992%Z; lra).
  assert (Z : value (fvz ground_case) = 120) by (apply of_Z_exact; lia).
  unfold exact_location, absolute_terms, quadratic, row_case, column_case. rewrite X, Y, Z, !C by (repeat (constructor; [lia|]); constructor).
  cbn [nth]. change (2 ^ 39)%Z with 549755813888%Z. rewrite <- !abs_IZR. cbn [Z.abs]. rewrite !Rabs_pos_eq by lra. cbn [pow]. lra.
Qed.
