(** Lemmas about the SICD geometry. *)
Require Import ZArith Reals String List Lra Lia Bool.
Require Import Verif.Base Verif.BaseFacts Verif.Vec Verif.VecFacts Verif.SicdModel Verif.PolySpec Verif.SicdSpec.
Import ListNotations.
Local Open Scope R_scope.

(** *** Spec vocabulary in terms of dot products *)
Lemma distance_eq a b : distance a b = vnorm (vsub a b).
Proof. unfold distance, vnorm, vdot. cbn. f_equal. ring. Qed.
Lemma range_rate_eq a v p : range_rate a v p = vdot v (vsub a p) / vnorm (vsub a p).
Proof. unfold range_rate. rewrite distance_eq. reflexivity. Qed.
Lemma on_plane_eq ref n p : on_plane ref n p <-> vdot (vsub p ref) n = 0.
Proof. unfold on_plane, vdot. cbn. split; intros H; rewrite <- H; ring. Qed.
Lemma side_of_eq n a v p : side_of n a v p = vdot (vcross (vsub a p) v) n.
Proof. unfold side_of, vdot. cbn. ring. Qed.
Lemma unit_eq a : unit a <-> vdot a a = 1.
Proof. unfold unit, vdot. split; intros H; rewrite <- H; ring. Qed.
Lemma vdot_zero a : vdot a a = 0 -> a = vzero.
Proof.
  unfold vdot. intros H. pose proof (Rle_0_sqr (vx a)). pose proof (Rle_0_sqr (vy a)). pose proof (Rle_0_sqr (vz a)). unfold Rsqr in *.
  apply vec_eq; cbn; apply Rsqr_0_uniq; unfold Rsqr; lra.
Qed.
Lemma vnorm_zero_iff a : vnorm a = 0 <-> a = vzero.
Proof.
  split; intros H.
  - apply vdot_zero. rewrite <- vnorm_sqr, H. ring.
  - subst a. apply vnorm_of_sqr; unfold vdot; cbn; lra.
Qed.
Lemma vnorm_pos_iff a : a <> vzero -> 0 < vnorm a.
Proof. intros H. pose proof (vnorm_pos a). destruct (Req_dec (vnorm a) 0) as [E|]; [|lra]. apply vnorm_zero_iff in E. contradiction. Qed.
Lemma distance_pos a b : 0 <= distance a b. Proof. rewrite distance_eq. apply vnorm_pos. Qed.

Lemma normalised_unit a : a <> vzero -> vdot (normalised a) (normalised a) = 1.
Proof.
  intros H. apply vnorm_pos_iff in H. unfold normalised. rewrite vdot_scale_l, vdot_scale_r, <- vnorm_sqr. field. lra.
Qed.
Lemma normalised_dot a b : vdot a (normalised b) = vdot a b / vnorm b.
Proof. unfold normalised. rewrite vdot_scale_r. unfold Rdiv. ring. Qed.
Lemma normalised_of_unit a : vdot a a = 1 -> normalised a = a.
Proof.
  intros H. unfold normalised. rewrite (vnorm_of_sqr a 1) by lra. apply vec_eq; cbn; field.
Qed.
Lemma normalised_not_zero a : a <> vzero -> normalised a <> vzero.
Proof. intros H E. apply normalised_unit in H. rewrite E in H. unfold vdot in H. cbn in H. lra. Qed.
Lemma on_plane_normalised ref n p : n <> vzero -> (on_plane ref n p <-> vdot (vsub p ref) (normalised n) = 0).
Proof.
  intros H. rewrite on_plane_eq, normalised_dot. apply vnorm_pos_iff in H. split; intros E.
  - rewrite E. unfold Rdiv. ring.
  - apply Rmult_integral in E. destruct E as [E|E]; [exact E|]. apply Rinv_neq_0_compat in E; [contradiction|lra].
Qed.

(** *** Polynomials *)
Lemma total_cons x l : total (x :: l) = x + total l. Proof. reflexivity. Qed.
Lemma total_scale k l : total (List.map (fun a => a * k) l) = total l * k.
Proof. induction l as [|a l IH]; unfold total in *; cbn; [ring|]. rewrite IH. ring. Qed.
Lemma total_ext {A} (f g : A -> R) l : (forall a, In a l -> f a = g a) -> total (List.map f l) = total (List.map g l).
Proof. intros H. f_equal. apply map_ext_in, H. Qed.

Lemma polyval_power_sum c x : polyval c x = power_sum c x.
Proof.
  unfold power_sum. induction c as [|a c IH]; [reflexivity|]. cbn [polyval List.length].
  rewrite <- cons_seq. cbn [List.map nth]. rewrite total_cons, IH, <- seq_shift, map_map, <- total_scale, map_map. cbn [pow]. f_equal; [ring|].
  f_equal. apply map_ext. intros i. cbn. ring.
Qed.

Lemma scale_from_S c n x : polyval (scale_from (S n) c) x = polyval c x + polyval (scale_from n c) x.
Proof.
  revert n. induction c as [|a c IH]; intros n; [cbn; ring|].
  change (INR (S n) * a + polyval (scale_from (S (S n)) c) x * x = a + polyval c x * x + (INR n * a + polyval (scale_from (S n) c) x * x)).
  rewrite (IH (S n)), S_INR. ring.
Qed.
Lemma polyder_tail c x : polyval (polyder c) x = polyval (scale_from 1 (tl c)) x.
Proof. destruct c as [|a [|b c]]; try reflexivity. cbn. ring. Qed.
Lemma polyder_correct c x : derivable_pt_lim (polyval c) x (polyval (polyder c) x).
Proof.
  rewrite polyder_tail. induction c as [|a c IH].
  - apply derivable_pt_lim_const.
  - cbn [tl].
    assert (H : derivable_pt_lim (fun s => a + polyval c s * s) x (0 + (polyval (scale_from 1 (tl c)) x * x + polyval c x * 1))).
    { apply (derivable_pt_lim_plus (fun _ => a) (fun s => polyval c s * s)); [apply derivable_pt_lim_const|].
      apply (derivable_pt_lim_mult (polyval c) (fun s => s)); [exact IH|apply derivable_pt_lim_id]. }
    replace (polyval (scale_from 1 c) x) with (0 + (polyval (scale_from 1 (tl c)) x * x + polyval c x * 1)); [exact H|].
    rewrite (scale_from_S c 0). destruct c as [|b c]; [cbn; ring|].
    change (polyval (scale_from 0 (b :: c)) x) with (INR 0 * b + polyval (scale_from 1 c) x * x). cbn [tl INR]. ring.
Qed.
Lemma polyxyz_velocity p t : velocity_at (polyxyz p) t (polyxyz (polyxyz_deriv p) t).
Proof. repeat split; apply polyder_correct. Qed.

(** Two-dimensional polynomials. *)
Lemma row_add_nth a b j : List.length a = List.length b -> nth j (row_add a b) 0 = nth j a 0 + nth j b 0.
Proof.
  revert b j. induction a as [|x a IH]; intros [|y b] j H; try discriminate; [destruct j; cbn; ring|].
  injection H as H. destruct j; cbn; [reflexivity|]. now apply IH.
Qed.
Lemma row_add_length a b : List.length a = List.length b -> List.length (row_add a b) = List.length a.
Proof. revert b. induction a as [|x a IH]; intros [|y b] H; try discriminate; [reflexivity|]. injection H as H. cbn. now rewrite IH. Qed.
Lemma polyval_rows_length c w x : c <> [] -> (forall r, In r c -> List.length r = w) -> List.length (polyval_rows c x) = w.
Proof.
  induction c as [|r c IH]; [contradiction|]. intros _ H. destruct c as [|r' c]; [apply H; now left|].
  change (List.length (row_add r (List.map (fun a => a * x) (polyval_rows (r' :: c) x))) = w).
  assert (L : List.length (polyval_rows (r' :: c) x) = w) by (apply IH; [discriminate|intros q Hq; apply H; now right]).
  assert (H0 : List.length r = w) by (apply H; now left).
  rewrite row_add_length; [exact H0|]. rewrite map_length. congruence.
Qed.
Lemma polyval_rows_nth c w x j : c <> [] -> (forall r, In r c -> List.length r = w) ->
  nth j (polyval_rows c x) 0 = total (List.map (fun i => nth j (nth i c []) 0 * x ^ i) (seq 0 (List.length c))).
Proof.
  induction c as [|r c IH]; [contradiction|]. intros _ H. destruct c as [|r' c].
  - unfold total. cbn. ring.
  - change (polyval_rows (r :: r' :: c) x) with (row_add r (List.map (fun a => a * x) (polyval_rows (r' :: c) x))).
    assert (H' : forall q, In q (r' :: c) -> List.length q = w) by (intros q Hq; apply H; now right).
    rewrite row_add_nth.
    2:{ rewrite map_length. rewrite (polyval_rows_length _ w) by (auto; discriminate). apply H. now left. }
    replace (nth j (List.map (fun a => a * x) (polyval_rows (r' :: c) x)) 0) with (nth j (polyval_rows (r' :: c) x) 0 * x).
    2:{ rewrite <- (map_nth (fun a => a * x)). f_equal. ring. }
    rewrite IH by (auto; discriminate). set (d := r' :: c). cbn [List.length]. rewrite <- cons_seq. cbn [List.map nth].
    rewrite <- total_scale, map_map, <- seq_shift, map_map, total_cons. cbn [pow]. f_equal; [ring|].
    f_equal. apply map_ext. intros i. cbn [nth pow]. ring.
Qed.
Lemma total_swap {A B} (f : A -> B -> R) l m :
  total (List.map (fun a => total (List.map (f a) m)) l) = total (List.map (fun b => total (List.map (fun a => f a b) l)) m).
Proof.
  induction l as [|a l IH].
  - cbn. induction m as [|b m IHm]; [reflexivity|]. unfold total in *. cbn. rewrite <- IHm. ring.
  - cbn [List.map]. rewrite total_cons, IH.
    clear IH. induction m as [|b m IHm]; unfold total in *; cbn in *; [ring|]. rewrite <- IHm. ring.
Qed.
Lemma poly2d_power_sum c w x y : c <> [] -> (forall r, In r c -> List.length r = w) -> poly2d c x y = power_sum2 c w x y.
Proof.
  intros N H. unfold poly2d. rewrite polyval_power_sum. unfold power_sum, power_sum2. rewrite (polyval_rows_length c w x N H).
  rewrite total_swap. apply total_ext. intros j _. rewrite (polyval_rows_nth c w x j N H), <- total_scale, map_map. reflexivity.
Qed.
Lemma make_poly2d_ok c d : make_poly2d c = Ok d -> d = c /\ c <> [] /\ forall r, In r c -> List.length r = List.length (hd [] c).
Proof.
  destruct c as [|r c]; [discriminate|]. cbn [make_poly2d]. destruct (forallb _ c) eqn:E; [|discriminate]. intros [= <-].
  split; [reflexivity|]. split; [discriminate|]. cbn [hd]. intros q [<-|Hq]; [reflexivity|].
  rewrite forallb_forall in E. now apply Nat.eqb_eq, E.
Qed.

(** *** The image grid (C32) *)
Section Grid_frame.
Variable c : Converter.
Hypothesis Hr : vdot (u_row c) (u_row c) = 1.
Hypothesis Hc : vdot (u_col c) (u_col c) = 1.
Hypothesis Hp : vcross (u_row c) (u_col c) <> vzero.

Lemma sin_sqr : sqrt (1 - vdot (u_row c) (u_col c) * vdot (u_row c) (u_col c)) * sqrt (1 - vdot (u_row c) (u_col c) * vdot (u_row c) (u_col c))
  = 1 - vdot (u_row c) (u_col c) * vdot (u_row c) (u_col c) /\ 0 < 1 - vdot (u_row c) (u_col c) * vdot (u_row c) (u_col c).
Proof.
  assert (P : 0 < vdot (vcross (u_row c) (u_col c)) (vcross (u_row c) (u_col c))).
  { pose proof (vdot_pos (vcross (u_row c) (u_col c))). destruct (Req_dec (vdot (vcross (u_row c) (u_col c)) (vcross (u_row c) (u_col c))) 0) as [E|]; [|lra].
    apply vdot_zero in E. contradiction. }
  rewrite lagrange, Hr, Hc in P. split; [apply sqrt_sqrt; lra | lra].
Qed.

Lemma grid_of_plane_point xy : ipp_to_xrowycol c (xrowycol_to_ipp c xy) = xy.
Proof.
  destruct xy as [x y]. unfold ipp_to_xrowycol, xrowycol_to_ipp, matrix_transform. cbn [fst snd].
  destruct sin_sqr as [S P]. rewrite S.
  replace (vsub (vadd (scp_ecf c) (vadd (vscale x (u_row c)) (vscale y (u_col c)))) (scp_ecf c)) with (vadd (vscale x (u_row c)) (vscale y (u_col c))) by vec_ring.
  rewrite !vdot_add_l, !vdot_add_r, !vdot_scale_l, !vdot_scale_r, Hr, Hc, (vdot_comm (u_col c) (u_row c)).
  f_equal; field; lra.
Qed.

Lemma plane_point_on_plane xy : vdot (vsub (xrowycol_to_ipp c xy) (scp_ecf c)) (uvect_ipn c) = 0.
Proof.
  unfold xrowycol_to_ipp, uvect_ipn. rewrite normalised_dot.
  replace (vdot _ (vcross _ _)) with 0; [unfold Rdiv; ring|]. unfold vdot. cbn. ring.
Qed.

Lemma plane_point_of_grid p : vdot (vsub p (scp_ecf c)) (uvect_ipn c) = 0 -> xrowycol_to_ipp c (ipp_to_xrowycol c p) = p.
Proof.
  intros H. unfold uvect_ipn in H. rewrite normalised_dot in H.
  assert (H0 : vdot (vsub p (scp_ecf c)) (vcross (u_row c) (u_col c)) = 0).
  { pose proof (vnorm_pos_iff _ Hp). apply Rmult_integral in H. destruct H as [H|H]; [exact H|]. apply Rinv_neq_0_compat in H; [contradiction|lra]. }
  clear H. unfold ipp_to_xrowycol, xrowycol_to_ipp, matrix_transform. cbn [fst snd]. destruct sin_sqr as [S P]. rewrite S. clear S.
  set (d := vsub p (scp_ecf c)) in *. set (u := u_row c) in *. set (v := u_col c) in *. set (k := vdot u v) in *.
  assert (E : vadd (vscale (vdot d u - k * vdot d v) u) (vscale (vdot d v - k * vdot d u) v) = vscale (1 - k * k) d).
  { assert (D : vscale (vdot u u * vdot v v - k * k) d = vadd (vadd (vscale (vdot v v * vdot d u - k * vdot d v) u) (vscale (vdot u u * vdot d v - k * vdot d u) v)) (vscale (vdot d (vcross u v)) (vcross u v))).
    { unfold k. apply vec_eq; unfold vdot; cbn; ring. }
    rewrite H0, Hr, Hc in D. replace (1 - k * k) with (1 * 1 - k * k) by ring. rewrite D. apply vec_eq; cbn; ring. }
  apply (f_equal (vscale (/ (1 - k * k)))) in E.
  replace (vscale (/ (1 - k * k)) (vscale (1 - k * k) d)) with d in E by (apply vec_eq; cbn; field; lra).
  rewrite !vdot_add_r, !vdot_scale_r.
  transitivity (vadd (scp_ecf c) d); [|unfold d; vec_ring]. f_equal. rewrite <- E at 5. clear E. apply vec_eq; cbn [vadd vscale vx vy vz]; field; lra.
Qed.
End Grid_frame.

Lemma pixel_round_trip c rc : row_ss c <> 0 -> col_ss c <> 0 -> xrowycol_to_rowcol c (rowcol_to_xrowycol c rc) = rc.
Proof. intros A B. destruct rc. unfold xrowycol_to_rowcol, rowcol_to_xrowycol. cbn. f_equal; field; assumption. Qed.
Lemma grid_round_trip c xy : row_ss c <> 0 -> col_ss c <> 0 -> rowcol_to_xrowycol c (xrowycol_to_rowcol c xy) = xy.
Proof. intros A B. destruct xy. unfold xrowycol_to_rowcol, rowcol_to_xrowycol. cbn. f_equal; field; assumption. Qed.

(** *** Derivatives of ranges (C34) *)
Lemma distance_derivative f t d p : velocity_at f t d -> f t <> p ->
  derivable_pt_lim (fun s => distance (f s) p) t (range_rate (f t) d p).
Proof.
  intros (Hx & Hy & Hz) N.
  set (q := fun s => (vx (f s) - vx p) ^ 2 + (vy (f s) - vy p) ^ 2 + (vz (f s) - vz p) ^ 2).
  assert (Sq : forall g dg a, derivable_pt_lim g t dg -> derivable_pt_lim (fun s => (g s - a) ^ 2) t (2 * dg * (g t - a))).
  { intros g dg a H.
    assert (D : derivable_pt_lim (fun s => g s - a) t (dg - 0)) by (apply (derivable_pt_lim_minus g (fun _ => a)); [exact H|apply derivable_pt_lim_const]).
    pose proof (derivable_pt_lim_mult _ _ _ _ _ D D) as M.
    replace (2 * dg * (g t - a)) with ((dg - 0) * (g t - a) + (g t - a) * (dg - 0)) by ring.
    eapply derivable_pt_lim_ext; [|exact M]. intros s. unfold mult_fct. ring. }
  assert (Q : derivable_pt_lim q t (2 * vx d * (vx (f t) - vx p) + 2 * vy d * (vy (f t) - vy p) + 2 * vz d * (vz (f t) - vz p))).
  { apply (derivable_pt_lim_plus (fun s => (vx (f s) - vx p) ^ 2 + (vy (f s) - vy p) ^ 2) (fun s => (vz (f s) - vz p) ^ 2)).
    - apply (derivable_pt_lim_plus (fun s => (vx (f s) - vx p) ^ 2) (fun s => (vy (f s) - vy p) ^ 2)); [apply (Sq (fun s => vx (f s)))|apply (Sq (fun s => vy (f s)))]; assumption.
    - apply (Sq (fun s => vz (f s))); assumption. }
  assert (P : 0 < q t).
  { unfold q. pose proof (pow2_ge_0 (vx (f t) - vx p)). pose proof (pow2_ge_0 (vy (f t) - vy p)). pose proof (pow2_ge_0 (vz (f t) - vz p)).
    destruct (Req_dec (q t) 0) as [E|E]; unfold q in E; [|lra]. exfalso. apply N.
    assert (Z : forall u, u ^ 2 = 0 -> u = 0) by (intros u Hu; apply Rsqr_0_uniq; unfold Rsqr; rewrite <- Hu; ring).
    apply vec_eq; apply Rminus_diag_uniq, Z; lra. }
  pose proof (derivable_pt_lim_comp q sqrt t _ _ Q (derivable_pt_lim_sqrt _ P)) as C.
  replace (range_rate (f t) d p) with (/ (2 * sqrt (q t)) * (2 * vx d * (vx (f t) - vx p) + 2 * vy d * (vy (f t) - vy p) + 2 * vz d * (vz (f t) - vz p))).
  - exact C.
  - unfold range_rate, distance. fold (q t). pose proof (sqrt_lt_R0 _ P). field. lra.
Qed.

Lemma pfa_derivative scp polar sf p xy t : grid p = PFA scp polar sf -> polyxyz (arp_poly p) t <> scp ->
  derivable_pt_lim (fun s => distance (polyxyz (arp_poly p) s) scp
                             + polyval sf (polyval polar s) * (fst xy * cos (polyval polar s) + snd xy * sin (polyval polar s))) t
    (snd (grid_specific_projection p xy t (polyxyz (arp_poly p) t) (polyxyz (varp_poly p) t))).
Proof.
  intros G N. unfold grid_specific_projection. rewrite G. cbn [snd]. rewrite <- range_rate_eq.
  apply (derivable_pt_lim_plus (fun s => distance (polyxyz (arp_poly p) s) scp)).
  - apply distance_derivative; [apply polyxyz_velocity | exact N].
  - pose proof (polyder_correct polar t) as Dt. set (th := polyval polar t) in *.
    pose proof (derivable_pt_lim_comp (polyval polar) (polyval sf) t _ _ Dt (polyder_correct sf th)) as Ds.
    pose proof (derivable_pt_lim_comp (polyval polar) cos t _ _ Dt (derivable_pt_lim_cos th)) as Dc.
    pose proof (derivable_pt_lim_comp (polyval polar) sin t _ _ Dt (derivable_pt_lim_sin th)) as Dn.
    pose proof (derivable_pt_lim_plus _ _ _ _ _ (derivable_pt_lim_scal _ (fst xy) _ _ Dc) (derivable_pt_lim_scal _ (snd xy) _ _ Dn)) as Da.
    pose proof (derivable_pt_lim_mult _ _ _ _ _ Ds Da) as M.
    match goal with |- derivable_pt_lim _ _ ?l => match type of M with derivable_pt_lim _ _ ?l' => replace l with l' end end.
    + eapply derivable_pt_lim_ext; [|exact M]. intros s. reflexivity.
    + unfold plus_fct, mult_real_fct, comp. fold th. ring.
Qed.

Lemma inca_derivative rca tp dr p xy t arp varp : grid p = INCA rca tp dr ->
  let tca := polyval tp (snd xy) in
  let speed := vnorm (polyxyz (varp_poly p) tca) in
  let q := fun s => (rca + fst xy) ^ 2 + poly2d dr (fst xy) (snd xy) * speed ^ 2 * (s - tca) ^ 2 in
  0 < q t ->
  derivable_pt_lim (fun s => sqrt (q s)) t (snd (grid_specific_projection p xy t arp varp)).
Proof.
  intros G tca speed q P. unfold grid_specific_projection. rewrite G. cbn [snd]. fold tca speed.
  assert (D : derivable_pt_lim (fun s => s - tca) t (1 - 0)) by (apply (derivable_pt_lim_minus (fun s => s) (fun _ => tca)); [apply derivable_pt_lim_id|apply derivable_pt_lim_const]).
  pose proof (derivable_pt_lim_plus _ _ _ _ _ (derivable_pt_lim_const ((rca + fst xy) ^ 2) t)
                (derivable_pt_lim_scal _ (poly2d dr (fst xy) (snd xy) * speed ^ 2) _ _ (derivable_pt_lim_mult _ _ _ _ _ D D))) as M.
  assert (Q : derivable_pt_lim q t (2 * (poly2d dr (fst xy) (snd xy) * speed ^ 2 * (t - tca)))).
  { match type of M with derivable_pt_lim _ _ ?l' => replace (2 * (poly2d dr (fst xy) (snd xy) * speed ^ 2 * (t - tca))) with l' by ring end.
    eapply derivable_pt_lim_ext; [|exact M]. intros s. unfold q, plus_fct, fct_cte, mult_real_fct, mult_fct. ring. }
  pose proof (derivable_pt_lim_comp q sqrt t _ _ Q (derivable_pt_lim_sqrt _ P)) as C.
  match goal with |- derivable_pt_lim _ _ ?l => match type of C with derivable_pt_lim _ _ ?l' => replace l with l' end end; [exact C|].
  fold (q t). pose proof (sqrt_lt_R0 _ P). field. lra.
Qed.
