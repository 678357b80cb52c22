(** Property theorems for the SICD sensor model: C32 - C38 and C68. *)
Require Import ZArith Reals String List Lra Lia Bool Sorting.Sorted.
Require Import Verif.Base Verif.BaseFacts Verif.Vec Verif.VecFacts Verif.SicdModel Verif.PolySpec Verif.SicdSpec Verif.SicdProofs Verif.SicdGroundProofs.
Import ListNotations.
Local Open Scope R_scope.

(** ** C32: image grid conversions *)
Theorem C32_pixel_round_trip :
  forall (c : Converter) (row_col : R * R), row_ss c <> 0 -> col_ss c <> 0 ->
  xrowycol_to_rowcol c (rowcol_to_xrowycol c row_col) = row_col.
Proof. exact pixel_round_trip. Qed.
Print Assumptions C32_pixel_round_trip.

Theorem C32_grid_round_trip :
  forall (c : Converter) (xy : R * R), row_ss c <> 0 -> col_ss c <> 0 ->
  rowcol_to_xrowycol c (xrowycol_to_rowcol c xy) = xy.
Proof. exact grid_round_trip. Qed.
Print Assumptions C32_grid_round_trip.

(** The scene centre pixel is the origin, and one pixel is one sample spacing. *)
Theorem C32_spacing :
  forall (c : Converter) (dr dc : R),
  rowcol_to_xrowycol c (iy (scp_pixel c) + dr, ix (scp_pixel c) + dc) = (dr * row_ss c, dc * col_ss c).
Proof. intros. unfold rowcol_to_xrowycol. cbn. f_equal; ring. Qed.
Print Assumptions C32_spacing.

Lemma not_parallel_cross a b : not_parallel a b -> vcross a b <> vzero.
Proof. intros [H|[H|H]] E; apply H; unfold vcross, vzero in E; injection E; auto. Qed.

Theorem C32_grid_of_plane_point :
  forall (c : Converter) (xy : R * R), unit (u_row c) -> unit (u_col c) -> not_parallel (u_row c) (u_col c) ->
  ipp_to_xrowycol c (xrowycol_to_ipp c xy) = xy.
Proof. intros c xy A B C. apply grid_of_plane_point; [now apply unit_eq|now apply unit_eq|now apply not_parallel_cross]. Qed.
Print Assumptions C32_grid_of_plane_point.

Theorem C32_plane_point_of_grid :
  forall (c : Converter) (p : Vec), unit (u_row c) -> unit (u_col c) -> not_parallel (u_row c) (u_col c) ->
  on_plane (scp_ecf c) (uvect_ipn c) p -> xrowycol_to_ipp c (ipp_to_xrowycol c p) = p.
Proof.
  intros c p A B C D. apply plane_point_of_grid; [now apply unit_eq|now apply unit_eq|now apply not_parallel_cross|].
  now apply on_plane_eq.
Qed.
Print Assumptions C32_plane_point_of_grid.

(** Image plane points lie on the plane through the scene centre, and the plane's normal is a unit
    vector perpendicular to rows and columns. *)
Theorem C32_on_image_plane :
  forall (c : Converter) (xy : R * R), not_parallel (u_row c) (u_col c) ->
  on_plane (scp_ecf c) (uvect_ipn c) (xrowycol_to_ipp c xy) /\ unit (uvect_ipn c) /\
  perpendicular (uvect_ipn c) (u_row c) /\ perpendicular (uvect_ipn c) (u_col c).
Proof.
  intros c xy H. apply not_parallel_cross in H. split; [apply on_plane_eq, plane_point_on_plane|].
  split; [apply unit_eq, normalised_unit, H|]. unfold perpendicular, uvect_ipn, normalised.
  split; cbn; ring.
Qed.
Print Assumptions C32_on_image_plane.

(** Rows and columns that are not perpendicular. *)
Definition demo_converter : Converter :=
  mkConverter (mkImage 10 20) (mkVec 7 8 9) (mkVec 1 0 0) (mkVec (3/5) (4/5) 0) 2 (1/2) (mkImage 0 0).
Example C32_non_vacuous :
  unit (u_row demo_converter) /\ unit (u_col demo_converter) /\ not_parallel (u_row demo_converter) (u_col demo_converter) /\
  rowcol_to_xrowycol demo_converter (21, 12) = (2, 1) /\
  xrowycol_to_ipp demo_converter (2, 1) = mkVec (48/5) (44/5) 9.
Proof.
  unfold unit, not_parallel, rowcol_to_xrowycol, xrowycol_to_ipp, demo_converter, vadd, vscale. cbn.
  split; [lra|]. split; [lra|]. split; [right; right; lra|]. split; [f_equal; field|]. f_equal; field.
Qed.

Example C32_round_trips_non_vacuous :
  xrowycol_to_rowcol demo_converter (rowcol_to_xrowycol demo_converter (21, 12)) = (21, 12) /\
  rowcol_to_xrowycol demo_converter (xrowycol_to_rowcol demo_converter (2, 1)) = (2, 1) /\
  ipp_to_xrowycol demo_converter (mkVec (48/5) (44/5) 9) = (2, 1) /\
  xrowycol_to_ipp demo_converter (ipp_to_xrowycol demo_converter (mkVec (48/5) (44/5) 9)) = mkVec (48/5) (44/5) 9 /\
  on_plane (mkVec 7 8 9) (uvect_ipn demo_converter) (mkVec (48/5) (44/5) 9).
Proof.
  destruct C32_non_vacuous as (U & V & N & _ & P).
  destruct (C32_on_image_plane demo_converter (2, 1) N) as [O _]. rewrite P in O.
  split; [apply C32_pixel_round_trip; cbn; lra|]. split; [apply C32_grid_round_trip; cbn; lra|].
  split; [rewrite <- P; apply C32_grid_of_plane_point; assumption|].
  split; [apply C32_plane_point_of_grid; assumption | exact O].
Qed.

(** ** C33: the ground plane intersection *)
Theorem C33_exact :
  forall (pl : Plane) (r rdot : R) (arp v q : Vec), u_gpn pl <> vzero ->
  side_of (u_gpn pl) arp v (ref_ecf pl) <> 0 ->
  ground_intersection pl r rdot arp v = Ok (Some q) ->
  on_plane (ref_ecf pl) (u_gpn pl) q /\ distance arp q = r /\ range_rate arp v q = rdot /\
  0 <= side_of (u_gpn pl) arp v q * side_of (u_gpn pl) arp v (ref_ecf pl).
Proof.
  intros pl r rdot arp v q N L H. split; [eapply ground_on_plane; eauto|]. split; [eapply ground_range; eauto|].
  split; [eapply ground_rate; eauto|]. eapply ground_side; eauto.
Qed.
Print Assumptions C33_exact.

Theorem C33_unique :
  forall (pl : Plane) (r rdot : R) (arp v q q' : Vec), u_gpn pl <> vzero ->
  side_of (u_gpn pl) arp v (ref_ecf pl) <> 0 ->
  ground_intersection pl r rdot arp v = Ok (Some q) ->
  on_plane (ref_ecf pl) (u_gpn pl) q' -> distance arp q' = r -> range_rate arp v q' = rdot ->
  0 <= side_of (u_gpn pl) arp v q' * side_of (u_gpn pl) arp v (ref_ecf pl) -> q' = q.
Proof. intros. eapply ground_unique; eauto. Qed.
Print Assumptions C33_unique.

(** An error is a ValueError, and then no point of the plane has that range and range rate. *)
Theorem C33_error_means_no_solution :
  forall (pl : Plane) (r rdot : R) (arp v : Vec) (e : exn), u_gpn pl <> vzero ->
  ground_intersection pl r rdot arp v = Err e ->
  e = ValueError /\ forall q, ~ (on_plane (ref_ecf pl) (u_gpn pl) q /\ distance arp q = r /\ range_rate arp v q = rdot).
Proof.
  intros pl r rdot arp v e N H. destruct (ground_error pl r rdot arp v N e H) as [E F]. split; [exact E|].
  intros q (A & B & C). exact (F q A B C).
Qed.
Print Assumptions C33_error_means_no_solution.

(** Above the plane by less than the range, and moving across it, there is always an answer: the
    point on the side of the reference point if there is one, and an error otherwise. *)
Theorem C33_finds_every_solution :
  forall (pl : Plane) (r rdot : R) (arp v q : Vec), u_gpn pl <> vzero -> moves_across (u_gpn pl) v ->
  side_of (u_gpn pl) arp v (ref_ecf pl) <> 0 ->
  0 <= height_over (ref_ecf pl) (u_gpn pl) arp < r ->
  on_plane (ref_ecf pl) (u_gpn pl) q -> distance arp q = r -> range_rate arp v q = rdot ->
  0 <= side_of (u_gpn pl) arp v q * side_of (u_gpn pl) arp v (ref_ecf pl) ->
  ground_intersection pl r rdot arp v = Ok (Some q).
Proof.
  intros pl r rdot arp v q N M L A P D V S. destruct (ground_intersection pl r rdot arp v) as [[q'|]|e] eqn:E.
  - do 2 f_equal. symmetry. eapply ground_unique; eauto.
  - apply ground_nan in E; auto; lra.
  - destruct (ground_error pl r rdot arp v N e E) as [_ F]. exfalso. eauto.
Qed.
Print Assumptions C33_finds_every_solution.

Theorem C33_answer_or_error :
  forall (pl : Plane) (r rdot : R) (arp v : Vec), u_gpn pl <> vzero -> moves_across (u_gpn pl) v ->
  0 <= height_over (ref_ecf pl) (u_gpn pl) arp < r ->
  ground_intersection pl r rdot arp v = Err ValueError \/ exists q, ground_intersection pl r rdot arp v = Ok (Some q).
Proof.
  intros pl r rdot arp v N M A. destruct (ground_intersection pl r rdot arp v) as [[q'|]|e] eqn:E; [right; eauto| |].
  - apply ground_nan in E; auto; lra.
  - left. destruct (ground_error pl r rdot arp v N e E) as [-> _]. reflexivity.
Qed.
Print Assumptions C33_answer_or_error.

Definition demo_plane : Plane := mkPlane (mkVec 0 9 0) (mkVec 0 0 2).
Lemma demo_distance p d : 0 <= d -> (vx p)^2 + (vy p)^2 + (3 - vz p)^2 = d * d -> distance (mkVec 0 0 3) p = d.
Proof. intros H E. unfold distance. cbn. rewrite <- (sqrt_square d H), <- E. f_equal. ring. Qed.
Lemma demo_height p : height_over (ref_ecf demo_plane) (u_gpn demo_plane) p = vz p.
Proof.
  unfold height_over, demo_plane. cbn [ref_ecf u_gpn vx vy vz].
  replace (0 ^ 2 + 0 ^ 2 + 2 ^ 2) with (2 * 2) by ring. rewrite sqrt_square by lra. field.
Qed.
Example C33_non_vacuous :
  ground_intersection demo_plane 5 0 (mkVec 0 0 3) (mkVec 1 0 0) = Ok (Some (mkVec 0 4 0)) /\
  ground_intersection demo_plane 5 2 (mkVec 0 0 3) (mkVec 1 0 0) = Err ValueError /\
  ground_intersection demo_plane 2 0 (mkVec 0 0 3) (mkVec 1 0 0) = Err ValueError.
Proof.
  assert (N : u_gpn demo_plane <> vzero) by (intros E; injection E; lra).
  assert (M : moves_across (u_gpn demo_plane) (mkVec 1 0 0)) by (intros k E; cbn in E; injection E; lra).
  split; [|split].
  - apply C33_finds_every_solution; auto.
    + unfold side_of. cbn. lra.
    + rewrite demo_height. cbn. lra.
    + unfold on_plane. cbn. lra.
    + apply demo_distance; cbn; lra.
    + unfold range_rate. rewrite (demo_distance _ 5) by (cbn; lra). cbn. field.
    + unfold side_of. cbn. lra.
  - destruct (C33_answer_or_error demo_plane 5 2 (mkVec 0 0 3) (mkVec 1 0 0) N M) as [E|[q E]]; [rewrite demo_height; cbn; lra|exact E|].
    exfalso. apply C33_exact in E; [|exact N|unfold side_of; cbn; lra]. destruct E as (A & B & C & _).
    unfold on_plane, demo_plane in A. cbn in A. unfold range_rate in C. rewrite B in C. cbn in C.
    assert (X : vx q = -10) by lra. unfold distance in B. cbn in B.
    assert (S : sqrt ((0 - vx q) ^ 2 + (0 - vy q) ^ 2 + (3 - vz q) ^ 2) * sqrt ((0 - vx q) ^ 2 + (0 - vy q) ^ 2 + (3 - vz q) ^ 2) = 25).
    { cbn in *. rewrite B. ring. }
    rewrite sqrt_sqrt in S by nra. rewrite X in S. nra.
  - unfold ground_intersection. pose proof (height_over_eq (ref_ecf demo_plane) (u_gpn demo_plane) (mkVec 0 0 3)) as H.
    rewrite demo_height in H. cbn [vz] in H. rewrite <- H. destruct (Rlt_dec 2 3); [reflexivity|lra].
Qed.

(** *** Where the code departs from the property *)

(** Exactly when the answer is nan: the antenna more than the range below the plane, no range, or
    a vanishing ground range or horizontal velocity with the matching range rate. *)
Theorem C33_nan_iff :
  forall (pl : Plane) (r rdot : R) (arp v : Vec), u_gpn pl <> vzero -> 0 <= r ->
  let h := height_over (ref_ecf pl) (u_gpn pl) arp in
  let climb := height_over vzero (u_gpn pl) v in
  (ground_intersection pl r rdot arp v = Ok None
   <-> h < - r \/ (r = 0 /\ h = 0) \/ (- r <= h <= r /\ 0 < r /\ (Rabs h = r \/ ~ moves_across (u_gpn pl) v) /\ r * rdot = climb * h)).
Proof. intros. unfold h, climb. apply ground_nan_iff; assumption. Qed.
Print Assumptions C33_nan_iff.

(** With the reference point below the track the answer is the point below the track with the
    wanted range times range rate, not further away than the range. *)
Theorem C33_reference_below_track :
  forall (pl : Plane) (r rdot : R) (arp v q : Vec), u_gpn pl <> vzero ->
  side_of (u_gpn pl) arp v (ref_ecf pl) = 0 ->
  ground_intersection pl r rdot arp v = Ok (Some q) ->
  on_plane (ref_ecf pl) (u_gpn pl) q /\ side_of (u_gpn pl) arp v q = 0 /\ distance arp q <= r /\
  range_rate arp v q * distance arp q = rdot * r.
Proof. intros. eapply ground_below_track; eassumption. Qed.
Print Assumptions C33_reference_below_track.

(** More than the range below the plane there is no solution, but the answer is not an error: it is
    a coordinate of nan. *)
Theorem C33_below_plane_refuted :
  exists (pl : Plane) (r rdot : R) (arp v : Vec), u_gpn pl <> vzero /\ moves_across (u_gpn pl) v /\
  (forall q, ~ (on_plane (ref_ecf pl) (u_gpn pl) q /\ distance arp q = r)) /\
  ground_intersection pl r rdot arp v = Ok None.
Proof.
  exists demo_plane, 2, 0, (mkVec 0 0 (-3)), (mkVec 1 0 0).
  assert (N : u_gpn demo_plane <> vzero) by (intros E; injection E; lra).
  split; [exact N|]. split; [intros k E; cbn in E; injection E; lra|]. split.
  - intros q [A B]. unfold on_plane, demo_plane in A. cbn in A. unfold distance in B. cbn in B.
    assert (S : sqrt ((0 - vx q) ^ 2 + (0 - vy q) ^ 2 + (-3 - vz q) ^ 2) * sqrt ((0 - vx q) ^ 2 + (0 - vy q) ^ 2 + (-3 - vz q) ^ 2) = 4) by (cbn in *; rewrite B; ring).
    rewrite sqrt_sqrt in S by nra. nra.
  - unfold ground_intersection. pose proof (height_over_eq (ref_ecf demo_plane) (u_gpn demo_plane) (mkVec 0 0 (-3))) as H.
    rewrite demo_height in H. cbn [vz] in H. rewrite <- H. destruct (Rlt_dec 2 (-3)); [lra|]. destruct (Rlt_dec _ 0); [reflexivity|lra].
Qed.
Print Assumptions C33_below_plane_refuted.

(** Straight down is not found: range equal to the height gives nan although the point below the
    antenna is a solution. *)
Theorem C33_nadir_refuted :
  exists (pl : Plane) (r rdot : R) (arp v q : Vec), u_gpn pl <> vzero /\ moves_across (u_gpn pl) v /\
  on_plane (ref_ecf pl) (u_gpn pl) q /\ distance arp q = r /\ range_rate arp v q = rdot /\
  ground_intersection pl r rdot arp v = Ok None.
Proof.
  exists demo_plane, 3, 0, (mkVec 0 0 3), (mkVec 1 0 0), vzero.
  assert (N : u_gpn demo_plane <> vzero) by (intros E; injection E; lra).
  split; [exact N|]. split; [intros k E; cbn in E; injection E; lra|]. split; [unfold on_plane; cbn; lra|].
  assert (D : distance (mkVec 0 0 3) vzero = 3) by (apply demo_distance; cbn; lra).
  split; [exact D|]. split; [unfold range_rate; rewrite D; cbn; field|].
  unfold ground_intersection. pose proof (height_over_eq (ref_ecf demo_plane) (u_gpn demo_plane) (mkVec 0 0 3)) as H.
  rewrite demo_height in H. cbn [vz] in H. rewrite <- H. destruct (Rlt_dec 3 3); [lra|].
  replace (3 * 3 - 3 * 3) with 0 by ring. destruct (Rlt_dec 0 0); [lra|]. destruct (Req_EM_T 3 0); [lra|].
  rewrite sqrt_0. destruct (Req_EM_T _ 0) as [E|E].
  - destruct (Req_EM_T _ 0) as [F|F]; [reflexivity|]. exfalso. apply F.
    rewrite normalised_dot. unfold vdot, demo_plane. cbn. unfold Rdiv. ring.
  - exfalso. apply E. unfold Rdiv. ring.
Qed.
Print Assumptions C33_nadir_refuted.

(** A reference point on the ground track has no side; then the answer has the wrong range. *)
Theorem C33_reference_below_track_refuted :
  exists (pl : Plane) (r rdot : R) (arp v q : Vec), u_gpn pl <> vzero /\ moves_across (u_gpn pl) v /\
  0 <= height_over (ref_ecf pl) (u_gpn pl) arp < r /\
  ground_intersection pl r rdot arp v = Ok (Some q) /\ distance arp q <> r.
Proof.
  set (pl := mkPlane vzero (mkVec 0 0 1)). set (arp := mkVec 0 0 3). set (v := mkVec 1 0 0).
  assert (N : u_gpn pl <> vzero) by (intros E; injection E; lra).
  assert (M : moves_across (u_gpn pl) v) by (intros k E; cbn in E; injection E; lra).
  assert (Z : normalised (u_gpn pl) = mkVec 0 0 1) by (apply normalised_of_unit; unfold vdot; cbn; ring).
  assert (H : height_over (ref_ecf pl) (u_gpn pl) arp = 3) by (rewrite height_over_eq, Z; unfold vdot; cbn; ring).
  destruct (C33_answer_or_error pl 5 0 arp v N M) as [E|[q E]]; [rewrite H; lra| |].
  - exfalso. apply C33_error_means_no_solution in E; [|exact N]. destruct E as [_ E]. apply (E (mkVec 0 4 0)).
    assert (D : distance arp (mkVec 0 4 0) = 5) by (apply demo_distance; cbn; lra).
    split; [unfold on_plane; cbn; lra|]. split; [exact D|]. unfold range_rate. rewrite D. cbn. field.
  - exists pl, 5, 0, arp, v, q. split; [exact N|]. split; [exact M|]. split; [rewrite H; lra|]. split; [exact E|].
    pose proof (ground_on_plane pl 5 0 arp v N q E) as P. pose proof (ground_rate_num pl 5 0 arp v N q E) as V.
    pose proof (ground_offsets pl 5 0 arp v N q E) as (_ & _ & Y & _). rewrite Z in Y.
    assert (S : sign (vdot (vcross (vsub arp (ref_ecf pl)) v) (mkVec 0 0 1)) = 0).
    { unfold vdot, sign. cbn. destruct (Rlt_dec 0 _); [lra|]. destruct (Rlt_dec _ 0); [lra|reflexivity]. }
    rewrite S in Y. unfold on_plane, pl in P. cbn in P. unfold vdot, arp, v in V. cbn in V.
    match type of Y with _ = ?rhs => replace rhs with 0 in Y by ring end.
    assert (W : sqrt (vnorm v * vnorm v - vdot v (mkVec 0 0 1) * vdot v (mkVec 0 0 1)) = 1).
    { rewrite vnorm_sqr. unfold vdot, v. cbn. replace (_ - _) with (1 * 1) by ring. apply sqrt_square. lra. }
    rewrite W in Y. unfold vdot, arp, v in Y. cbn in Y.
    assert (Q : q = vzero) by (apply vec_eq; cbn; lra). rewrite Q. unfold arp. rewrite (demo_distance vzero 3) by (cbn; lra). lra.
Qed.

(** The error of [C33_non_vacuous] means that there is no such point, and the answer of that example
    is the only one on its side. *)
Example C33_theorems_non_vacuous :
  (forall q, ~ (on_plane (ref_ecf demo_plane) (u_gpn demo_plane) q /\ distance (mkVec 0 0 3) q = 5 /\ range_rate (mkVec 0 0 3) (mkVec 1 0 0) q = 2)) /\
  (forall q, on_plane (ref_ecf demo_plane) (u_gpn demo_plane) q -> distance (mkVec 0 0 3) q = 5 -> range_rate (mkVec 0 0 3) (mkVec 1 0 0) q = 0 ->
     0 <= side_of (u_gpn demo_plane) (mkVec 0 0 3) (mkVec 1 0 0) q * side_of (u_gpn demo_plane) (mkVec 0 0 3) (mkVec 1 0 0) (ref_ecf demo_plane) -> q = mkVec 0 4 0) /\
  ground_intersection demo_plane 5 0 (mkVec 0 0 (-6)) (mkVec 1 0 0) = Ok None.
Proof.
  assert (N : u_gpn demo_plane <> vzero) by (intros E; injection E; lra).
  destruct C33_non_vacuous as (A & B & _). split; [|split].
  - apply (C33_error_means_no_solution demo_plane 5 2 _ _ _ N B).
  - intros q. apply (C33_unique demo_plane 5 0 _ _ _ q N); [unfold side_of; cbn; lra | exact A].
  - apply (C33_nan_iff demo_plane 5 0 (mkVec 0 0 (-6)) (mkVec 1 0 0) N); [lra|]. left. rewrite demo_height. cbn. lra.
Qed.
Print Assumptions C33_reference_below_track_refuted.

(** ** C34: projection sets *)

(** Polynomials are evaluated as sums of powers, and their derivatives are derivatives. *)
Theorem C34_polynomials :
  forall (c : list R) (x : R), polyval c x = power_sum c x /\ derivable_pt_lim (polyval c) x (polyval (polyder c) x).
Proof. intros. split; [apply polyval_power_sum|apply polyder_correct]. Qed.
Print Assumptions C34_polynomials.

Theorem C34_polynomials_2d :
  forall (c d : list (list R)) (x y : R), make_poly2d c = Ok d -> poly2d d x y = power_sum2 c (List.length (hd [] c)) x y.
Proof. intros c d x y H. apply make_poly2d_ok in H. destruct H as (-> & N & W). now apply poly2d_power_sum. Qed.
Print Assumptions C34_polynomials_2d.

(** The velocity handed out is the derivative of the position. *)
Theorem C34_velocity :
  forall (p : ProjectionSet) (t : R), velocity_at (polyxyz (arp_poly p)) t (polyxyz (varp_poly p) t).
Proof. intros. apply polyxyz_velocity. Qed.
Print Assumptions C34_velocity.

Theorem C34_range_rate_is_derivative :
  forall (f : R -> Vec) (t : R) (d p : Vec), velocity_at f t d -> f t <> p ->
  derivable_pt_lim (fun s => distance (f s) p) t (range_rate (f t) d p).
Proof. exact distance_derivative. Qed.
Print Assumptions C34_range_rate_is_derivative.

(** The planar set gives the range and range rate of the image plane point, everywhere. *)
Theorem C34_planar :
  forall (p : ProjectionSet) (xy : R * R) (scp urow ucol : Vec), grid p = PLANE scp urow ucol ->
  let t := t_coa (precise_rrdot p xy) in
  let ipp := mkVec (vx scp + fst xy * vx urow + snd xy * vx ucol) (vy scp + fst xy * vy urow + snd xy * vy ucol)
                   (vz scp + fst xy * vz urow + snd xy * vz ucol) in
  r_coa (precise_rrdot p xy) = distance (polyxyz (arp_poly p) t) ipp + range_bias p /\
  rdot_coa (precise_rrdot p xy) = range_rate (polyxyz (arp_poly p) t) (polyxyz (varp_poly p) t) ipp.
Proof.
  intros p xy scp urow ucol G t ipp. unfold precise_rrdot, grid_specific_projection in *. rewrite G in *. cbn [r_coa rdot_coa t_coa fst snd] in *.
  rewrite distance_eq, range_rate_eq. split; reflexivity.
Qed.
Print Assumptions C34_planar.

(** Polar format: the range is the distance to the scene centre plus the phase gradient term, and
    the range rate is the derivative of that range with the grid location held fixed. *)
Theorem C34_polar_format :
  forall (p : ProjectionSet) (xy : R * R) (scp : Vec) (polar sf : list R), grid p = PFA scp polar sf ->
  let t := t_coa (precise_rrdot p xy) in
  let range := fun s => distance (polyxyz (arp_poly p) s) scp
                        + polyval sf (polyval polar s) * (fst xy * cos (polyval polar s) + snd xy * sin (polyval polar s)) in
  r_coa (precise_rrdot p xy) = range t + range_bias p /\
  (polyxyz (arp_poly p) t <> scp -> derivable_pt_lim range t (rdot_coa (precise_rrdot p xy))).
Proof.
  intros p xy scp polar sf G t range. split.
  - unfold precise_rrdot, grid_specific_projection, range, t. rewrite G, distance_eq. reflexivity.
  - intros N. exact (pfa_derivative scp polar sf p xy t G N).
Qed.
Print Assumptions C34_polar_format.

(** Range migration with closest approach: the range is the hypotenuse of the closest approach
    range and the scaled distance flown since, and the range rate is its derivative. *)
Theorem C34_closest_approach :
  forall (p : ProjectionSet) (xy : R * R) (r_ca : R) (time_poly : list R) (drate : list (list R)), grid p = INCA r_ca time_poly drate ->
  let t := t_coa (precise_rrdot p xy) in
  let t_ca := polyval time_poly (snd xy) in
  let speed := vnorm (polyxyz (varp_poly p) t_ca) in
  let square := fun s => (r_ca + fst xy) ^ 2 + poly2d drate (fst xy) (snd xy) * speed ^ 2 * (s - t_ca) ^ 2 in
  r_coa (precise_rrdot p xy) = sqrt (square t) + range_bias p /\
  (0 < square t -> derivable_pt_lim (fun s => sqrt (square s)) t (rdot_coa (precise_rrdot p xy))) /\
  (t = t_ca -> 0 <= r_ca + fst xy -> r_coa (precise_rrdot p xy) = r_ca + fst xy + range_bias p /\ rdot_coa (precise_rrdot p xy) = 0).
Proof.
  intros p xy r_ca tp dr G t t_ca speed square.
  assert (E : r_coa (precise_rrdot p xy) = sqrt (square t) + range_bias p) by (unfold precise_rrdot, grid_specific_projection, square, t; rewrite G; reflexivity).
  split; [exact E|]. split.
  - intros P. unfold precise_rrdot. cbn [rdot_coa]. exact (inca_derivative r_ca tp dr p xy t _ _ G P).
  - intros T C. split.
    + rewrite E. f_equal. unfold square. rewrite T. replace (_ + _) with ((r_ca + fst xy) * (r_ca + fst xy)) by ring. now apply sqrt_square.
    + unfold precise_rrdot, grid_specific_projection. rewrite G. cbn [rdot_coa snd]. fold t_ca.
      change (poly2d (coa_time_poly p) (fst xy) (snd xy)) with t. rewrite T. ring.
Qed.
Print Assumptions C34_closest_approach.

(** Range-azimuth compression: range offset in metres, azimuth offset as a change of the cosine of
    the Doppler cone angle. *)
Theorem C34_compressed :
  forall (p : ProjectionSet) (xy : R * R) (scp : Vec) (az_sf : R), grid p = RGAZCOMP scp az_sf ->
  let t := t_coa (precise_rrdot p xy) in
  let arp := polyxyz (arp_poly p) t in let varp := polyxyz (varp_poly p) t in
  r_coa (precise_rrdot p xy) = distance arp scp + fst xy + range_bias p /\
  (varp <> vzero -> - rdot_coa (precise_rrdot p xy) / vnorm varp = - range_rate arp varp scp / vnorm varp + az_sf * snd xy).
Proof.
  intros p xy scp az G t arp varp. rewrite distance_eq, range_rate_eq. unfold precise_rrdot, grid_specific_projection. rewrite G. cbn [r_coa rdot_coa t_coa fst snd].
  split; [reflexivity|]. intros V. change (polyxyz (varp_poly p) _) with varp. change (polyxyz (arp_poly p) _) with arp.
  pose proof (vnorm_pos_iff _ V).
  generalize (vdot varp (vsub arp scp) / vnorm (vsub arp scp)). intros k. field. lra.
Qed.
Print Assumptions C34_compressed.

(** At the grid origin the sets that refer to a scene centre give its range and range rate. *)
Theorem C34_scene_centre :
  forall (p : ProjectionSet) (scp : Vec),
  (exists polar sf, grid p = PFA scp polar sf) \/ (exists k, grid p = RGAZCOMP scp k) \/ (exists u w, grid p = PLANE scp u w) ->
  let t := t_coa (precise_rrdot p (0, 0)) in
  r_coa (precise_rrdot p (0, 0)) = distance (polyxyz (arp_poly p) t) scp + range_bias p /\
  rdot_coa (precise_rrdot p (0, 0)) = range_rate (polyxyz (arp_poly p) t) (polyxyz (varp_poly p) t) scp.
Proof.
  intros p scp H t. rewrite distance_eq, range_rate_eq.
  destruct H as [(polar & sf & G)|[(k & G)|(u & w & G)]]; unfold precise_rrdot, grid_specific_projection, t; rewrite G; cbn [r_coa rdot_coa t_coa fst snd precise_rrdot].
  - split; ring.
  - split; ring.
  - replace (vadd (vadd scp (vscale 0 u)) (vscale 0 w)) with scp by vec_ring. split; reflexivity.
Qed.
Print Assumptions C34_scene_centre.

(** Adjustable offsets shift position, velocity and range, and nothing else. *)
Theorem C34_offsets :
  forall (p : ProjectionSet) (xy : R * R),
  let q := mkProjectionSet (grid p) (coa_time_poly p) (arp_poly p) vzero vzero 0 in
  r_coa (precise_rrdot p xy) = r_coa (precise_rrdot q xy) + range_bias p /\
  rdot_coa (precise_rrdot p xy) = rdot_coa (precise_rrdot q xy) /\
  t_coa (precise_rrdot p xy) = t_coa (precise_rrdot q xy) /\
  arp_coa (precise_rrdot p xy) = vadd (arp_coa (precise_rrdot q xy)) (delta_arp p) /\
  varp_coa (precise_rrdot p xy) = vadd (varp_coa (precise_rrdot q xy)) (delta_varp p).
Proof.
  intros p xy q. unfold q, precise_rrdot. cbn [r_coa rdot_coa t_coa arp_coa varp_coa grid coa_time_poly arp_poly delta_arp delta_varp range_bias].
  change (varp_poly (mkProjectionSet (grid p) (coa_time_poly p) (arp_poly p) vzero vzero 0)) with (varp_poly p).
  replace (grid_specific_projection (mkProjectionSet (grid p) (coa_time_poly p) (arp_poly p) vzero vzero 0)) with (grid_specific_projection p) by reflexivity.
  repeat split; [ring|vec_ring|vec_ring].
Qed.
Print Assumptions C34_offsets.

(** The antenna flies along x at 2 m/s, 3 m above a scene centre 4 m to its side. *)
Definition demo_arp : PolyXYZ := mkPolyXYZ [0; 2] [0] [3].
Definition demo_set (g : Grid) : ProjectionSet := mkProjectionSet g [[0]] demo_arp (mkVec 1 0 0) (mkVec 0 1 0) 10.
Example C34_non_vacuous :
  let p := demo_set (PLANE (mkVec 0 4 0) (mkVec 1 0 0) (mkVec 0 1 0)) in
  precise_rrdot p (0, 0) = mkCoa 15 0 0 (mkVec 1 0 3) (mkVec 2 1 0) /\
  rdot_coa (precise_rrdot p (4, -4)) = - 8 / 5 /\
  polyder [5; 6; 7] = [1 * 6; 2 * 7] /\
  power_sum2 [[1; 2]; [3; 4]] 2 10 100 = 4231.
Proof.
  cbv zeta. split; [|split; [|split]].
  - unfold precise_rrdot, demo_set, grid_specific_projection, varp_poly, demo_arp, poly2d, polyxyz. cbn [grid coa_time_poly arp_poly delta_arp delta_varp range_bias fst snd polyval_rows polyval x_polynomial y_polynomial z_polynomial polyxyz_deriv polyder scale_from INR].
    assert (E : vnorm (vsub (mkVec (0 + (2 + 0 * (0 + 0 * 0)) * (0 + 0 * 0)) (0 + 0 * (0 + 0 * 0)) (3 + 0 * (0 + 0 * 0))) (vadd (vadd (mkVec 0 4 0) (vscale 0 (mkVec 1 0 0))) (vscale 0 (mkVec 0 1 0)))) = 5).
    { apply vnorm_of_sqr; [lra|]. unfold vdot. cbn. ring. }
    rewrite E. unfold vdot, vadd. cbn. f_equal; try field; f_equal; field.
  - unfold precise_rrdot, demo_set, grid_specific_projection, varp_poly, demo_arp, poly2d, polyxyz. cbn [grid coa_time_poly arp_poly delta_arp delta_varp range_bias fst snd polyval_rows polyval x_polynomial y_polynomial z_polynomial polyxyz_deriv polyder scale_from INR rdot_coa].
    assert (E : vnorm (vsub (mkVec (0 + (2 + 0 * (0 + 0 * -4)) * (0 + 0 * -4)) (0 + 0 * (0 + 0 * -4)) (3 + 0 * (0 + 0 * -4))) (vadd (vadd (mkVec 0 4 0) (vscale 4 (mkVec 1 0 0))) (vscale (-4) (mkVec 0 1 0)))) = 5).
    { apply vnorm_of_sqr; [lra|]. unfold vdot. cbn. ring. }
    rewrite E. unfold vdot, vadd. cbn. field.
  - cbn. f_equal.
  - unfold power_sum2, total. cbn. ring.
Qed.

(** The other grids over the same track: polar format with a phase gradient, closest approach and
    range-azimuth compression. *)
Example C34_grids_non_vacuous :
  (let p := demo_set (PFA (mkVec 0 4 0) [0; 1] [2]) in
   r_coa (precise_rrdot p (3, 7)) = 5 + 2 * 3 + 10 /\
   derivable_pt_lim (fun s => distance (polyxyz demo_arp s) (mkVec 0 4 0) + polyval [2] (polyval [0; 1] s) * (3 * cos (polyval [0; 1] s) + 7 * sin (polyval [0; 1] s)))
     0 (rdot_coa (precise_rrdot p (3, 7)))) /\
  (let p := demo_set (INCA 5 [0] [[1]]) in r_coa (precise_rrdot p (2, 0)) = 5 + 2 + 10 /\ rdot_coa (precise_rrdot p (2, 0)) = 0) /\
  (let p := demo_set (RGAZCOMP (mkVec 0 4 0) (1/10)) in
   r_coa (precise_rrdot p (3, 7)) = 5 + 3 + 10 /\ - rdot_coa (precise_rrdot p (3, 7)) / 2 = 1 / 10 * 7).
Proof.
  assert (D : distance (polyxyz demo_arp 0) (mkVec 0 4 0) = 5).
  { replace (polyxyz demo_arp 0) with (mkVec 0 0 3) by (unfold polyxyz, demo_arp; cbn; f_equal; lra). apply demo_distance; cbn; lra. }
  assert (T : forall g xy, t_coa (precise_rrdot (demo_set g) xy) = 0).
  { intros g [x y]. unfold precise_rrdot, demo_set. destruct g; cbn; lra. }
  split; [|split].
  - destruct (C34_polar_format (demo_set (PFA (mkVec 0 4 0) [0; 1] [2])) (3, 7) (mkVec 0 4 0) [0; 1] [2] eq_refl) as [A B].
    cbv zeta in A, B. rewrite T in A, B. split.
    + rewrite A. cbn [arp_poly range_bias demo_set fst snd]. rewrite D.
      replace (polyval [0; 1] 0) with 0 by (cbn; lra). rewrite cos_0, sin_0. replace (polyval [2] 0) with 2 by (cbn; lra). lra.
    + apply B. intros E. apply (f_equal vz) in E. cbn in E. lra.
  - destruct (C34_closest_approach (demo_set (INCA 5 [0] [[1]])) (2, 0) 5 [0] [[1]] eq_refl) as (_ & _ & C). cbv zeta in C.
    rewrite T in C. cbn [fst snd range_bias demo_set] in C. destruct C as [C1 C2]; [cbn; lra | lra |]. split; [rewrite C1; reflexivity | exact C2].
  - destruct (C34_compressed (demo_set (RGAZCOMP (mkVec 0 4 0) (1/10))) (3, 7) (mkVec 0 4 0) (1/10) eq_refl) as [A B]. cbv zeta in A, B.
    rewrite T in A, B. cbn [arp_poly range_bias demo_set fst snd] in A, B. rewrite D in A. split; [exact A|].
    assert (V : polyxyz (varp_poly (demo_set (RGAZCOMP (mkVec 0 4 0) (1 / 10)))) 0 = mkVec 2 0 0).
    { unfold polyxyz, varp_poly, demo_set, demo_arp. cbn. f_equal; lra. }
    rewrite V in B. assert (W : vnorm (mkVec 2 0 0) = 2).
    { unfold vnorm. replace (vdot (mkVec 2 0 0) (mkVec 2 0 0)) with (2 * 2) by (unfold vdot; cbn; lra). apply sqrt_square. lra. }
    rewrite W in B. rewrite B by (intros E; injection E; lra).
    unfold range_rate. rewrite D. unfold polyxyz, demo_arp. cbn. lra.
Qed.
