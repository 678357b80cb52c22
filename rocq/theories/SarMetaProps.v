(** Property theorems for SAR metadata: C38 - C43 and C64. *)
Require Import ZArith Reals String List Lra Lia Bool.
Require Import Verif.Base Verif.BaseFacts Verif.Vec Verif.PolySpec Verif.SicdModel Verif.SicdSpec Verif.SicdProofs Verif.SicdSurfaceProps
  Verif.TransformModel Verif.TransformSpec Verif.TransformProofs Verif.TransformProps Verif.SarMetaModel Verif.SarMetaSpec Verif.SarMetaProofs.
Import ListNotations.
Local Open Scope R_scope.

(** ** C64: polynomials in the metadata *)
Theorem C64_placement :
  forall (p : Poly1), (0 <= order1 p)%Z -> in_order1 p ->
  exists c, poly1d_to_native p = Ok c /\ Z.of_nat (List.length c) = (order1 p + 1)%Z /\
  forall k, nth k c 0 = match given_last (Z.of_nat k) (coefs1 p) with Some v => v | None => 0 end.
Proof.
  intros p O I. unfold poly1d_to_native.
  destruct (set_all1 (coefs1 p) (repeat 0 (Z.to_nat (order1 p + 1)))) as (l & E & L & N).
  { intros c Hc. rewrite repeat_length. apply I in Hc. lia. }
  rewrite repeat_length in L. rewrite E. cbn [bind]. exists l. split; [destruct l; [cbn in L; lia|reflexivity]|]. split; [lia|].
  intros k. rewrite N. destruct (given_last _ _); [reflexivity|]. apply nth_repeat'.
Qed.
Print Assumptions C64_placement.

Theorem C64_sum_of_powers :
  forall (p : Poly1) (x : R), (0 <= order1 p)%Z -> in_order1 p -> distinct1 p ->
  exists c, poly1d_to_native p = Ok c /\ polyval c x = declared1 p x.
Proof.
  intros p x O I D. destruct (C64_placement p O I) as (c & E & _). exists c. split; [exact E|].
  unfold poly1d_to_native in E. destruct (set_all set_coef1 _ _) as [l|] eqn:S; [|discriminate]. cbn [bind] in E.
  assert (l = c) by (destruct l; [discriminate|now injection E]). subst l.
  rewrite polyval_power_sum. eapply set_all1_sum in S.
  - rewrite S. rewrite zero_sum; [unfold declared1; lra|]. intros a Ha. now apply repeat_spec in Ha.
  - exact D.
  - intros d Hd. rewrite repeat_length. apply I in Hd. lia.
  - intros d Hd. apply nth_repeat'.
Qed.
Print Assumptions C64_sum_of_powers.

Theorem C64_exponent_beyond_order :
  forall (p : Poly1) (c : Coef1), In c (coefs1 p) -> (order1 p < exponent1 c)%Z -> (0 <= exponent1 c)%Z -> poly1d_to_native p = Err IndexError.
Proof.
  intros p c I H P. unfold poly1d_to_native. rewrite set_all1_index; [reflexivity|]. exists c. split; [exact I|]. rewrite repeat_length. right. lia.
Qed.
Print Assumptions C64_exponent_beyond_order.

Theorem C64_sum_of_powers_2d :
  forall (p : Poly2) (x y : R), (0 <= order2_1 p)%Z -> (0 <= order2_2 p)%Z -> in_order2 p -> distinct2 p ->
  exists c, poly2d_to_native p = Ok c /\ poly2d c x y = declared2 p x y.
Proof.
  intros p x y O1 O2 I D. unfold poly2d_to_native.
  set (m := Z.to_nat (order2_1 p + 1)). set (n := Z.to_nat (order2_2 p + 1)).
  destruct (set_all2_sum m n (coefs2 p) x y (repeat (repeat 0 n) m) D (repeat_matrix m n)) as (l & E & [M N] & P).
  - intros c Hc. apply I in Hc. unfold m, n. lia.
  - intros c Hc. apply repeat_entry.
  - rewrite E. cbn [bind]. exists l. assert (l <> []) by (intros ->; cbn in M; unfold m in M; lia).
    assert (Mk : make_poly2d l = Ok l).
    { destruct l as [|r l]; [contradiction|]. cbn [make_poly2d]. replace (forallb _ l) with true; [reflexivity|]. symmetry. apply forallb_forall.
      intros q Hq. apply Nat.eqb_eq. rewrite (N q), (N r); auto; [now left|now right]. }
    split; [exact Mk|]. rewrite (poly2d_power_sum l n) by assumption. rewrite P, repeat_sum2. unfold declared2. lra.
Qed.
Print Assumptions C64_sum_of_powers_2d.

Theorem C64_exponent_beyond_order_2d :
  forall (p : Poly2) (c : Coef2), (0 <= order2_1 p)%Z -> (0 <= order2_2 p)%Z -> In c (coefs2 p) ->
  (order2_1 p < exponent2_1 c \/ order2_2 p < exponent2_2 c)%Z -> poly2d_to_native p = Err IndexError.
Proof.
  intros p c O1 O2 I H. unfold poly2d_to_native.
  rewrite (set_all2_index (Z.to_nat (order2_1 p + 1)) (Z.to_nat (order2_2 p + 1))); [reflexivity|apply repeat_matrix|].
  exists c. split; [exact I|]. lia.
Qed.
Print Assumptions C64_exponent_beyond_order_2d.

(** The three coordinates of a position polynomial. *)
Theorem C64_position :
  forall (p : XyzPoly) (t : R),
  (forall q, q = poly_x p \/ q = poly_y p \/ q = poly_z p -> (0 <= order1 q)%Z /\ in_order1 q /\ distinct1 q) ->
  exists c, xyzpoly_to_native p = Ok c /\ polyxyz c t = mkVec (declared1 (poly_x p) t) (declared1 (poly_y p) t) (declared1 (poly_z p) t).
Proof.
  intros p t H.
  destruct (H _ (or_introl eq_refl)) as (O & I & D). destruct (C64_sum_of_powers _ t O I D) as (x & Ex & Px). clear O I D.
  destruct (H _ (or_intror (or_introl eq_refl))) as (O & I & D). destruct (C64_sum_of_powers _ t O I D) as (y & Ey & Py). clear O I D.
  destruct (H _ (or_intror (or_intror eq_refl))) as (O & I & D). destruct (C64_sum_of_powers _ t O I D) as (z & Ez & Pz).
  exists (mkPolyXYZ x y z). unfold xyzpoly_to_native. rewrite Ex, Ey, Ez. split; [reflexivity|].
  unfold polyxyz. cbn. now rewrite Px, Py, Pz.
Qed.
Print Assumptions C64_position.

(** Without any room for coefficients there is no polynomial: numpy refuses empty and ragged lists. *)
Theorem C64_no_coefficients :
  (forall p, (order1 p < 0)%Z -> poly1d_to_native p = Err (match coefs1 p with [] => ValueError | _ => IndexError end)) /\
  make_poly2d [] = Err ValueError /\
  forall r r' l, List.length r' <> List.length r -> In r' l -> make_poly2d (r :: l) = Err ValueError.
Proof.
  split; [|split; [reflexivity|]].
  - intros p H. unfold poly1d_to_native. replace (Z.to_nat (order1 p + 1)) with 0%nat by lia. cbn [repeat].
    destruct (coefs1 p) as [|c l]; [reflexivity|].
    cbn [set_all]. unfold set_coef1, py_set. replace (py_index (List.length []) (exponent1 c)) with (@None nat); [reflexivity|].
    unfold py_index. cbn [List.length Z.of_nat].
    destruct (Z.leb_spec 0 (exponent1 c)), (Z.ltb_spec (exponent1 c) 0), (Z.leb_spec (- 0) (exponent1 c)); cbn; try reflexivity; lia.
  - intros r r' l N I. cbn [make_poly2d]. replace (forallb _ l) with false; [reflexivity|]. symmetry.
    apply Bool.not_true_iff_false. intros F. rewrite forallb_forall in F. apply F in I. apply Nat.eqb_eq in I. congruence.
Qed.
Print Assumptions C64_no_coefficients.

Example C64_non_vacuous :
  let p := mkPoly1 [mkCoef1 7 2; mkCoef1 5 0] 3 in
  in_order1 p /\ distinct1 p /\ poly1d_to_native p = Ok [5; 0; 7; 0] /\
  poly2d_to_native (mkPoly2 [mkCoef2 3 1 0; mkCoef2 4 0 2] 1 2) = Ok [[0; 0; 4]; [3; 0; 0]] /\
  poly1d_to_native (mkPoly1 [mkCoef1 7 4] 3) = Err IndexError.
Proof.
  split; [intros c [<- | [<- | []]]; cbn; lia|]. split; [|repeat split; reflexivity].
  repeat constructor; cbn; intuition discriminate.
Qed.

(** ** C39: SICD chip metadata *)
Lemma sicd_run_originals d qs : original_first_row (sicd_run (sicd_updater d) qs) = first_row (image_data d) /\
  original_first_col (sicd_run (sicd_updater d) qs) = first_col (image_data d) /\
  exists i, sicd_doc (sicd_run (sicd_updater d) qs) = with_image_data d i.
Proof.
  unfold sicd_run. rewrite <- fold_left_rev_right. induction (rev qs) as [|q r IH]; cbn [fold_right].
  - split; [reflexivity|]. split; [reflexivity|]. exists (image_data d). now destruct d.
  - destruct IH as (A & B & i & C). set (u := fold_right _ _ r) in *. unfold sicd_update. destruct (snd q) as [[w h]|].
    + destruct (_ || _)%bool; cbn [fst]; [eauto|]. cbn. rewrite A, B, C. split; [reflexivity|]. split; [reflexivity|]. eexists. reflexivity.
    + cbn. rewrite A, B, C. split; [reflexivity|]. split; [reflexivity|]. eexists. reflexivity.
Qed.

(** Whatever was requested before, a chip's metadata is that of a fresh updater, and the answer to
    the request is the same. *)
Theorem C39_history_independent :
  forall (d : SicdMeta) (history : list request) (q : request),
  let u := sicd_run (sicd_updater d) history in
  snd (sicd_update u q) = snd (sicd_update (sicd_updater d) q) /\
  (snd (sicd_update u q) = Ok tt -> sicd_doc (fst (sicd_update u q)) = sicd_doc (fst (sicd_update (sicd_updater d) q))).
Proof.
  intros d history q u. destruct (sicd_run_originals d history) as (A & B & i & C). fold u in A, B, C.
  unfold sicd_update. destruct (snd q) as [[w h]|].
  - destruct (_ || _)%bool; cbn; [split; [reflexivity|discriminate]|]. rewrite A, B, C. auto.
  - cbn. rewrite A, B, C. auto.
Qed.
Print Assumptions C39_history_independent.

(** What a chip's metadata says; everything else is left as it was. *)
Theorem C39_chip_metadata :
  forall (d : SicdMeta) (b : Bounds) (size : option (Z * Z)), size = None \/ size = Some (bw b, bh b) ->
  sicd_update (sicd_updater d) (b, size) =
    (mkSicdUpdater (with_image_data d (mkImageData (bh b) (bw b) (first_row (image_data d) + by_ b) (first_col (image_data d) + bx b)))
       (first_row (image_data d)) (first_col (image_data d)), Ok tt).
Proof. intros d b size [-> | ->]; unfold sicd_update; cbn; [reflexivity|]. now rewrite !Z.eqb_refl. Qed.
Print Assumptions C39_chip_metadata.

Theorem C39_scaling_refused :
  forall (u : SicdUpdater) (b : Bounds) (w h : Z), (w, h) <> (bw b, bh b) ->
  sicd_update u (b, Some (w, h)) = (u, Err ValueError).
Proof.
  intros u b w h N. unfold sicd_update. cbn. destruct (Z.eqb_spec w (bw b)) as [->|]; [|reflexivity].
  destruct (Z.eqb_spec h (bh b)) as [->|]; [congruence|reflexivity].
Qed.
Print Assumptions C39_scaling_refused.

Definition demo_poly : Poly1 := mkPoly1 [mkCoef1 1 0] 0.
Definition demo_meta : SicdMeta :=
  mkSicdMeta (mkImageData 1000 2000 30 40) 20 10 (mkVec 0 4 0) (mkVec 1 0 0) (mkVec 0 1 0) 2 (1/2)
    (mkPoly2 [mkCoef2 0 0 0] 0 0) (mkXyzPoly (mkPoly1 [mkCoef1 2 1] 1) (mkPoly1 [] 0) (mkPoly1 [mkCoef1 3 0] 0))
    GridPLANE AlgoOTHER None None None (mkVec 0 0 3) (mkVec 2 0 0) "L".
Example C39_non_vacuous :
  image_data (sicd_doc (sicd_run (sicd_updater demo_meta) [(mkBounds 5 6 7 8, None); (mkBounds 1 2 3 4, Some (9, 9)%Z); (mkBounds 1 2 3 4, None)]))
  = mkImageData 4 3 32 41.
Proof. reflexivity. Qed.

(** ** C40: chips of chips *)
Theorem C40_chip_of_chip :
  forall (d : SicdMeta) (a b : Bounds),
  let chip_doc := sicd_doc (fst (sicd_update (sicd_updater d) (a, None))) in
  sicd_doc (fst (sicd_update (sicd_updater chip_doc) (b, None))) = sicd_doc (fst (sicd_update (sicd_updater d) (within a b, None))).
Proof. intros d a b. cbn. unfold with_image_data. cbn. f_equal. f_equal; lia. Qed.
Print Assumptions C40_chip_of_chip.
Example C40_non_vacuous : within (mkBounds 5 6 70 80) (mkBounds 1 2 3 4) = mkBounds 6 8 3 4. Proof. reflexivity. Qed.

(** ** C38: chips geolocate like the full image, from metadata to coordinates *)
Lemma build_chip d i : sicd_from_dataclass (with_image_data d i) =
  bind (sicd_from_dataclass d) (fun b =>
  let f := mkImage (IZR (first_col i)) (IZR (first_row i)) in
  Ok match b with
     | Complete m => Complete (with_first_pixel m f)
     | NoProjection c => NoProjection (mkConverter (scp_pixel c) (scp_ecf c) (u_row c) (u_col c) (row_ss c) (col_ss c) f)
     end).
Proof.
  unfold sicd_from_dataclass. cbn [time_coa arppoly with_image_data].
  destruct (poly2d_to_native (time_coa d)) as [coa|]; [|reflexivity]. cbn [bind].
  destruct (xyzpoly_to_native (arppoly d)) as [arp|]; [|reflexivity]. cbn [bind].
  change (projection_set (with_image_data d i) coa arp) with (projection_set d coa arp).
  destruct (projection_set d coa arp) as [[[p|] g]|]; reflexivity.
Qed.

Theorem C38_from_metadata :
  forall to_geodetic to_geocentric (d : SicdMeta) (b : Bounds) (size : option (Z * Z)) (u : SicdUpdater) (full : Built),
  sicd_update (sicd_updater d) (b, size) = (u, Ok tt) -> sicd_build d = Some full ->
  exists part, sicd_build (sicd_doc u) = Some part /\
  (forall x y em, built_image_to_world to_geodetic to_geocentric part (mkImage x y) em
                  = built_image_to_world to_geodetic to_geocentric full (mkImage (x + IZR (bx b)) (y + IZR (by_ b))) em) /\
  (forall w, built_world_to_image to_geodetic to_geocentric part w
             = bind (built_world_to_image to_geodetic to_geocentric full w) (fun i => Ok (mkImage (ix i - IZR (bx b)) (iy i - IZR (by_ b))))).
Proof.
  intros tg tc d b size u full U F.
  assert (Du : sicd_doc u = with_image_data d (mkImageData (bh b) (bw b) (first_row (image_data d) + by_ b) (first_col (image_data d) + bx b))).
  { unfold sicd_update in U. cbn [fst snd] in U. destruct size as [[w h]|]; [destruct (_ || _)%bool; [discriminate|]|]; injection U as <-; reflexivity. }
  unfold sicd_build in *. destruct (sicd_from_dataclass d) as [m|] eqn:E; [|discriminate]. injection F as <-.
  rewrite Du, build_chip, E. cbn [bind first_col first_row]. eexists. split; [reflexivity|].
  destruct m as [m|c]; [|split; reflexivity].
  assert (Fp : first_pixel (converter m) = mkImage (IZR (first_col (image_data d))) (IZR (first_row (image_data d)))).
  { unfold sicd_from_dataclass in E. destruct (poly2d_to_native (time_coa d)) as [coa|]; [|discriminate]. cbn [bind] in E.
    destruct (xyzpoly_to_native (arppoly d)) as [arp|]; [|discriminate]. cbn [bind] in E.
    destruct (projection_set d coa arp) as [[[p|] g]|]; [|discriminate|discriminate]. cbn [bind fst snd] in E. injection E as <-. reflexivity. }
  rewrite !plus_IZR. split.
  - intros x y em. cbn [built_image_to_world].
    pose proof (C38_image_to_world tg tc m (IZR (bx b)) (IZR (by_ b)) x y em) as H. cbv zeta in H. rewrite Fp in H. exact H.
  - intros w. cbn [built_world_to_image].
    pose proof (C38_world_to_image tg tc m (IZR (bx b)) (IZR (by_ b)) w) as H. cbv zeta in H. rewrite Fp in H. exact H.
Qed.
Print Assumptions C38_from_metadata.

(** Metadata from which no model can be built stays so for chips. *)
Theorem C38_no_model :
  forall (d : SicdMeta) (q : request), sicd_build d = None -> sicd_build (sicd_doc (fst (sicd_update (sicd_updater d) q))) = None.
Proof.
  intros d q H. unfold sicd_build in *. destruct (sicd_from_dataclass d) as [m|e] eqn:E; [discriminate|].
  assert (Hi : exists i, sicd_doc (fst (sicd_update (sicd_updater d) q)) = with_image_data d i).
  { unfold sicd_update. destruct (snd q) as [[w h]|]; [destruct (_ || _)%bool|]; cbn; eauto. exists (image_data d). now destruct d. }
  destruct Hi as (i & ->). now rewrite build_chip, E.
Qed.
Print Assumptions C38_no_model.

(** An RGAZIM image formed by an algorithm other than PFA or RGAZCOMP gets a model that fails
    whenever it is used, instead of no model. *)
Theorem C38_unusable_model :
  forall to_geodetic to_geocentric (d : SicdMeta) (b : Built) (i : Image) (em : option Terrain) (w : Geodetic),
  grid_type d = RGAZIM -> form_algo d = AlgoRMA \/ form_algo d = AlgoOTHER -> sicd_build d = Some b ->
  built_image_to_world to_geodetic to_geocentric b i em = Err AttributeError /\
  built_world_to_image to_geodetic to_geocentric b w = Err AttributeError.
Proof.
  intros tg tc d b i em w G A H. unfold sicd_build, sicd_from_dataclass in H.
  destruct (poly2d_to_native (time_coa d)) as [coa|]; [|discriminate]. cbn [bind] in H.
  destruct (xyzpoly_to_native (arppoly d)) as [arp|]; [|discriminate]. cbn [bind] in H.
  unfold projection_set in H. rewrite G in H. destruct A as [A|A]; rewrite A in H; cbn in H; injection H as <-; split; reflexivity.
Qed.
Print Assumptions C38_unusable_model.

(** The blocks that the grid type and the algorithm call for must be there: without them there is no
    model, and the reason is the attribute access on None. *)
Theorem C38_missing_block :
  forall (d : SicdMeta) coa arp, poly2d_to_native (time_coa d) = Ok coa -> xyzpoly_to_native (arppoly d) = Ok arp ->
  (grid_type d = RGAZIM /\ form_algo d = AlgoPFA /\ pfa_meta d = None \/
   grid_type d = RGAZIM /\ form_algo d = AlgoRGAZCOMP /\ az_sf d = None \/
   grid_type d = RGZERO /\ inca_meta d = None) ->
  sicd_from_dataclass d = Err AttributeError /\ sicd_build d = None.
Proof.
  intros d coa arp C A H. assert (E : sicd_from_dataclass d = Err AttributeError).
  { unfold sicd_from_dataclass. rewrite C. cbn [bind]. rewrite A. cbn [bind]. unfold projection_set.
    destruct H as [(G & F & N)|[(G & F & N)|(G & N)]]; rewrite G; [rewrite F, N | rewrite F, N | rewrite N]; reflexivity. }
  split; [exact E|]. unfold sicd_build. now rewrite E.
Qed.
Print Assumptions C38_missing_block.

Example C38_metadata_non_vacuous :
  (exists m, sicd_build demo_meta = Some (Complete m) /\ first_pixel (converter m) = mkImage 40 30) /\
  exists c, sicd_build (mkSicdMeta (mkImageData 1000 2000 30 40) 20 10 (mkVec 0 4 0) (mkVec 1 0 0) (mkVec 0 1 0) 2 (1/2)
    (mkPoly2 [mkCoef2 0 0 0] 0 0) (mkXyzPoly demo_poly demo_poly demo_poly) RGAZIM AlgoOTHER None None None (mkVec 0 0 3) (mkVec 2 0 0) "L")
    = Some (NoProjection c).
Proof. split; [eexists; split; reflexivity|eexists; reflexivity]. Qed.

(** ** C41: SIDD chip coordinates *)
Theorem C41_affine :
  forall (c : GeoChip) (f : AffineMap) (p : R * R), chip_is c f -> (chip_cols c <> 1)%Z -> (chip_rows c <> 1)%Z ->
  chipped_coordinate_to_full p (chip_cols c) (chip_rows c) (upper_left c) (upper_right c) (lower_right c) (lower_left c) = Ok (apply_affine f p).
Proof.
  intros c f p (A & B & C & D) N1 N2. unfold chipped_coordinate_to_full.
  destruct (Z.eqb_spec (chip_rows c) 1); [contradiction|]. destruct (Z.eqb_spec (chip_cols c) 1); [contradiction|].
  assert (X : IZR (chip_cols c) - 1 <> 0) by (intros E; apply N1; apply eq_IZR; lra).
  assert (Y : IZR (chip_rows c) - 1 <> 0) by (intros E; apply N2; apply eq_IZR; lra).
  rewrite A, B, C, D. unfold apply_affine. cbn [fst snd]. f_equal. f_equal; field; split; assumption.
Qed.
Print Assumptions C41_affine.

(** The corners, whatever quadrilateral they form. *)
Theorem C41_corners :
  forall (cols rows : Z) (ul ur lr ll : R * R), (cols <> 1)%Z -> (rows <> 1)%Z ->
  let full p := chipped_coordinate_to_full p cols rows ul ur lr ll in
  full (0, 0) = Ok ul /\ full (IZR cols - 1, 0) = Ok ur /\ full (IZR cols - 1, IZR rows - 1) = Ok lr /\ full (0, IZR rows - 1) = Ok ll.
Proof.
  intros cols rows ul ur lr ll N1 N2 full.
  assert (X : IZR cols - 1 <> 0) by (intros E; apply N1; apply eq_IZR; lra).
  assert (Y : IZR rows - 1 <> 0) by (intros E; apply N2; apply eq_IZR; lra).
  unfold full, chipped_coordinate_to_full. destruct (Z.eqb_spec rows 1); [contradiction|]. destruct (Z.eqb_spec cols 1); [contradiction|].
  destruct ul, ur, lr, ll. cbn [fst snd]. repeat split; f_equal; f_equal; field; auto.
Qed.
Print Assumptions C41_corners.

(** Along each line of the chip parallel to an edge the mapping is affine, whatever the corners. *)
Theorem C41_lines :
  forall (cols rows : Z) (ul ur lr ll p q m : R * R) (s : R), (cols <> 1)%Z -> (rows <> 1)%Z ->
  fst p = fst q \/ snd p = snd q -> m = (fst p + s * (fst q - fst p), snd p + s * (snd q - snd p)) ->
  let full p := chipped_coordinate_to_full p cols rows ul ur lr ll in
  exists fp fq, full p = Ok fp /\ full q = Ok fq /\ full m = Ok (fst fp + s * (fst fq - fst fp), snd fp + s * (snd fq - snd fp)).
Proof.
  intros cols rows ul ur lr ll p q m s N1 N2 H -> full.
  assert (X : IZR cols - 1 <> 0) by (intros E; apply N1; apply eq_IZR; lra).
  assert (Y : IZR rows - 1 <> 0) by (intros E; apply N2; apply eq_IZR; lra).
  unfold full, chipped_coordinate_to_full. destruct (Z.eqb_spec rows 1); [contradiction|]. destruct (Z.eqb_spec cols 1); [contradiction|].
  eexists. eexists. split; [reflexivity|]. split; [reflexivity|]. cbn [fst snd].
  destruct H as [H|H]; rewrite H; f_equal; f_equal; field; auto.
Qed.
Print Assumptions C41_lines.

Theorem C41_window_shift :
  forall (c : GeoChip) (b : Bounds) (x y : R), is_window c b -> (bw b <> 1)%Z -> (bh b <> 1)%Z ->
  chipped_coordinate_to_full (x, y) (chip_cols c) (chip_rows c) (upper_left c) (upper_right c) (lower_right c) (lower_left c)
  = Ok (IZR (bx b) + x, IZR (by_ b) + y).
Proof.
  intros c b x y (W & H & A & B & C & D) N1 N2.
  rewrite (C41_affine c (mkAffineMap (IZR (bx b), IZR (by_ b)) (1, 0) (0, 1))).
  - unfold apply_affine. cbn. f_equal. f_equal; ring.
  - unfold chip_is, apply_affine. rewrite A, B, C, D, W, H, !minus_IZR, !plus_IZR. cbn [fst snd origin per_x per_y]. repeat split; f_equal; ring.
  - congruence.
  - congruence.
Qed.
Print Assumptions C41_window_shift.

Theorem C41_single_pixel_wide :
  forall (cols rows : Z) (ul ur lr ll p : R * R), cols = 1%Z \/ rows = 1%Z ->
  chipped_coordinate_to_full p cols rows ul ur lr ll = Err ZeroDivisionError.
Proof.
  intros cols rows ul ur lr ll p [-> | ->]; unfold chipped_coordinate_to_full; [destruct (rows =? 1)%Z; reflexivity|reflexivity].
Qed.
Print Assumptions C41_single_pixel_wide.

Example C41_non_vacuous :
  is_window (mkGeoChip 3 4 (10, 20) (12, 20) (12, 23) (10, 23)) (mkBounds 10 20 3 4) /\
  chipped_coordinate_to_full (1, 2) 3 4 (10, 20) (12, 20) (12, 23) (10, 23) = Ok (11, 22) /\
  chip_is (mkGeoChip 3 4 (0, 0) (0, 2) (3, 2) (3, 0)) (mkAffineMap (0, 0) (0, 1) (1, 0)).
Proof.
  split; [repeat split; cbn; f_equal; lra|]. split.
  - unfold chipped_coordinate_to_full. cbn [Z.eqb Pos.eqb fst snd]. f_equal. f_equal; field.
  - unfold chip_is, apply_affine. cbn [fst snd origin per_x per_y chip_cols chip_rows upper_left upper_right lower_right lower_left]. repeat split; f_equal; ring.
Qed.

(** ** C42: SIDD chip metadata *)

(** The first chip of an unchipped image. *)
Theorem C42_first_chip :
  forall (d : SiddMeta) (b : Bounds), chip d = None ->
  exists c, sidd_update d (b, None) = (with_chip d c, Ok tt) /\ is_window c b.
Proof.
  intros d b H. unfold sidd_update, sidd_update_doc. rewrite H. cbn [bind fst snd]. eexists. split; [reflexivity|]. repeat split.
Qed.
Print Assumptions C42_first_chip.

(** A chip of an image that is itself a chip: corners are mapped through the existing chip's
    transform, for every output size. *)
Theorem C42_chip_of_chip :
  forall (d : SiddMeta) (c : GeoChip) (f : AffineMap) (b : Bounds) (size : option (Z * Z)),
  chip d = Some c -> chip_is c f -> (chip_cols c <> 1)%Z -> (chip_rows c <> 1)%Z ->
  let x0 := IZR (bx b) in let y0 := IZR (by_ b) in
  let x1 := IZR (bx b + bw b - 1) in let y1 := IZR (by_ b + bh b - 1) in
  let s := match size with None => (bw b, bh b) | Some s => s end in
  sidd_update d (b, size) =
    (with_chip d (mkGeoChip (fst s) (snd s) (apply_affine f (x0, y0)) (apply_affine f (x1, y0)) (apply_affine f (x1, y1)) (apply_affine f (x0, y1))), Ok tt).
Proof.
  intros d c f b size H F N1 N2 x0 y0 x1 y1 s. unfold sidd_update, sidd_update_doc. rewrite H. cbn [fst snd].
  rewrite !(C41_affine c f) by assumption. reflexivity.
Qed.
Print Assumptions C42_chip_of_chip.

Theorem C42_window_of_window :
  forall (d : SiddMeta) (c : GeoChip) (a b : Bounds),
  chip d = Some c -> is_window c a -> (bw a <> 1)%Z -> (bh a <> 1)%Z ->
  exists c', sidd_update d (b, None) = (with_chip d c', Ok tt) /\ is_window c' (within a b).
Proof.
  intros d c a b H W N1 N2. unfold sidd_update, sidd_update_doc. rewrite H. cbn [fst snd].
  rewrite !(C41_window_shift c a) by assumption. cbn [bind]. eexists. split; [reflexivity|].
  unfold is_window, within. cbn. rewrite <- !plus_IZR. repeat split; f_equal; f_equal; lia.
Qed.
Print Assumptions C42_window_of_window.

(** So the second chip made with one updater is recorded as if it had been cut out of the first. *)
Theorem C42_history_dependent :
  forall (d : SiddMeta) (a b : Bounds), chip d = None -> (bw a <> 1)%Z -> (bh a <> 1)%Z ->
  exists c, chip (sidd_run d [(a, None); (b, None)]) = Some c /\ is_window c (within a b).
Proof.
  intros d a b H N1 N2. unfold sidd_run. cbn [fold_left]. destruct (C42_first_chip d a H) as (c & -> & W). cbn [fst].
  destruct (C42_window_of_window (with_chip d c) c a b eq_refl W N1 N2) as (c' & -> & W'). exists c'. split; [reflexivity|exact W'].
Qed.
Print Assumptions C42_history_dependent.

Theorem C42_history_independent_refuted :
  ~ (forall (d : SiddMeta) (history : list request) (q : request),
     chip (fst (sidd_update (sidd_run d history) q)) = chip (fst (sidd_update d q))).
Proof.
  intros H. pose (d := mkSiddMeta vzero 0 0 vzero vzero 1 1 (mkPoly2 [] 0 0) (mkXyzPoly demo_poly demo_poly demo_poly) None).
  pose (a := mkBounds 100 100 10 10). pose (b := mkBounds 200 200 10 10).
  specialize (H d [(a, None)] (b, None)).
  destruct (C42_history_dependent d a b eq_refl) as (c & E & W); [discriminate|discriminate|].
  destruct (C42_first_chip d b eq_refl) as (c' & E' & W').
  change (sidd_run d [(a, None); (b, None)]) with (fst (sidd_update (sidd_run d [(a, None)]) (b, None))) in E.
  rewrite E, E' in H. injection H as ->. destruct W as (_ & _ & U & _). destruct W' as (_ & _ & U' & _). rewrite U in U'. cbn in U'. injection U'. lra.
Qed.
Print Assumptions C42_history_independent_refuted.

(** A single row or column chip makes every further request fail; a failed request changes nothing. *)
Theorem C42_thin_chip_blocks :
  forall (d : SiddMeta) (c : GeoChip) (q : request), chip d = Some c -> chip_cols c = 1%Z \/ chip_rows c = 1%Z ->
  sidd_update d q = (d, Err ZeroDivisionError).
Proof. intros d c q H T. unfold sidd_update, sidd_update_doc. rewrite H, C41_single_pixel_wide by exact T. reflexivity. Qed.
Print Assumptions C42_thin_chip_blocks.

Example C42_non_vacuous :
  exists c, chip (fst (sidd_update (mkSiddMeta vzero 0 0 vzero vzero 1 1 (mkPoly2 [] 0 0) (mkXyzPoly demo_poly demo_poly demo_poly)
                                       (Some (mkGeoChip 3 4 (10, 20) (12, 20) (12, 23) (10, 23)))) (mkBounds 1 1 2 2, None))) = Some c /\
  is_window c (mkBounds 11 21 2 2).
Proof.
  set (d := mkSiddMeta _ _ _ _ _ _ _ _ _ _).
  destruct (C42_window_of_window d (mkGeoChip 3 4 (10, 20) (12, 20) (12, 23) (10, 23)) (mkBounds 10 20 3 4) (mkBounds 1 1 2 2) eq_refl) as (c & E & W).
  - apply C41_non_vacuous.
  - discriminate.
  - discriminate.
  - exists c. rewrite E. split; [reflexivity|exact W].
Qed.

(** ** C43: SIDD chip metadata and the SIDD sensor model *)
Definition chip_map (b : Bounds) (ow oh : Z) : Projective :=
  mkProjective (- IZR (bx b) * IZR ow / (IZR (bw b) - 1)) (IZR ow / (IZR (bw b) - 1)) 0
               (- IZR (by_ b) * IZR oh / (IZR (bh b) - 1)) 0 (IZR oh / (IZR (bh b) - 1)) 0 0.

(** The model built from the metadata of a chip takes chip pixel (x, y) for the full image pixel
    (x0 + x (w-1)/w, y0 + y (h-1)/h): the recorded corners are the centres of the corner pixels, but
    are read as the outer edge.  [ow] and [oh] are the size of the chip written. *)
Theorem C43_exact :
  forall lstsq to_geodetic to_geocentric (d : SiddMeta) (b : Bounds) (size : option (Z * Z)) (d' : SiddMeta) (full part : SiddModel),
  least_squares lstsq -> chip d = None -> sidd_update d (b, size) = (d', Ok tt) ->
  sidd_from_dataclass lstsq d = Ok full -> sidd_from_dataclass lstsq d' = Ok part ->
  let '(ow, oh) := match size with None => (bw b, bh b) | Some s => s end in
  (bw b <> 1)%Z -> (bh b <> 1)%Z -> (ow <> 0)%Z -> (oh <> 0)%Z ->
  (forall x y em, sidd_image_to_world to_geodetic to_geocentric part (mkImage x y) em =
     sidd_image_to_world to_geodetic to_geocentric full
       (mkImage (IZR (bx b) + x * (IZR (bw b) - 1) / IZR ow) (IZR (by_ b) + y * (IZR (bh b) - 1) / IZR oh)) em) /\
  (forall w, sidd_world_to_image to_geodetic to_geocentric part w =
     bind (sidd_world_to_image to_geodetic to_geocentric full w) (fun i =>
       Ok (mkImage ((ix i - IZR (bx b)) * IZR ow / (IZR (bw b) - 1)) ((iy i - IZR (by_ b)) * IZR oh / (IZR (bh b) - 1))))).
Proof.
  intros lstsq tg tc d b size d' full part LS Ch U Fu Pa.
  destruct (match size with None => (bw b, bh b) | Some s => s end) as [ow oh] eqn:Es. intros N1 N2 O1 O2.
  unfold sidd_update, sidd_update_doc in U. rewrite Ch in U. cbn [bind fst snd] in U. injection U as <-. rewrite Es in Pa. cbn [fst snd] in Pa.
  unfold sidd_from_dataclass in Fu, Pa. rewrite Ch in Fu.
  change (sidd_full_model (with_chip d _)) with (sidd_full_model d) in Pa.
  destruct (sidd_full_model d) as [m|]; [|discriminate]. cbn [bind] in Fu, Pa. injection Fu as <-.
  cbn [chip with_chip] in Pa. unfold full_corners, chip_corners in Pa. cbn [upper_left upper_right lower_right lower_left chip_cols chip_rows] in Pa.
  destruct (estimate lstsq _ _) as [t|] eqn:E; [|discriminate]. cbn [bind] in Pa. injection Pa as <-.
  assert (X : IZR (bw b) - 1 <> 0) by (intros F; apply N1; apply eq_IZR; lra).
  assert (Y : IZR (bh b) - 1 <> 0) by (intros F; apply N2; apply eq_IZR; lra).
  assert (OW : IZR ow <> 0) by (intros F; apply O1; now apply eq_IZR).
  assert (OH : IZR oh <> 0) by (intros F; apply O2; now apply eq_IZR).
  assert (T : Forall2 (takes (chip_map b ow oh))
    [(IZR (bx b), IZR (by_ b)); (IZR (bx b + bw b - 1), IZR (by_ b)); (IZR (bx b + bw b - 1), IZR (by_ b + bh b - 1)); (IZR (bx b), IZR (by_ b + bh b - 1))]
    [(0, 0); (IZR ow, 0); (IZR ow, IZR oh); (0, IZR oh)]).
  { rewrite !minus_IZR, !plus_IZR.
    repeat constructor; unfold takes, denominator, chip_map; cbn [fst snd a0 a1 a2 b0 b1 b2 c0 c1]; try lra; field; lra. }
  assert (t = chip_map b ow oh) as ->.
  { pose proof (estimate_fits _ _ _ _ _ LS T E) as Fi. cbn [combine] in Fi.
    assert (Ft : forall s q, In (s, q) (combine [(IZR (bx b), IZR (by_ b)); (IZR (bx b + bw b - 1), IZR (by_ b)); (IZR (bx b + bw b - 1), IZR (by_ b + bh b - 1)); (IZR (bx b), IZR (by_ b + bh b - 1))]
      [(0, 0); (IZR ow, 0); (IZR ow, IZR oh); (0, IZR oh)]) -> fits (chip_map b ow oh) s q).
    { intros s q Hs. apply takes_fits. inversion T as [|? ? ? ? T1 R1]; subst. inversion R1 as [|? ? ? ? T2 R2]; subst. inversion R2 as [|? ? ? ? T3 R3]; subst.
      inversion R3 as [|? ? ? ? T4 R4]; subst. cbn in Hs. destruct Hs as [Hs|[Hs|[Hs|[Hs|[]]]]]; injection Hs as <- <-; assumption. }
    cbn [combine] in Ft.
    assert (GP : general_position (IZR (bx b), IZR (by_ b)) (IZR (bx b + bw b - 1), IZR (by_ b)) (IZR (bx b + bw b - 1), IZR (by_ b + bh b - 1)) (IZR (bx b), IZR (by_ b + bh b - 1))).
    { apply general_rectangle; rewrite minus_IZR, plus_IZR; lra. }
    assert (GQ : general_position (0, 0) (IZR ow, 0) (IZR ow, IZR oh) (0, IZR oh)) by (apply general_rectangle; auto).
    apply (fits_unique _ _ _ _ _ _ _ _ _ _ GP GQ); (apply Fi || apply Ft); cbn [In]; auto. }
  split.
  - intros x y em. unfold sidd_image_to_world. cbn [chip_transform sidd_full ix iy].
    replace (inverse1 (chip_map b ow oh) (x, y)) with (IZR (bx b) + x * (IZR (bw b) - 1) / IZR ow, IZR (by_ b) + y * (IZR (bh b) - 1) / IZR oh); [reflexivity|].
    unfold inverse1, chip_map. cbn [fst snd a0 a1 a2 b0 b1 b2 c0 c1]. f_equal; field; repeat split; assumption.
  - intros w. unfold sidd_world_to_image. cbn [chip_transform sidd_full]. destruct (sicd_world_to_image tg tc m w) as [i|]; [|reflexivity]. cbn [bind]. f_equal.
    unfold forward1, chip_map. cbn [fst snd a0 a1 a2 b0 b1 b2 c0 c1 ix iy]. f_equal; field; lra.
Qed.
Print Assumptions C43_exact.

Example C43_non_vacuous :
  exists lstsq full part,
  let d := mkSiddMeta (mkVec 0 4 0) 0 0 (mkVec 1 0 0) (mkVec 0 1 0) 1 1 (mkPoly2 [mkCoef2 0 0 0] 0 0) (mkXyzPoly demo_poly demo_poly demo_poly) None in
  let b := mkBounds 10 20 5 9 in
  least_squares lstsq /\ sidd_from_dataclass lstsq d = Ok full /\ sidd_from_dataclass lstsq (fst (sidd_update d (b, None))) = Ok part /\
  chip_transform full = None /\ exists t, chip_transform part = Some t /\ inverse1 t (5, 9) = (14, 28).
Proof.
  set (d := mkSiddMeta _ _ _ _ _ _ _ _ _ _). set (b := mkBounds 10 20 5 9).
  assert (H : exists m, sidd_full_model d = Ok m) by (eexists; reflexivity). destruct H as (m & H).
  exists (knowing (chip_map b 5 9)), (mkSiddModel m None), (mkSiddModel m (Some (chip_map b 5 9))). cbv zeta.
  split; [apply knowing_least_squares|]. split; [unfold sidd_from_dataclass; rewrite H; reflexivity|]. split; [|split; [reflexivity|]].
  - destruct (C42_first_chip d b eq_refl) as (c & -> & A & B & U1 & U2 & U3 & U4). cbn [fst].
    unfold sidd_from_dataclass. change (sidd_full_model (with_chip d c)) with (sidd_full_model d). rewrite H. cbn [bind chip with_chip].
    unfold full_corners, chip_corners. rewrite A, B, U1, U2, U3, U4.
    rewrite knowing_estimate; [reflexivity|discriminate|].
    repeat constructor; unfold takes, denominator, chip_map; cbn; try lra; field; lra.
  - eexists. split; [reflexivity|]. unfold inverse1, chip_map. cbn. f_equal; field; lra.
Qed.
