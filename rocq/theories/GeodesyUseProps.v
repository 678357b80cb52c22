(** The properties of the sensor models that depend on the conversions between geodetic and geocentric
    coordinates, for those of the WGS 84 ellipsoid (C25, C36, C43 and C91). *)
Require Import ZArith Reals String List Lra Lia.
Require Import Verif.Base Verif.BaseFacts Verif.Vec Verif.VecFacts Verif.RsmModel Verif.PolySpec Verif.PolyProofs Verif.PolyProps Verif.SicdModel Verif.SicdSpec Verif.SicdProofs Verif.SicdGroundProofs Verif.SicdProps
  Verif.SicdSurfaceProps Verif.TransformModel Verif.TransformSpec Verif.TransformProps Verif.SarMetaModel Verif.SarMetaSpec Verif.SicdMetaSpec Verif.SicdMetaProps Verif.SarMetaProps Verif.SicdFindSpec Verif.SicdFindProps
  Verif.GeodesyModel Verif.GeodesyProofs Verif.GeodesyProps.
Import ListNotations.
Local Open Scope R_scope.

(** Rectangular ground domains: every place down to 6,335 kilometres comes back, and so does every
    ground domain coordinate. *)
Theorem C25_wgs84 :
  forall (vertices : list Vec) (origin : Vec) (units : Mat) (reference : option Vec) (d : GroundDomain),
  make_ground_domain wgs84_geodetic RECTANGULAR vertices (Some origin) (Some units) reference = Ok d ->
  (forall g, canonical g -> -6335439 < elevation g ->
     bind (geodetic_to_ground_domain_coordinate wgs84_geocentric d g) (ground_domain_coordinate_to_geodetic wgs84_geodetic d) = Ok g) /\
  (forall v, bind (ground_domain_coordinate_to_geodetic wgs84_geodetic d v) (geodetic_to_ground_domain_coordinate wgs84_geocentric d) = Ok v).
Proof.
  intros vertices origin units reference d H. destruct (C25_rectangular_round_trip wgs84_geocentric _ _ _ _ _ _ H) as (A & B & _). split.
  - intros g C E. apply A. now apply C101_forth.
  - intros v. apply B. intros e. apply C101_back.
Qed.
Print Assumptions C25_wgs84.

(** The units of a local frame in kilometres, with its origin on the equator. *)
Example C25_wgs84_non_vacuous :
  let units := mkMat (mkVec 0 (1/1000) 0) (mkVec 0 0 (1/1000)) (mkVec (1/1000) 0 0) in
  exists d, make_ground_domain wgs84_geodetic RECTANGULAR (repeat vzero 8) (Some (mkVec 6378137 0 0)) (Some units) None = Ok d /\
  bind (geodetic_to_ground_domain_coordinate wgs84_geocentric d (mkGeo 0 0 2000)) Ok = Ok (mkVec 0 0 2).
Proof.
  cbv zeta. set (units := mkMat _ _ _).
  destruct (C26_accepted_inputs wgs84_geodetic RECTANGULAR (repeat vzero 8) (Some (mkVec 6378137 0 0)) (Some units) None) as (_ & B & _).
  destruct B as (d & E); [split; [reflexivity|]; split; discriminate| |].
  { intros m [= <-]. unfold units, det, vdot, vcross. cbn [row1 row2 row3 vx vy vz]. lra. }
  exists d. split; [exact E|]. destruct (C25_rectangular_round_trip wgs84_geocentric _ _ _ _ _ _ E) as (_ & _ & ->). cbn [bind]. f_equal.
  unfold wgs84_geocentric, prime_vertical. cbn [longitude latitude elevation]. rewrite sin_0, cos_0. replace (1 - eccentricity2 * 0 ^ 2) with 1 by ring. rewrite sqrt_1.
  unfold semi_major, units, mulv, vsub, vdot. apply vec_ext; cbn [vx vy vz row1 row2 row3]; lra.
Qed.

(** Locating a pixel of a SIDD image in the image plane and finding the result gives the pixel back. *)
Theorem C91_sidd_wgs84 :
  forall lstsq (d : SiddMeta) (m : SiddModel) (v : R -> Vec) (i : Image),
  usable_sidd d v -> sidd_from_dataclass lstsq d = Ok m -> in_view d v i ->
  exists g, sidd_image_to_world wgs84_geodetic wgs84_geocentric m i None = Ok (Some g) /\ sidd_world_to_image wgs84_geodetic wgs84_geocentric m g = Ok i.
Proof.
  intros lstsq d m v i U B V. eapply C91_sidd_round_trip; try eassumption. apply C101_back.
Qed.
Print Assumptions C91_sidd_wgs84.

(** World to image of a SICD document is the search that the document describes. *)
Theorem C91_sicd_wgs84 :
  forall (d : SicdMeta) (m : Sicd) (w : Geodetic) (j : Image), usable_sicd d -> sicd_build d = Some (Complete m) ->
  let located i p := sicd_image_to_world wgs84_geodetic wgs84_geocentric m i None = Ok (option_map wgs84_geodetic p) in
  sicd_world_to_image wgs84_geodetic wgs84_geocentric m w = Ok j <->
  search (projects_to d) located (wgs84_geocentric w) 10 (wgs84_geocentric w) j.
Proof. intros d m w j U B. apply C91_sicd; try assumption. intros q. apply C101_back. Qed.
Print Assumptions C91_sicd_wgs84.

(** The contour is sampled between points whose heights above the ellipsoid are the lowest and the highest
    elevation that the terrain reports. *)
Theorem C36_wgs84 :
  forall (d : Dem) (r rdot : R) (arp v : Vec) (s : Sampling), -6335439 < hae_min d -> -6335439 < hae_max d ->
  dem_sampling wgs84_geodetic wgs84_geocentric d r rdot arp v = Ok s ->
  exists a b, elevation (wgs84_geodetic a) = hae_max d /\ elevation (wgs84_geodetic b) = hae_min d /\
  rrrc (contour s) * top s = vdot (vsub a (ctr (contour s))) (u_rrx (contour s)) /\
  rrrc (contour s) * start s = vdot (vsub b (ctr (contour s))) (u_rrx (contour s)).
Proof.
  intros d r rdot arp v s Lo Hi H. unfold dem_sampling in H.
  destruct (hae_intersection _ _ (default_hae _ _ (hae_max d)) _ _ _ _) as [[a|]|] eqn:A; cbn [bind] in H; try discriminate;
    destruct (hae_intersection _ _ (default_hae _ _ (hae_min d)) _ _ _ _) as [[b|]|] eqn:B; cbn [bind] in H; try discriminate;
    destruct (make_contour r rdot arp v) as [c|]; try discriminate.
  destruct (Req_EM_T (rrrc c) 0) as [|N]; [discriminate|]. destruct (Rlt_dec _ 0); [discriminate|].
  destruct (Req_EM_T _ 0); [destruct (Req_EM_T _ _); discriminate|]. injection H as <-. cbn [contour top start].
  exists a, b. split; [now apply C102_height in A|]. split; [now apply C102_height in B|]. split; field; exact N.
Qed.
Print Assumptions C36_wgs84.
(** Level terrain at the north pole, seen from three metres above it and four beside it. *)
Lemma pole_seen : hae_intersection wgs84_geodetic wgs84_geocentric (default_hae (mkVec 0 0 polar_radius) "L" 0) 5 0
  (mkVec (-4) 0 (polar_radius + 3)) (mkVec 0 (-1) 0) = Ok (Some (mkVec 0 0 polar_radius)).
Proof.
  destruct north_pole as (Ng & Nc & Nu). set (arp := mkVec (-4) 0 (polar_radius + 3)). set (v := mkVec 0 (-1) 0). set (pole := mkVec 0 0 polar_radius) in *.
  assert (Pv : 6000000 < polar_radius) by (unfold polar_radius; lra).
  assert (Dp : distance arp pole = 5).
  { unfold distance, arp, pole. cbn [vx vy vz]. replace ((-4 - 0) ^ 2 + (0 - 0) ^ 2 + (polar_radius + 3 - polar_radius) ^ 2) with (5 * 5) by ring. apply sqrt_square. lra. }
  assert (G : ground_intersection (mkPlane pole (mkVec 0 0 1)) 5 0 arp v = Ok (Some pole)).
  { apply C33_finds_every_solution; cbn [ref_ecf u_gpn].
    - intros E. apply (f_equal vz) in E. cbn in E. lra.
    - intros k E. apply (f_equal vy) in E. unfold v in E. cbn in E. lra.
    - unfold side_of, arp, v, pole. cbn [vx vy vz]. lra.
    - unfold height_over, arp, pole. cbn [vx vy vz]. replace (0 ^ 2 + 0 ^ 2 + 1 ^ 2) with 1 by ring. rewrite sqrt_1. lra.
    - unfold on_plane, pole. cbn [vx vy vz]. ring.
    - exact Dp.
    - unfold range_rate. rewrite Dp. unfold v, arp, pole. cbn [vx vy vz]. field.
    - unfold side_of, arp, v, pole. cbn [vx vy vz]. lra. }
  unfold hae_intersection, hae_first_plane. cbn [h_scp default_hae hae nlim]. rewrite Ng. cbn [elevation].
    change (up_vector (mkGeo 0 (PI / 2) 0)) with (local_up (mkGeo 0 (PI / 2) 0)). rewrite Nu.
    replace (vadd pole (vscale (0 - 0) (mkVec 0 0 1))) with pole by (apply vec_ext; cbn; ring).
    cbn [hae_loop Nat.sub]. unfold make_plane. rewrite (normalised_of_unit (mkVec 0 0 1)) by (unfold vdot; cbn; ring). rewrite G.
    rewrite Ng. cbn [elevation hae delta_hae_max default_hae]. destruct (Rle_dec _ _) as [_|F]; [|lra]. cbn [bind].
    change (up_vector (mkGeo 0 (PI / 2) 0)) with (local_up (mkGeo 0 (PI / 2) 0)). rewrite Nu.
    unfold hae_finish. cbn [gpp u_up delta_hae h_side default_hae].
    set (spn := vcross _ _). assert (Sp : spn = mkVec 3 0 4).
    { unfold spn, v, pole, arp, look_of. cbn [String.eqb Ascii.eqb Bool.eqb]. apply vec_ext; cbn; ring. }
    assert (Sn : vnorm spn = 5) by (rewrite Sp; unfold vnorm, vdot; cbn [vx vy vz]; replace (3 * 3 + 0 * 0 + 4 * 4) with (5 * 5) by ring; apply sqrt_square; lra).
    destruct (Req_EM_T (vnorm spn) 0) as [F|_]; [lra|]. destruct (Req_EM_T _ 0) as [F|_]; [unfold normalised in F; rewrite Sn, Sp in F; unfold vdot, vscale in F; cbn [vx vy vz] in F; lra|].
    do 2 f_equal. set (t := vsub pole _). assert (T : t = pole) by (unfold t; apply vec_ext; cbn [vx vy vz vsub vscale]; unfold Rdiv; ring).
    rewrite T, Ng. cbn [longitude latitude hae default_hae]. exact Nc.
Qed.

Example C36_wgs84_non_vacuous :
  let level := mkTerrain (fun g => mkGeo (longitude g) (latitude g) 0) (fun _ => Some (0, 0, 30)) in
  exists d s, make_dem wgs84_geodetic (mkVec 0 0 polar_radius) "L" level = Ok d /\ -6335439 < hae_min d /\ -6335439 < hae_max d /\
  dem_sampling wgs84_geodetic wgs84_geocentric d 5 0 (mkVec (-4) 0 (polar_radius + 3)) (mkVec 0 (-1) 0) = Ok s.
Proof.
  destruct north_pole as (Ng & Nc & Nu). cbv zeta. set (level := mkTerrain _ _). set (arp := mkVec (-4) 0 (polar_radius + 3)). set (v := mkVec 0 (-1) 0). set (pole := mkVec 0 0 polar_radius) in *.
  eexists. eexists. split; [reflexivity|]. cbn [hae_min hae_max]. split; [lra|]. split; [lra|].
  assert (Pv : 6000000 < polar_radius) by (unfold polar_radius; lra).
  pose proof pole_seen as Hq. fold arp v pole in Hq.
  unfold dem_sampling. cbn [d_scp d_side hae_max hae_min]. rewrite Hq. cbn [bind].
  unfold make_contour.
  assert (Vn : vnorm v = 1) by (unfold vnorm, v, vdot; cbn [vx vy vz]; replace (0 * 0 + -1 * -1 + 0 * 0) with 1 by ring; apply sqrt_1).
  destruct (Req_EM_T (vnorm v) 0) as [F|_]; [lra|]. rewrite Vn. replace (-1 * 0 / 1) with 0 by field. destruct (Rlt_dec (1 - 0 * 0) 0) as [F|_]; [lra|].
  assert (Vu : normalised v = v) by (unfold normalised; rewrite Vn; apply vec_ext; cbn; lra). rewrite Vu.
  replace (1 - 0 * 0) with 1 by ring. rewrite sqrt_1.
  set (n := vnorm arp). assert (N2 : n * n = 16 + (polar_radius + 3) ^ 2).
  { unfold n, vnorm. rewrite sqrt_sqrt; [unfold vdot, arp; cbn [vx vy vz]; ring|]. unfold vdot, arp. cbn [vx vy vz]. nra. }
  assert (N0 : 0 < n) by (assert (0 <= n) by apply sqrt_pos; nra).
  set (rry := vcross (normalised arp) v).
  assert (Ry : rry = mkVec ((polar_radius + 3) / n) 0 (4 / n)) by (unfold rry, normalised; fold n; apply vec_ext; unfold arp, v; cbn; field; lra).
  assert (Rn : vnorm rry = 1).
  { rewrite Ry. unfold vnorm, vdot. cbn [vx vy vz]. replace ((polar_radius + 3) / n * ((polar_radius + 3) / n) + 0 * 0 + 4 / n * (4 / n)) with ((16 + (polar_radius + 3) ^ 2) / (n * n)) by (field; lra).
    rewrite <- N2. replace (n * n / (n * n)) with 1 by (field; lra). apply sqrt_1. }
  destruct (Req_EM_T (vnorm rry) 0) as [F|_]; [lra|].
  assert (Ru : normalised rry = rry) by (unfold normalised; rewrite Rn; apply vec_ext; cbn; lra). rewrite Ru. cbn [rrrc ctr u_rrx u_rry].
  destruct (Req_EM_T (5 * 1) 0) as [F|_]; [lra|].
  set (c := vdot _ _ / (5 * 1)). assert (C : c = (16 + 3 * (polar_radius + 3)) / (5 * n)).
  { unfold c. rewrite Ry. unfold vdot, vcross, v, vsub, vadd, vscale, pole, arp. cbn [vx vy vz]. field. lra. }
  assert (C0 : 0 < c) by (rewrite C; apply Rdiv_lt_0_compat; lra).
  assert (C1 : 0 < 1 - c * c).
  { assert (E : 1 - c * c = (25 * (n * n) - (16 + 3 * (polar_radius + 3)) ^ 2) / (25 * (n * n))) by (rewrite C; field; lra).
    rewrite E. apply Rdiv_lt_0_compat; rewrite N2; nra. }
  destruct (Rlt_dec (1 - c * c) 0) as [F|_]; [lra|]. pose proof (sqrt_lt_R0 _ C1) as S. set (q := sqrt (1 - c * c)) in *.
  unfold cosine_step. destruct (Req_EM_T c 0) as [F|_]; [lra|]. cbn [delta_dist_rrc delta_dist_dem rrrc].
  assert (L : look_of "L" * q = q) by (unfold look_of; cbn [String.eqb Ascii.eqb Bool.eqb]; ring). rewrite L, (Rabs_right q) by lra.
  destruct (Req_EM_T _ 0) as [F|_]; [|reflexivity]. exfalso.
  assert (A1 : 0 < 10 * q / (5 * 1)) by lra. assert (A2 : 0 < 0.5 * 30 * (q / c) / (5 * 1)).
  { assert (0 < q / c) by (apply Rdiv_lt_0_compat; lra). lra. }
  unfold Rmin in F. destruct (Rle_dec _ _) in F; lra.
Qed.

(** The SIDD document of [C91_non_vacuous] on the WGS 84 ellipsoid. *)
Example C91_wgs84_non_vacuous :
  exists d m g, sidd_from_dataclass (fun _ _ => Err LinAlgError) d = Ok m /\
  sidd_image_to_world wgs84_geodetic wgs84_geocentric m (mkImage 12 21) None = Ok (Some g) /\ sidd_world_to_image wgs84_geodetic wgs84_geocentric m g = Ok (mkImage 12 21).
Proof.
  destruct C91_non_vacuous as (U & V & _ & m & B & _). eexists. exists m.
  destruct (C91_sidd_wgs84 _ _ _ _ _ U B V) as (g & G). exists g. split; [exact B|exact G].
Qed.

(** A window of a SIDD image is not the image shifted by the window's corner: a pixel x columns and y rows
    into the window is located x/width columns and y/height rows short of the shifted pixel, so the model
    of the window locates it at another place than the full image's model locates the shifted pixel. *)
Theorem C43_pixel_shift_refuted :
  forall lstsq (d : SiddMeta) (b : Bounds) (d' : SiddMeta) (full part : SiddModel) (v : R -> Vec) (x y : R),
  least_squares lstsq -> usable_sidd d v -> sidd_update d (b, None) = (d', Ok tt) ->
  sidd_from_dataclass lstsq d = Ok full -> sidd_from_dataclass lstsq d' = Ok part -> (1 < bw b)%Z -> (1 < bh b)%Z ->
  let shifted := mkImage (IZR (bx b) + x) (IZR (by_ b) + y) in
  let actual := mkImage (ix shifted - x / IZR (bw b)) (iy shifted - y / IZR (bh b)) in
  in_view d v shifted -> in_view d v actual -> x <> 0 \/ y <> 0 ->
  exists g g', sidd_image_to_world wgs84_geodetic wgs84_geocentric full shifted None = Ok (Some g) /\
  sidd_image_to_world wgs84_geodetic wgs84_geocentric part (mkImage x y) None = Ok (Some g') /\ g' <> g /\
  sidd_world_to_image wgs84_geodetic wgs84_geocentric full g' = Ok actual.
Proof.
  intros lstsq d b d' full part v x y LS U Up Fu Pa W H. cbv zeta. intros V V' N.
  assert (W0 : 1 < IZR (bw b)) by (apply (IZR_lt 1); exact W). assert (H0 : 1 < IZR (bh b)) by (apply (IZR_lt 1); exact H).
  assert (Ch : chip d = None) by apply U.
  destruct (C43_exact lstsq wgs84_geodetic wgs84_geocentric d b None d' full part LS Ch Up Fu Pa) as (X & _); [lia | lia | lia | lia |].
  destruct (C91_sidd_wgs84 lstsq d full v _ U Fu V) as (g & G1 & G2). destruct (C91_sidd_wgs84 lstsq d full v _ U Fu V') as (g' & G3 & G4).
  exists g, g'. split; [exact G1|]. split; [|split; [|exact G4]].
  - rewrite X. rewrite <- G3. f_equal. cbn [ix iy]. f_equal; field; lra.
  - intros ->. rewrite G2 in G4. cbn [ix iy] in G4. injection G4 as E1 E2.
    destruct N as [N|N]; apply N.
    + replace x with (x / IZR (bw b) * IZR (bw b)) by (field; lra). replace (x / IZR (bw b)) with 0 by lra. ring.
    + replace y with (y / IZR (bh b) * IZR (bh b)) by (field; lra). replace (y / IZR (bh b)) with 0 by lra. ring.
Qed.
Print Assumptions C43_pixel_shift_refuted.

Example C43_shift_non_vacuous :
  let d := mkSiddMeta (mkVec 0 4 0) 20 10 (mkVec 1 0 0) (mkVec 0 1 0) 2 (1/2) (mkPoly2 [mkCoef2 0 0 0] 0 0)
             (mkXyzPoly (mkPoly1 [mkCoef1 2 1] 1) (mkPoly1 [] 0) (mkPoly1 [mkCoef1 3 0] 0)) None in
  let b := mkBounds 10 20 5 4 in
  exists lstsq full part g g', least_squares lstsq /\
  sidd_from_dataclass lstsq d = Ok full /\ sidd_from_dataclass lstsq (fst (sidd_update d (b, None))) = Ok part /\
  sidd_image_to_world wgs84_geodetic wgs84_geocentric full (mkImage 12 21) None = Ok (Some g) /\
  sidd_image_to_world wgs84_geodetic wgs84_geocentric part (mkImage 2 1) None = Ok (Some g') /\ g' <> g /\
  sidd_world_to_image wgs84_geodetic wgs84_geocentric full g' = Ok (mkImage 11.6 20.75).
Proof.
  cbv zeta. destruct C91_non_vacuous as (U & V & _ & m0 & B & _). set (d := mkSiddMeta _ _ _ _ _ _ _ _ _ _) in *. set (b := mkBounds 10 20 5 4).
  assert (H : exists m, sidd_full_model d = Ok m) by (eexists; reflexivity). destruct H as (m & H).
  assert (Fu : sidd_from_dataclass (knowing (chip_map b 5 4)) d = Ok (mkSiddModel m None)) by (unfold sidd_from_dataclass; rewrite H; reflexivity).
  assert (Pa : sidd_from_dataclass (knowing (chip_map b 5 4)) (fst (sidd_update d (b, None))) = Ok (mkSiddModel m (Some (chip_map b 5 4)))).
  { destruct (C42_first_chip d b eq_refl) as (c & -> & A & B' & U1 & U2 & U3 & U4). cbn [fst].
    unfold sidd_from_dataclass. change (sidd_full_model (with_chip d c)) with (sidd_full_model d). rewrite H. cbn [bind chip with_chip].
    unfold full_corners, chip_corners. rewrite A, B', U1, U2, U3, U4.
    rewrite knowing_estimate; [reflexivity|discriminate|].
    repeat constructor; unfold takes, denominator, chip_map; cbn; try lra; field; lra. }
  assert (Up : sidd_update d (b, None) = (fst (sidd_update d (b, None)), Ok tt)) by reflexivity.
  assert (V' : in_view d (fun _ => mkVec 2 0 0) (mkImage 11.6 20.75)).
  { assert (Tr : forall t, along (sidd_arppoly d) t = mkVec (2 * t) 0 3).
    { intros t. unfold along, declared1, total. cbn. change (Pos.to_nat 1) with 1%nat. cbn. f_equal; ring. }
    assert (M : sidd_metres d (ix (mkImage 11.6 20.75)) (iy (mkImage 11.6 20.75)) = (1.5, 0.8)) by (unfold sidd_metres; cbn; f_equal; lra).
    assert (O : sidd_normal d = mkVec 0 0 1).
    { unfold sidd_normal, outward. destruct (Rlt_dec _ 0) as [L|L]; [exfalso; unfold vdot in L; cbn in L; lra|]. cbn. unfold vcross. cbn. f_equal; ring. }
    assert (I : sidd_place d (mkImage 11.6 20.75) = mkVec 1.5 4.8 0) by (unfold sidd_place; rewrite M; unfold plane_point; cbn; f_equal; lra).
    unfold in_view. rewrite M, O, I, Tr. cbn [fst snd]. split; [unfold side_of; cbn; lra|].
    unfold height_over. cbn. replace (0 * (0 * 1) + 0 * (0 * 1) + 1 * (1 * 1)) with 1 by ring. rewrite sqrt_1. lra. }
  destruct (C43_pixel_shift_refuted _ d b _ _ _ (fun _ => mkVec 2 0 0) 2 1 (knowing_least_squares _) U Up Fu Pa) as (g & g' & G1 & G2 & G3 & G4).
  - cbn; lia.
  - cbn; lia.
  - replace (mkImage _ _) with (mkImage 12 21) by (unfold b; cbn [bx by_]; f_equal; lra). exact V.
  - replace (mkImage _ _) with (mkImage 11.6 20.75) by (unfold b; cbn [bx by_ bw bh ix iy]; f_equal; lra). exact V'.
  - left. lra.
  - exists (knowing (chip_map b 5 4)), (mkSiddModel m None), (mkSiddModel m (Some (chip_map b 5 4))), g, g'.
    split; [apply knowing_least_squares|]. split; [exact Fu|]. split; [exact Pa|].
    replace (mkImage (_ + _) (_ + _)) with (mkImage 12 21) in G1 by (unfold b; cbn [bx by_]; f_equal; lra).
    replace (mkImage (_ - _) (_ - _)) with (mkImage 11.6 20.75) in G4 by (unfold b; cbn [bx by_ bw bh ix iy]; f_equal; lra).
    repeat split; assumption.
Qed.
