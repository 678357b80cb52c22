(** The SICD sensor model: image grid, R/Rdot contours and their intersection with surfaces.
    Source: src/aws/osml/photogrammetry/sicd_sensor_model.py (all of it).
    Simplifications: exact reals.  The conversions between geocentric and geodetic coordinates
    (pyproj) are arbitrary functions.  Where the Python code divides by zero or takes the root of
    a negative number it goes on with nan or inf; the model says [None] for a result that is not
    a number, and says so in each definition.  Only single points are modelled, not arrays of
    points.  Numpy arrays that the code updates in place are fresh results of the polynomials,
    so the updates are modelled as new values. *)
Require Import ZArith Reals String List.
Require Import Verif.Base Verif.Vec.
Require Export Verif.SensorBase.
Import ListNotations.
Local Open Scope R_scope.

(** *** Polynomials *)

(** numpy.polynomial.polynomial.polyval: Horner's rule from the highest coefficient. *)
Fixpoint polyval (c : list R) (x : R) : R :=
  match c with
  | [] => 0
  | a :: r => a + polyval r x * x
  end.

(** numpy.polynomial.Polynomial.deriv(m=1): a constant becomes [0]. *)
Fixpoint scale_from (n : nat) (c : list R) : list R :=
  match c with
  | [] => []
  | a :: r => INR n * a :: scale_from (S n) r
  end.
Definition polyder (c : list R) : list R :=
  match c with
  | [] => []
  | [_] => [0]
  | _ :: r => scale_from 1 r
  end.

(** Elementwise sum of two rows of the same length. *)
Fixpoint row_add (a b : list R) : list R :=
  match a, b with
  | x :: a', y :: b' => x + y :: row_add a' b'
  | _, _ => []
  end.
(** polyval over the first axis of a matrix: one polynomial per column. *)
Fixpoint polyval_rows (c : list (list R)) (x : R) : list R :=
  match c with
  | [] => []
  | [row] => row
  | row :: r => row_add row (List.map (fun a => a * x) (polyval_rows r x))
  end.

(** sicd_sensor_model.py:29-41 [Polynomial2D.__init__]: the coefficients must form a matrix. *)
Definition make_poly2d (c : list (list R)) : res (list (list R)) :=
  match c with
  | [] => Err ValueError
  | row :: r => if forallb (fun row' => Nat.eqb (List.length row') (List.length row)) r then Ok c else Err ValueError
  end.
(** sicd_sensor_model.py:43-51 [Polynomial2D.__call__]: polyval2d(x, y, coef). *)
Definition poly2d (c : list (list R)) (x y : R) : R := polyval (polyval_rows c x) y.

(** sicd_sensor_model.py:60-75 [PolynomialXYZ.__init__]. *)
Record PolyXYZ := mkPolyXYZ { x_polynomial : list R; y_polynomial : list R; z_polynomial : list R }.
(** sicd_sensor_model.py:77-88 [PolynomialXYZ.__call__]. *)
Definition polyxyz (p : PolyXYZ) (t : R) : Vec :=
  mkVec (polyval (x_polynomial p) t) (polyval (y_polynomial p) t) (polyval (z_polynomial p) t).
(** sicd_sensor_model.py:90-101 [PolynomialXYZ.deriv] with m = 1. *)
Definition polyxyz_deriv (p : PolyXYZ) : PolyXYZ :=
  mkPolyXYZ (polyder (x_polynomial p)) (polyder (y_polynomial p)) (polyder (z_polynomial p)).

(** *** Image grid *)

(** sicd_sensor_model.py:110-138 [SARImageCoordConverter.__init__]: what is stored. *)
Record Converter := mkConverter {
  scp_pixel : Image; scp_ecf : Vec; u_row : Vec; u_col : Vec; row_ss : R; col_ss : R; first_pixel : Image }.

(** [v / np.linalg.norm(v)]; not meaningful for the zero vector. *)
Definition normalised (v : Vec) : Vec := vscale (/ vnorm v) v.

(** sicd_sensor_model.py:139-141. *)
Definition uvect_ipn (c : Converter) : Vec := normalised (vcross (u_row c) (u_col c)).

(** sicd_sensor_model.py:143-150: the two columns of [matrix_transform]. *)
Definition matrix_transform (c : Converter) : Vec * Vec :=
  let cos_theta := vdot (u_row c) (u_col c) in
  let sin_theta := sqrt (1 - cos_theta * cos_theta) in
  let k := / (sin_theta * sin_theta) in
  (vadd (vscale (1 * k) (u_row c)) (vscale (- cos_theta * k) (u_col c)),
   vadd (vscale (- cos_theta * k) (u_row c)) (vscale (1 * k) (u_col c))).

(** sicd_sensor_model.py:152-164 [rowcol_to_xrowycol]; pairs are (row, col) and (xrow, ycol). *)
Definition rowcol_to_xrowycol (c : Converter) (row_col : R * R) : R * R :=
  ((fst row_col - iy (scp_pixel c)) * row_ss c, (snd row_col - ix (scp_pixel c)) * col_ss c).
(** sicd_sensor_model.py:166-177 [xrowycol_to_rowcol]. *)
Definition xrowycol_to_rowcol (c : Converter) (xy : R * R) : R * R :=
  (fst xy / row_ss c + iy (scp_pixel c), snd xy / col_ss c + ix (scp_pixel c)).
(** sicd_sensor_model.py:179-188 [xrowycol_to_ipp]. *)
Definition xrowycol_to_ipp (c : Converter) (xy : R * R) : Vec :=
  vadd (scp_ecf c) (vadd (vscale (fst xy) (u_row c)) (vscale (snd xy) (u_col c))).
(** sicd_sensor_model.py:190-200 [ipp_to_xrowycol]. *)
Definition ipp_to_xrowycol (c : Converter) (ipp : Vec) : R * R :=
  let d := vsub ipp (scp_ecf c) in
  (vdot d (fst (matrix_transform c)), vdot d (snd (matrix_transform c))).

(** *** Projection sets *)

(** sicd_sensor_model.py:290-318, 376-399, 436-462, 505-531: what the four projection sets add. *)
Inductive Grid :=
| PFA (scp : Vec) (polar_ang_poly spatial_freq_sf_poly : list R)
| RGAZCOMP (scp : Vec) (az_scale_factor : R)
| INCA (r_ca_scp : R) (inca_time_coa_poly : list R) (drate_sf_poly : list (list R))
| PLANE (scp urow ucol : Vec).

(** sicd_sensor_model.py:209-233 [COAProjectionSet.__init__]. *)
Record ProjectionSet := mkProjectionSet {
  grid : Grid; coa_time_poly : list (list R); arp_poly : PolyXYZ;
  delta_arp : Vec; delta_varp : Vec; range_bias : R }.
(** sicd_sensor_model.py:229. *)
Definition varp_poly (p : ProjectionSet) : PolyXYZ := polyxyz_deriv (arp_poly p).

(** sicd_sensor_model.py:320-372, 401-432, 464-501, 533-564 [_grid_specific_projection]. *)
Definition grid_specific_projection (p : ProjectionSet) (xy : R * R) (coa_time : R) (arp varp : Vec) : R * R :=
  match grid p with
  | PFA scp polar sf =>
    let rg := fst xy in let az := snd xy in
    let arp_minus_scp := vsub arp scp in
    let range_to_scp := vnorm arp_minus_scp in
    let rdot_to_scp := vdot varp arp_minus_scp / range_to_scp in
    let theta := polyval polar coa_time in
    let d_theta_d_time := polyval (polyder polar) coa_time in
    let ksf := polyval sf theta in
    let d_ksf_d_theta := polyval (polyder sf) theta in
    let d_phi_d_ka := rg * cos theta + az * sin theta in
    let d_phi_d_kc := - rg * sin theta + az * cos theta in
    let delta_range := ksf * d_phi_d_ka in
    let d_delta_range_d_theta := d_ksf_d_theta * d_phi_d_ka + ksf * d_phi_d_kc in
    let delta_r_dot := d_delta_range_d_theta * d_theta_d_time in
    (range_to_scp + delta_range, rdot_to_scp + delta_r_dot)
  | RGAZCOMP scp az_sf =>
    let rg := fst xy in let az := snd xy in
    let arp_minus_scp := vsub arp scp in
    let range_to_scp := vnorm arp_minus_scp in
    let rdot_to_scp := vdot varp arp_minus_scp / range_to_scp in
    let delta_cos_dca := az_sf * az in
    let delta_r_dot := - vnorm varp * delta_cos_dca in
    (range_to_scp + rg, rdot_to_scp + delta_r_dot)
  | INCA r_ca time_poly drate =>
    let rg := fst xy in let az := snd xy in
    let range_ca := r_ca + rg in
    let time_ca := polyval time_poly az in
    let mag_v := vnorm (polyxyz (varp_poly p) time_ca) in
    let drsf := poly2d drate rg az in
    let delta_coa := coa_time - time_ca in
    let r := sqrt (range_ca ^ 2 + drsf * mag_v ^ 2 * delta_coa ^ 2) in
    (r, drsf / r * mag_v ^ 2 * delta_coa)
  | PLANE scp urow ucol =>
    let ipp := vadd (vadd scp (vscale (fst xy) urow)) (vscale (snd xy) ucol) in
    let arp_minus_ipp := vsub arp ipp in
    let r := vnorm arp_minus_ipp in
    (r, vdot varp arp_minus_ipp / r)
  end.

(** What a projection set computes for a grid location: range, range rate, time, ARP position and
    velocity. *)
Record Coa := mkCoa { r_coa : R; rdot_coa : R; t_coa : R; arp_coa : Vec; varp_coa : Vec }.
(** sicd_sensor_model.py:235-264 [precise_rrdot_computation]: range and range rate come from the
    position and velocity before the offsets are added. *)
Definition precise_rrdot (p : ProjectionSet) (xy : R * R) : Coa :=
  let t := poly2d (coa_time_poly p) (fst xy) (snd xy) in
  let arp := polyxyz (arp_poly p) t in
  let varp := polyxyz (varp_poly p) t in
  let rr := grid_specific_projection p xy t arp varp in
  mkCoa (fst rr + range_bias p) (snd rr) t (vadd arp (delta_arp p)) (vadd varp (delta_varp p)).

(** *** Ground plane *)

(** sicd_sensor_model.py:593-595. *)
Inductive NormalType := SPHERICAL_EARTH | GEODETIC_EARTH.

(** sicd_sensor_model.py:597-630 [GroundPlaneRRDotSurfaceProjection.__init__]. *)
Record Plane := mkPlane { ref_ecf : Vec; u_gpn : Vec }.

(** The unit vector up at a latitude and longitude (lines 622-628, 738-744, 758-764). *)
Definition up_vector (g : Geodetic) : Vec :=
  mkVec (cos (latitude g) * cos (longitude g)) (cos (latitude g) * sin (longitude g)) (sin (latitude g)).

(** np.sign. *)
Definition sign (x : R) : R := if Rlt_dec 0 x then 1 else if Rlt_dec x 0 then -1 else 0.

(** sicd_sensor_model.py:632-679 [rrdot_to_ground].  [Ok None] is an array of nan: below the plane
    by more than the range (root of a negative number), a range of zero, or 0/0 in the cosine of
    the azimuth; a non-zero number over zero is infinite and caught by the test on line 670. *)
Definition ground_intersection (p : Plane) (r rdot : R) (arp v : Vec) : res (option Vec) :=
  let z := normalised (u_gpn p) in
  let arp_z := vdot (vsub arp (ref_ecf p)) z in
  if Rlt_dec r arp_z then Err ValueError else
  let agpn := vsub arp (vscale arp_z z) in
  if Rlt_dec (r * r - arp_z * arp_z) 0 then Ok None else
  if Req_EM_T r 0 then Ok None else
  let gp_distance := sqrt (r * r - arp_z * arp_z) in
  let sin_graz := arp_z / r in
  let cos_graz := gp_distance / r in
  let v_z := vdot v z in
  let v_mag := vnorm v in
  let v_x := sqrt (v_mag * v_mag - v_z * v_z) in
  let x := vscale (/ v_x) (vsub v (vscale v_z z)) in
  let y := vcross z x in
  let numerator := - rdot + v_z * sin_graz in
  let denominator := v_x * cos_graz in
  if Req_EM_T denominator 0 then (if Req_EM_T numerator 0 then Ok None else Err ValueError) else
  let cos_az := numerator / denominator in
  if Rlt_dec 1 (Rabs cos_az) then Err ValueError else
  let look := sign (vdot (vcross (vsub arp (ref_ecf p)) v) z) in
  let sin_az := look * sqrt (1 - cos_az * cos_az) in
  Ok (Some (vadd (vadd agpn (vscale (gp_distance * cos_az) x)) (vscale (gp_distance * sin_az) y))).

Section Earth.
(** geocentric_to_geodetic and geodetic_to_geocentric (pyproj). *)
Variable to_geodetic : Vec -> Geodetic.
Variable to_geocentric : Geodetic -> Vec.

(** sicd_sensor_model.py:597-630 [GroundPlaneRRDotSurfaceProjection.__init__]. *)
Definition make_plane (ref : Vec) (gpn : option Vec) (type : NormalType) : Plane :=
  mkPlane ref
    match gpn with
    | Some n => normalised n
    | None => match type with
              | SPHERICAL_EARTH => normalised ref
              | GEODETIC_EARTH => up_vector (to_geodetic ref)
              end
    end.

(** *** Constant height above the ellipsoid *)

(** sicd_sensor_model.py:712-714 and 826-829: any side of track but "R" counts as left. *)
Definition look_of (side : string) : R := if String.eqb side "R" then -1 else 1.

(** sicd_sensor_model.py:688-717 [HAERRDotSurfaceProjection.__init__]. *)
Record Hae := mkHae { h_scp : Vec; h_side : string; hae : R; delta_hae_max : R; nlim : nat }.
(** sicd_sensor_model.py:693-694: the default threshold and number of iterations. *)
Definition default_hae (scp : Vec) (side : string) (h : R) : Hae := mkHae scp side h 1 3.

(** State of the iteration when it stops: ground plane point, up vector, height error, count. *)
Record HaeStop := mkHaeStop { gpp : Vec; u_up : Vec; delta_hae : R; count : nat }.

(** sicd_sensor_model.py:747-775: the loop.  [more] is how many further iterations are allowed,
    i.e. max(nlim - n, 0), and makes the recursion structural.  A ground plane point that is not
    a number stays so in all later iterations. *)
Fixpoint hae_loop (s : Hae) (r rdot : R) (arp v : Vec) (more n : nat) (gref gpn : Vec) : res (option HaeStop) :=
  match ground_intersection (make_plane gref (Some gpn) GEODETIC_EARTH) r rdot arp v with
  | Err e => Err e
  | Ok None => Ok None
  | Ok (Some p) =>
    let lle := to_geodetic p in
    let up := up_vector lle in
    let d := elevation lle - hae s in
    if Rle_dec d (delta_hae_max s) then Ok (Some (mkHaeStop p up d n))
    else match more with
         | O => Ok (Some (mkHaeStop p up d n))
         | S more' => hae_loop s r rdot arp v more' (S n) (vsub p (vscale d up)) up
         end
  end.

(** sicd_sensor_model.py:736-745: the first ground plane. *)
Definition hae_first_plane (s : Hae) : Vec * Vec :=
  let lle := to_geodetic (h_scp s) in
  let gpn := up_vector lle in
  (vadd (h_scp s) (vscale (hae s - elevation lle) gpn), gpn).

(** sicd_sensor_model.py:777-794, after the loop; a vanishing slant plane normal or one without
    height component gives nan. *)
Definition hae_finish (s : Hae) (arp v : Vec) (stop : HaeStop) : option Vec :=
  let spn := vcross (vscale (look_of (h_side s)) v) (vsub (gpp stop) arp) in
  if Req_EM_T (vnorm spn) 0 then None else
  let u_spn := normalised spn in
  let sf := vdot (u_up stop) u_spn in
  if Req_EM_T sf 0 then None else
  let slp := vsub (gpp stop) (vscale (delta_hae stop / sf) u_spn) in
  let slp_lle := to_geodetic slp in
  Some (to_geocentric (mkGeo (longitude slp_lle) (latitude slp_lle) (hae s))).

(** sicd_sensor_model.py:719-794 [HAERRDotSurfaceProjection.rrdot_to_ground]. *)
Definition hae_intersection (s : Hae) (r rdot : R) (arp v : Vec) : res (option Vec) :=
  let '(gref, gpn) := hae_first_plane s in
  bind (hae_loop s r rdot arp v (nlim s - 1) 1 gref gpn) (fun stop =>
  match stop with None => Ok None | Some st => Ok (hae_finish s arp v st) end).

(** *** Digital elevation models *)

(** elevation_model.py:10-50: set_elevation and describe_region (minimum and maximum elevation,
    post spacing); describe_region answers None where the model has no data. *)
Record Terrain := mkTerrain { set_elevation : emodel; describe_region : Geodetic -> option (R * R * R) }.

(** The parts of an R/Rdot contour (sicd_sensor_model.py:862-875). *)
Record Contour := mkContour { ctr : Vec; rrrc : R; u_rrx : Vec; u_rry : Vec }.
(** sicd_sensor_model.py:862-875; [None] when the velocity vanishes or points straight up, or the
    range rate exceeds the speed: then some part is nan. *)
Definition make_contour (r rdot : R) (arp v : Vec) : option Contour :=
  let v_mag := vnorm v in
  if Req_EM_T v_mag 0 then None else
  let u_vel := normalised v in
  let cos_dca := -1 * rdot / v_mag in
  if Rlt_dec (1 - cos_dca * cos_dca) 0 then None else
  let sin_dca := sqrt (1 - cos_dca * cos_dca) in
  let rry := vcross (normalised arp) u_vel in
  if Req_EM_T (vnorm rry) 0 then None else
  let u_rry := normalised rry in
  Some (mkContour (vadd arp (vscale (r * cos_dca) u_vel)) (r * sin_dca) (vcross u_rry u_vel) u_rry).

(** sicd_sensor_model.py:915-917 and 956-958: the contour point at a cosine of the contour angle;
    nan when the cosine exceeds one. *)
Definition contour_point (c : Contour) (look cos_ca : R) : option Vec :=
  if Rlt_dec (1 - cos_ca * cos_ca) 0 then None else
  let sin_ca := look * sqrt (1 - cos_ca * cos_ca) in
  Some (vadd (ctr c) (vscale (rrrc c) (vadd (vscale cos_ca (u_rrx c)) (vscale sin_ca (u_rry c))))).

(** sicd_sensor_model.py:934-937: height of a contour point above the terrain. *)
Definition height_above (t : Terrain) (p : Vec) : R :=
  let lle := to_geodetic p in elevation lle - elevation (set_elevation t lle).

(** sicd_sensor_model.py:939-949: 0 on, 1 above, -1 below (and -1 for nan). *)
Definition indicator (lim : R) (h : option R) : Z :=
  match h with
  | None => -1
  | Some h => if Rlt_dec (Rabs h) lim then 0 else if Rlt_dec lim h then 1 else -1
  end%Z.

(** sicd_sensor_model.py:930-963: one pass over the contour points.  [n] counts the points,
    [prev] is the indicator and height of the point before.  [on] is the point itself, [at_index]
    computes the contour point at a fractional index. *)
Fixpoint dem_scan (lim : R) (at_index : R -> option Vec) (n : nat) (prev : option (Z * option R))
    (pts : list (option Vec * option R)) : list (option Vec) :=
  match pts with
  | [] => []
  | (p, h) :: rest =>
    let ind := indicator lim h in
    let on := if Z.eqb ind 0 then [p] else [] in
    let crossing :=
      match prev with
      | Some (i, h0) =>
        if Z.eqb (i * ind) (-1) then
          match h0, h with
          | Some a, Some b => [at_index (INR n - 1 + a / (a - b))]
          | _, _ => [None]
          end
        else []
      | None => []
      end in
    on ++ crossing ++ dem_scan lim at_index (S n) (Some (ind, h)) rest
  end.

(** sicd_sensor_model.py:803-843 [DEMRRDotSurfaceProjection.__init__]: without a summary for the
    scene centre the attribute access on None fails. *)
Record Dem := mkDem { d_scp : Vec; d_side : string; d_terrain : Terrain;
                      hae_min : R; hae_max : R; delta_dist_dem : R; delta_dist_rrc : R; delta_hd_lim : R }.
Definition make_dem (scp : Vec) (side : string) (t : Terrain) : res Dem :=
  match describe_region t (to_geodetic scp) with
  | None => Err AttributeError
  | Some (lo, hi, spacing) => Ok (mkDem scp side t lo hi (0.5 * spacing) 10 0.001)
  end.

(** sicd_sensor_model.py:897-904: the step of the cosine; division by a cosine of zero gives
    infinity, which min drops (the post spacing is taken not to be negative). *)
Definition cosine_step (d : Dem) (c : Contour) (cos_cab sin_cab : R) : R :=
  let delta_cos_rrc := delta_dist_rrc d * Rabs sin_cab / rrrc c in
  if Req_EM_T cos_cab 0 then -1 * delta_cos_rrc else
  let delta_cos_dem := delta_dist_dem d * (Rabs sin_cab / cos_cab) / rrrc c in
  -1 * Rmin delta_cos_rrc delta_cos_dem.

(** sicd_sensor_model.py:862-911: the contour points that will be looked at, evenly spaced in the
    cosine of the contour angle. *)
Record Sampling := mkSampling { contour : Contour; look_side : R; start : R; top : R; step : R; points : Z }.
Definition sample_at (s : Sampling) (x : R) : option Vec := contour_point (contour s) (look_side s) (start s + x * step s).

(** sicd_sensor_model.py:862-907.  int(np.floor(nan)) raises ValueError, also for a contour without
    extent; a step of zero makes it int(inf), an OverflowError, or int(nan). *)
Definition dem_sampling (d : Dem) (r rdot : R) (arp v : Vec) : res Sampling :=
  bind (hae_intersection (default_hae (d_scp d) (d_side d) (hae_max d)) r rdot arp v) (fun point_a =>
  bind (hae_intersection (default_hae (d_scp d) (d_side d) (hae_min d)) r rdot arp v) (fun point_b =>
  match make_contour r rdot arp v, point_a, point_b with
  | Some c, Some a, Some b =>
    if Req_EM_T (rrrc c) 0 then Err ValueError else
    let look := look_of (d_side d) in
    let cos_caa := vdot (vsub a (ctr c)) (u_rrx c) / rrrc c in
    let cos_cab := vdot (vsub b (ctr c)) (u_rrx c) / rrrc c in
    if Rlt_dec (1 - cos_cab * cos_cab) 0 then Err ValueError else
    let sin_cab := look * sqrt (1 - cos_cab * cos_cab) in
    let delta := cosine_step d c cos_cab sin_cab in
    if Req_EM_T delta 0 then (if Req_EM_T cos_caa cos_cab then Err ValueError else Err OtherError) else
    Ok (mkSampling c look cos_cab cos_caa delta (Rfloor ((cos_caa - cos_cab) / delta) + 2))
  | _, _, _ => Err ValueError
  end)).

(** sicd_sensor_model.py:913-937: the sampled points and their heights above the terrain. *)
Definition sample_heights (t : Terrain) (s : Sampling) : list (option Vec * option R) :=
  List.map (fun n => let p := sample_at s (INR n) in
                     (p, match p with Some q => Some (height_above t q) | None => None end))
           (seq 0 (Z.to_nat (points s))).

(** sicd_sensor_model.py:845-967 [DEMRRDotSurfaceProjection.rrdot_to_ground]. *)
Definition dem_intersection (d : Dem) (r rdot : R) (arp v : Vec) : res (list (option Vec)) :=
  bind (dem_sampling d r rdot arp v) (fun s =>
  Ok (dem_scan (delta_hd_lim d) (sample_at s) 0 None (sample_heights (d_terrain d) s))).

(** *** The sensor model *)

(** sicd_sensor_model.py:1002-1017 [compute_u_spn]. *)
Definition compute_u_spn (scp arp varp : Vec) (side : string) : Vec :=
  let n := vcross varp (vsub scp arp) in
  normalised (if String.eqb side "R" then vscale (-1) n else n).
(** sicd_sensor_model.py:1019-1025 [compute_u_gpn]. *)
Definition compute_u_gpn (scp urow ucol : Vec) : Vec :=
  let n := normalised (vcross urow ucol) in
  if Rlt_dec (vdot n scp) 0 then vscale (-1) n else n.

(** sicd_sensor_model.py:976-1000 [SICDSensorModel.__init__]. *)
Record Sicd := mkSicd { converter : Converter; projection : ProjectionSet; u_spn : Vec; side_of_track : string;
                        uvect_gpn : option Vec }.
(** sicd_sensor_model.py:1000. *)
Definition default_surface (m : Sicd) : Plane := make_plane (scp_ecf (converter m)) (uvect_gpn m) GEODETIC_EARTH.

(** sicd_sensor_model.py:1044-1050. *)
Definition grid_location (m : Sicd) (i : Image) : R * R :=
  rowcol_to_xrowycol (converter m)
    (iy i + iy (first_pixel (converter m)), ix i + ix (first_pixel (converter m))).

(** sicd_sensor_model.py:1027-1065 [image_to_world]; [Ok None] is a coordinate of nan. *)
Definition sicd_image_to_world (m : Sicd) (i : Image) (em : option Terrain) : res (option Geodetic) :=
  let c := precise_rrdot (projection m) (grid_location m i) in
  match em with
  | Some t =>
    bind (make_dem (scp_ecf (converter m)) (side_of_track m) t) (fun d =>
    bind (dem_intersection d (r_coa c) (rdot_coa c) (arp_coa c) (varp_coa c)) (fun ps =>
    match ps with
    | [] => Err IndexError
    | None :: _ => Ok None
    | Some p :: _ => Ok (Some (to_geodetic p))
    end))
  | None =>
    bind (ground_intersection (default_surface m) (r_coa c) (rdot_coa c) (arp_coa c) (varp_coa c)) (fun p =>
    match p with None => Ok None | Some p => Ok (Some (to_geodetic p)) end)
  end.

(** sicd_sensor_model.py:1096-1100: the image grid location below a ground point. *)
Definition project_to_grid (m : Sicd) (g : Vec) : R * R :=
  let c := converter m in
  let scale_factor := vdot (u_spn m) (uvect_ipn c) in
  let dist := vdot (vsub (scp_ecf c) g) (uvect_ipn c) / scale_factor in
  ipp_to_xrowycol c (vadd g (vscale dist (u_spn m))).

(** sicd_sensor_model.py:1090-1119: the loop.  [more] is how many further iterations are allowed
    (max_iterations - iteration); the result is the grid location and the iteration count.  A
    ground point that is not a number ends the loop, because nan > tolerance is false. *)
Fixpoint scene_to_grid (m : Sicd) (scene g : Vec) (more iteration : nat) : res ((R * R) * nat) :=
  let xy := project_to_grid m g in
  let c := precise_rrdot (projection m) xy in
  match ground_intersection (default_surface m) (r_coa c) (rdot_coa c) (arp_coa c) (varp_coa c) with
  | Err e => Err e
  | Ok None => Ok (xy, iteration)
  | Ok (Some p) =>
    let diff := vsub scene p in
    if Rlt_dec 0.01 (vnorm diff) then
      match more with
      | O => Ok (xy, iteration)
      | S more' => scene_to_grid m scene (vadd g diff) more' (S iteration)
      end
    else Ok (xy, iteration)
  end.

(** sicd_sensor_model.py:1121-1128: from the grid location to the pixel of the (chipped) image. *)
Definition to_pixel (m : Sicd) (xy : R * R) : Image :=
  let rc := xrowycol_to_rowcol (converter m) xy in
  mkImage (snd rc - ix (first_pixel (converter m))) (fst rc - iy (first_pixel (converter m))).

(** sicd_sensor_model.py:1067-1128 [world_to_image] with tolerance 1e-2 and 10 iterations. *)
Definition sicd_world_to_image (m : Sicd) (w : Geodetic) : res Image :=
  let scene := to_geocentric w in
  bind (scene_to_grid m scene scene 9 1) (fun x => Ok (to_pixel m (fst x))).
End Earth.
