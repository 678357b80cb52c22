(** Pixel ranges and display mappings.
    Source: src/aws/osml/gdal/dynamic_range_adjustment.py, gdal/gdal_utils.py:73-179,
    image_processing/gdal_tile_factory.py:373-488 and image_processing/sar_complex_imageop.py.
    Simplifications: pixel values and statistics are exact reals, so float32 and float64 rounding
    is not modelled; the overflow of numpy's integer arithmetic is.  Arrays are lists of pixels;
    their shape plays no role.  GDAL's statistics and histograms are arguments. *)
Require Import ZArith Reals String List Bool.
Require Import Verif.Base.
Import ListNotations.
Local Open Scope R_scope.

(** *** numpy *)

Definition clip (lo hi x : R) : R := Rmin (Rmax x lo) hi.
Fixpoint sum (l : list R) : R := match l with [] => 0 | x :: r => x + sum r end.
(** np.min and np.max raise ValueError for an empty array. *)
Definition np_min (l : list R) : res R := match l with [] => Err ValueError | x :: r => Ok (fold_left Rmin r x) end.
Definition np_max (l : list R) : res R := match l with [] => Err ValueError | x :: r => Ok (fold_left Rmax r x) end.
(** Element types.  Arithmetic on two integers of a type wraps around. *)
Inductive Dtype := Floating | Integer (signed : bool) (bits : Z).
Definition wrap (d : Dtype) (x : R) : R :=
  match d with
  | Floating => x
  | Integer true w => IZR ((Rfloor x + 2 ^ (w - 1)) mod 2 ^ w - 2 ^ (w - 1))
  | Integer false w => IZR (Rfloor x mod 2 ^ w)
  end.
(** .astype(np.uint8) of a value between 0 and 255: truncation. *)
Definition to_uint8 (x : R) : Z := Rfloor x.
(** .astype(np.uint8) of an integer: the low eight bits. *)
Definition low_byte (x : R) : Z := (Rfloor x mod 256)%Z.

Fixpoint map_res {A B} (f : A -> res B) (l : list A) : res (list B) :=
  match l with
  | [] => Ok []
  | x :: r => bind (f x) (fun y => bind (map_res f r) (fun ys => Ok (y :: ys)))
  end.

(** *** Dynamic range adjustment *)
Record Dra := mkDra { suggested_min : R; suggested_max : R; actual_min : R; actual_max : R }.

(** dynamic_range_adjustment.py:57-59. *)
Fixpoint first_nonzero (l : list R) : nat :=
  match l with
  | [] => O
  | c :: r => if Req_EM_T c 0 then S (first_nonzero r) else O
  end.
(** dynamic_range_adjustment.py:61-63: downwards from index [i]. *)
Fixpoint last_nonzero (l : list R) (i : nat) : nat :=
  match i with
  | O => O
  | S j => if Req_EM_T (nth i l 0) 0 then last_nonzero l j else i
  end.
(** dynamic_range_adjustment.py:66-68. *)
Fixpoint cumulative (before : R) (l : list R) : list R :=
  match l with
  | [] => []
  | c :: r => (c + before) :: cumulative (c + before) r
  end.
(** dynamic_range_adjustment.py:74-76: upwards from index [i], [left] buckets are above it. *)
Fixpoint find_low (cum : list R) (threshold : R) (i left : nat) : nat :=
  match left with
  | O => i
  | S k => if Rlt_dec (nth i cum 0) threshold then find_low cum threshold (S i) k else i
  end.
(** dynamic_range_adjustment.py:79-81: downwards from index [i]. *)
Fixpoint find_high (cum : list R) (threshold : R) (i : nat) : nat :=
  match i with
  | O => O
  | S j => if Rgt_dec (nth i cum 0) threshold then find_high cum threshold j else i
  end.
(** dynamic_range_adjustment.py:51-54: None and zero both count as not given. *)
Definition bucket_value (given : option R) (default : R) : R :=
  match given with
  | None => default
  | Some v => if Req_EM_T v 0 then default else v
  end.

(** dynamic_range_adjustment.py:28-92 [DRAParameters.from_counts]; [minus last first] is the
    subtraction of line 86, which depends on the types of the two ends. *)
Definition from_counts_with (minus : R -> R -> R) (counts : list R) (first last : option R) (min_percentage max_percentage a b : R) : res Dra :=
  let n := List.length counts in
  match n with
  | O => Err IndexError
  | S m =>
    let first := bucket_value first 0 in
    let last := bucket_value last (INR n) in
    let amin := INR (first_nonzero counts) in
    let amax := INR (last_nonzero counts m) in
    let cum := cumulative 0 counts in
    let max_counts := nth m cum 0 in
    let e_min := INR (find_low cum (min_percentage * max_counts) 0 m) in
    let e_max := INR (find_high cum (max_percentage * max_counts) m) in
    let min_value := Rmax amin (e_min - a * (e_max - e_min)) in
    let max_value := Rmin amax (e_max + b * (e_max - e_min)) in
    let step := minus last first / INR n in
    Ok (mkDra (min_value * step + first) (max_value * step + first) (amin * step + first) (amax * step + first))
  end.
(** The ends are Python floats. *)
Definition from_counts := from_counts_with Rminus.

(** *** Output types and scales *)
Inductive GdalType := Byte | UInt16 | Int16 | UInt32 | Int32 | UInt64 | Int64 | Float32 | Float64 | OtherType.
Inductive RangeAdjustment := NoAdjustment | MinMax | DRA.

(** gdal_utils.py:73-112 [get_minmax_for_type]. *)
Definition get_minmax_for_type (t : GdalType) : Z * Z :=
  (match t with
   | Byte => (0, 2 ^ 8 - 1)
   | UInt16 => (0, 2 ^ 16 - 1)
   | Int16 => (- (2 ^ 15), 2 ^ 15 - 1)
   | UInt32 => (0, 2 ^ 32 - 1)
   | Int32 => (- (2 ^ 31), 2 ^ 31 - 1)
   | UInt64 => (0, 2 ^ 64 - 1)
   | Int64 => (- (2 ^ 63), 2 ^ 63 - 1)
   | Float32 => (- (34028235 * 10 ^ 31), 34028235 * 10 ^ 31)
   | Float64 => (- (17976931348623157 * 10 ^ 292), 17976931348623157 * 10 ^ 292)
   | OtherType => (0, 255)
   end)%Z.

(** What is asked of a raster band: its type, band.GetStatistics(1, 1), which raises for a band without
    valid pixels, and band.GetHistogram(buckets, min, max). *)
Record Band := mkBand { band_type : GdalType; statistics : res (R * R); histogram : Z -> R -> R -> res (list R) }.
(** [source min, source max, output min, output max]. *)
Record Scale := mkScale { source_min : R; source_max : R; output_min : R; output_max : R }.

(** int(x): truncation towards zero. *)
Definition truncate (x : R) : Z := if Rlt_dec x 0 then Rceil x else Rfloor x.

(** gdal_utils.py:133-177: one band. *)
Definition band_scale (desired : option GdalType) (adjust : RangeAdjustment) (b : Band) : res Scale :=
  let range := get_minmax_for_type (band_type b) in
  let out := get_minmax_for_type (match desired with None => band_type b | Some t => t end) in
  let omin := IZR (fst out) in let omax := IZR (snd out) in
  match adjust with
  | NoAdjustment => Ok (mkScale (IZR (fst range)) (IZR (snd range)) omin omax)
  | _ =>
    bind (statistics b) (fun '(lo, hi) =>
    let buckets := match band_type b with Float32 | Float64 => 255%Z | _ => truncate (hi - lo) end in
    bind (histogram b buckets lo hi) (fun counts =>
    bind (from_counts counts (Some lo) (Some hi) (2/100) (98/100) (2/10) (4/10)) (fun d =>
    Ok match adjust with
       | MinMax => mkScale (actual_min d) (actual_max d) omin omax
       | _ => mkScale (suggested_min d) (suggested_max d) omin omax
       end)))
  end.
(** gdal_utils.py:115-179 [get_type_and_scales]: the type is that of the last band. *)
Definition get_type_and_scales (bands : list Band) (desired : option GdalType) (adjust : RangeAdjustment) : res (GdalType * list Scale) :=
  let output := match desired with
                | None => List.last (List.map band_type bands) Byte
                | Some t => match bands with [] => Byte | _ => t end
                end in
  bind (map_res (band_scale desired adjust) bands) (fun s => Ok (output, s)).
(** What gdal.Translate does with scaleParams. *)
Definition apply_scale (s : Scale) (v : R) : R :=
  output_min s + (v - source_min s) * (output_max s - output_min s) / (source_max s - source_min s).

(** *** Display normalisation *)

(** gdal_tile_factory.py:445-462 [_normalize_band_minmax].  [lo] and [hi] are band.GetMinimum() and
    GetMaximum(); the subtraction of the tile's own minimum is done in the array's type. *)
Definition normalize_band_minmax (d : Dtype) (lo hi : option R) (pixels : list R) : res (list Z) :=
  bind (match lo with Some m => Ok (fun p => p - m) | None => bind (np_min pixels) (fun m => Ok (fun p => wrap d (p - m))) end) (fun difference =>
  bind (match hi with Some m => Ok m | None => np_max pixels end) (fun maximum =>
  Ok (List.map (fun p => to_uint8 (clip 0 255 (difference p * (255 / Rmax maximum 1)))) pixels))).

(** gdal_tile_factory.py:464-488 [_normalize_band_dra]; [hist] is band.GetHistogram.  When both ends are
    the tile's own their difference is taken in the array's type, here and in [from_counts].
    Simplification: a tile whose maximum is 0 has a Python integer, the number of buckets, for its
    last bucket; this difference wraps as well (numpy 2). *)
Definition normalize_band_dra (d : Dtype) (hist : Z -> R -> R -> res (list R)) (lo hi : option R) (pixels : list R) : res (list Z) :=
  bind (match lo with Some m => Ok m | None => np_min pixels end) (fun minimum =>
  bind (match hi with Some m => Ok m | None => np_max pixels end) (fun maximum =>
  let minus x y := match lo, hi with None, None => wrap d (x - y) | _, _ => x - y end in
  bind (hist (Z.max 256 (truncate (minus maximum minimum))) minimum maximum) (fun counts =>
  bind (from_counts_with minus counts (Some minimum) (Some maximum) (2/100) (97/100) (2/10) (4/10)) (fun d =>
  Ok (List.map (fun p => to_uint8 (clip 0 255 (255 * (p - suggested_min d) / Rmax (suggested_max d - suggested_min d) 1))) pixels))))).

(** *** SAR images *)

(** sar_complex_imageop.py:13-39 [image_pixels_to_complex] for one pixel (re, im) or (amplitude,
    phase).  [table] is indexed by the amplitude, an unsigned byte. *)
Definition pixel_to_complex (pixel_type : option string) (table : option (list R)) (p : R * R) : res (R * R) :=
  match pixel_type with
  | None => Ok p
  | Some t =>
    if (String.eqb t "RE32F_IM32F" || String.eqb t "RE16I_IM16I")%bool then Ok p
    else if String.eqb t "AMP8I_PHS8I" then
      let phase := snd p / 256 in
      bind (match table with
            | None => Ok (fst p)
            | Some l => match nth_error l (Z.to_nat (Rfloor (fst p))) with Some a => Ok a | None => Err IndexError end
            end) (fun amplitude =>
      Ok (amplitude * cos (2 * PI * phase), amplitude * sin (2 * PI * phase)))
    else Err ValueError
  end.

(** sar_complex_imageop.py:42-50 [complex_to_power_value] for one pixel.  np.square keeps the
    element type; np.sum adds 16 bit integers as 64 bit ones. *)
Definition power_value (d : Dtype) (p : R * R) : R := wrap d (fst p * fst p) + wrap d (snd p * snd p).

(** sar_complex_imageop.py:53-60 [power_value_in_decibels]. *)
Definition decibels (p : R) : R := 10 * (ln p / ln 10).

(** sar_complex_imageop.py:63-84 [get_value_bounds] and [linear_mapping]. *)
Definition linear_mapping (l : list R) : res (list R) :=
  bind (np_min l) (fun lo => bind (np_max l) (fun hi =>
  Ok (if Req_EM_T hi lo then List.map (fun _ => 1/2) l else List.map (fun v => clip 0 1 ((v - lo) / (hi - lo))) l))).

(** np.mean of finite values; None stands for nan (an empty array). *)
Definition np_mean (l : list R) : option R := match l with [] => None | _ => Some (sum l / INR (List.length l)) end.

(** sar_complex_imageop.py:87-98 [histogram_stretch_mag_values] for finite values.  None stands for
    an image of infinities and nans, which a mean of zero gives. *)
Definition histogram_stretch (scale : R) (l : list R) : option (list R) :=
  match np_mean l with
  | None => None
  | Some mean => if Req_EM_T (scale * mean) 0 then None else
                 let u := 1 / (scale * mean) in Some (List.map (fun v => clip 0 255 (255 * u * v)) l)
  end.
(** sar_complex_imageop.py:101-119 [quarter_power_mag_values] for finite values. *)
Definition quarter_power (scale : R) (precomputed : option R) (l : list R) : option (list R) :=
  let roots := List.map (fun v => sqrt (Rabs v)) l in
  match (match precomputed with Some m => Some m | None => np_mean roots end) with
  | None => None
  | Some mean => if Req_EM_T (scale * mean) 0 then None else
                 let b := 1 / (scale * mean) in Some (List.map (fun r => clip 0 255 (255 * b * r)) roots)
  end.
(** sar_complex_imageop.py:27-39: the type of the complex array, or ValueError, whatever the pixels;
    amplitudes and phases become floating point numbers. *)
Definition complex_type (d : Dtype) (pixel_type : option string) : res Dtype :=
  match pixel_type with
  | None => Ok d
  | Some t =>
    if (String.eqb t "RE32F_IM32F" || String.eqb t "RE16I_IM16I")%bool then Ok d
    else if String.eqb t "AMP8I_PHS8I" then Ok Floating else Err ValueError
  end.
(** sar_complex_imageop.py:122-142 and 145-166; [display] is one of the two mappings above. *)
Definition sar_image (d : Dtype) (pixel_type : option string) (table : option (list R))
  (display : list R -> option (list R)) (pixels : list (R * R)) : res (option (list R)) :=
  bind (complex_type d pixel_type) (fun c =>
  bind (map_res (pixel_to_complex pixel_type table) pixels) (fun z => Ok (display (List.map (power_value c) z)))).

(** gdal_tile_factory.py:423-443 [_normalize_complex_sar]: [stats] are the (mean, deviation) of the
    bands that have statistics. *)
Definition sar_mean (stats : list (R * R)) : option R :=
  match stats with
  | [] => None
  | _ => Some (sqrt (sum (List.map (fun s => let m := snd s * 50 / 68 + fst s in m * m) stats)))
  end.

(** What is displayed: eight bit channels, or the real values of a quarter power image. *)
Inductive Shown := Channels (l : list (list Z)) | PowerImage (l : option (list R)).

(** gdal_tile_factory.py:373-421 [_normalize_image_for_display] and [_normalize_bands]; a list of
    bands, [normalize n] the normalisation for band [n]. *)
Definition normalize_bands (d : Dtype) (stats : list (R * R)) (normalize : nat -> list R -> res (list Z)) (bands : list (list R)) : res Shown :=
  match bands with
  | [b] => bind (normalize 1%nat b) (fun c => Ok (Channels [c]))
  | [re; im] => bind (sar_image d None None (quarter_power 3 (sar_mean stats)) (combine re im)) (fun i => Ok (PowerImage i))
  | b1 :: b2 :: b3 :: _ =>
    bind (normalize 1%nat b1) (fun c1 => bind (normalize 2%nat b2) (fun c2 => bind (normalize 3%nat b3) (fun c3 => Ok (Channels [c1; c2; c3]))))
  | [] => Err IndexError
  end.
Definition normalize_image (adjust : RangeAdjustment) (d : Dtype) (stats : list (R * R)) (lo hi : nat -> option R)
  (hist : nat -> Z -> R -> R -> res (list R)) (bands : list (list R)) : res Shown :=
  match adjust with
  | DRA => normalize_bands d stats (fun n => normalize_band_dra d (hist n) (lo n) (hi n)) bands
  | MinMax => normalize_bands d stats (fun n => normalize_band_minmax d (lo n) (hi n)) bands
  | NoAdjustment => match bands with [] => Err IndexError | _ => Ok (Channels (List.map (List.map low_byte) bands)) end
  end.
