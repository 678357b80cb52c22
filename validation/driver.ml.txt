open Base
open Vec
open TileModel
open SensorBase
open SicdModel
open SarMetaModel
open BuilderModel
open OpenModel
open Data
let pi = 4.0 *. atan 1.0
let rad d = d *. pi /. 180.
let deg r = r *. 180. /. pi
let a = 6378137.0 let f = 1. /. 298.257223563
let e2 = f *. (2. -. f)
let to_geocentric (g:coq_Geodetic) =
  let n = a /. sqrt (1. -. e2 *. sin g.latitude ** 2.) in
  {vx=(n+.g.elevation)*.cos g.latitude*.cos g.longitude; vy=(n+.g.elevation)*.cos g.latitude*.sin g.longitude; vz=(n*.(1.-.e2)+.g.elevation)*.sin g.latitude}
let to_geodetic v =
  let p = sqrt (v.vx*.v.vx+.v.vy*.v.vy) in
  let lat = ref (atan2 v.vz (p*.(1.-.e2))) in
  let h = ref 0. in
  for _=1 to 30 do
    let n = a /. sqrt (1. -. e2 *. sin !lat ** 2.) in
    h := p *. cos !lat +. v.vz *. sin !lat -. a *. sqrt (1. -. e2 *. sin !lat ** 2.);
    lat := atan2 v.vz (p *. (1. -. e2 *. n /. (n +. !h)))
  done;
  {longitude=atan2 v.vy v.vx; latitude= !lat; elevation= !h}
(* least squares by Householder-free normal equations with scaling: use Gram-Schmidt QR *)
let lstsq (m: float list list) (b: float list) =
  let rows = Array.of_list (List.map Array.of_list m) and bb = Array.of_list b in
  let nr = Array.length rows in let nc = Array.length rows.(0) in
  (* column scaling *)
  let sc = Array.init nc (fun j -> let s = ref 0. in for i=0 to nr-1 do s := !s +. rows.(i).(j)**2. done; if !s=0. then 1. else sqrt !s) in
  let q = Array.make_matrix nr nc 0. and r = Array.make_matrix nc nc 0. in
  for j=0 to nc-1 do
    let v = Array.init nr (fun i -> rows.(i).(j) /. sc.(j)) in
    for _=1 to 2 do
    for k=0 to j-1 do
      let d = ref 0. in for i=0 to nr-1 do d := !d +. q.(i).(k)*.v.(i) done;
      r.(k).(j) <- r.(k).(j) +. !d;
      for i=0 to nr-1 do v.(i) <- v.(i) -. !d *. q.(i).(k) done
    done done;
    let n = sqrt (Array.fold_left (fun s x -> s+.x*.x) 0. v) in
    r.(j).(j) <- n; for i=0 to nr-1 do q.(i).(j) <- v.(i) /. n done
  done;
  let y = Array.init nc (fun j -> let d = ref 0. in for i=0 to nr-1 do d := !d +. q.(i).(j)*.bb.(i) done; !d) in
  for j=nc-1 downto 0 do
    for k=j+1 to nc-1 do y.(j) <- y.(j) -. r.(j).(k)*.y.(k) done;
    y.(j) <- y.(j) /. r.(j).(j)
  done;
  Ok (Array.to_list (Array.mapi (fun j x -> x /. sc.(j)) y))
(* Nelder-Mead, scipy defaults, maxiter 200*2, xatol fatol 1e-4? use tight *)
let nelder_mead f simplex =
  let ev p = match f p with Ok v -> v | Err _ -> failwith "objective" in
  let s = ref (List.map (fun p -> (ev p, p)) simplex) in
  let it = ref 0 in
  while !it < 2000 do
    incr it;
    s := List.sort compare !s;
    let [(f0,x0);(f1,x1);(f2,x2)] = !s in
    let cx = (fst x0+.fst x1)/.2. and cy=(snd x0+.snd x1)/.2. in
    let at t = (cx+.t*.(fst x2-.cx), cy+.t*.(snd x2-.cy)) in
    let r = at (-1.) in let fr = ev r in
    if fr < f0 then (let e = at (-2.) in let fe = ev e in s := [(f0,x0);(f1,x1);(if fe<fr then (fe,e) else (fr,r))])
    else if fr < f1 then s := [(f0,x0);(f1,x1);(fr,r)]
    else (
      let c = if fr < f2 then at (-0.5) else at 0.5 in let fc = ev c in
      if fc < min fr f2 then s := [(f0,x0);(f1,x1);(fc,c)]
      else (let sh x = ((fst x0+.fst x)/.2.,(snd x0+.snd x)/.2.) in
        s := [(f0,x0); (ev (sh x1), sh x1); (ev (sh x2), sh x2)]))
  done;
  Ok (snd (List.hd (List.sort compare !s)))
let cv = { TreModel.to_int=(fun s -> int_of_string_opt (let s = String.trim s in (* leading zeros are fine *) s));
           TreModel.to_float=(fun s -> float_of_string_opt (String.trim s)) }
let bs = open_builders cv true to_geocentric to_geodetic lstsq (fun f _ s -> nelder_mead f s) (fun f _ _ s -> nelder_mead f s) (fun _ -> Err ValueError) (fun _ -> Err ValueError)
let build w h tres sel gcps =
  match factory_build bs cv (fun s -> Ok s) (fun _ -> "") {md_width=w;md_height=h;md_tres=tres;md_dess=None;md_geo_transform=None;md_proj_wkt=None;md_gcps=gcps;md_selected=sel} with
  | Ok (Some m) -> m | Ok None -> failwith "no model" | Err e -> failwith "error"
let rec kind = function Optical _ -> "Optical" | SarSicd _ -> "SICD" | SarSidd _ -> "SIDD" | OnChip (_,m) -> "Chip("^kind m^")" | Guided (a,b) -> "Guided("^kind a^","^kind b^")"
let geo lon lat h = {longitude=rad lon;latitude=rad lat;elevation=h}
let w2i m g = match opened_world_to_image to_geodetic to_geocentric m g with Ok i -> (i.ix,i.iy) | Err _ -> failwith "w2i"
let i2w m x y = match opened_image_to_world to_geodetic to_geocentric m {ix=x;iy=y} None None with Ok (Some g) -> g | _ -> failwith "i2w"
let checks = ref 0 and bad = ref 0
let close name got want tol =
  incr checks; let ok = abs_float (got -. want) <= tol in if not ok then incr bad;
  Printf.printf "%s %-40s got %.9g want %.9g tol %g\n" (if ok then "ok  " else "FAIL") name got want tol
let allclose name got want atol = close name got want (atol +. 1e-5 *. abs_float want)
let () =
  (* test_sensor_model_factory.py *)
  let m = build 2048 2048 (Some ms_tres) None None in
  print_endline (kind m);
  List.iteri (fun k (lon,lat,h,x,y) -> let (gx,gy) = w2i m (geo lon lat h) in
    allclose (Printf.sprintf "rpc corner %d x" k) gx x 1.; allclose (Printf.sprintf "rpc corner %d y" k) gy y 1.)
   [121.48749,25.02860,27.1,0.,0.;121.68566,25.01000,234.7,8819.,0.;121.68595,24.91148,403.1,8819.,5211.;121.48975,24.92772,431.4,0.,5211.];
  (* round trip through the composite model *)
  let g = i2w m 1000. 2000. in let (x,y) = w2i m g in close "rpc round trip x" x 1000. 0.01; close "rpc round trip y" y 2000. 0.01;
  print_endline (kind (build 2048 2048 (Some ms_tres) (Some [TAFFINE;TPROJECTIVE]) None));
  let m = build 512 512 (Some chip_tres) (Some [TPROJECTIVE;TRPC]) None in
  print_endline (kind m);
  let g = i2w m 263. 280. in
  close "chip lon" (deg g.longitude) 44.35267 0.00001; close "chip lat" (deg g.latitude) 33.36305 0.00001; close "chip h" g.elevation 31. 1.;
  let (x,y) = w2i m (geo 44.35267 33.36305 31.) in close "chip x" x 263. 3.; close "chip y" y 280. 3.;
  let m = build 2048 2048 (Some rsm_tres) (Some [TRSM]) None in
  print_endline (kind m);
  let (x,y) = w2i m (geo (-117.03881) 33.16173 (-6.7)) in close "rsm x" x 0.5 1.; close "rsm y" y 0.5 1.;
  let g = i2w m 0.5 0.5 in close "rsm lon" g.longitude (rad (-117.03881)) 0.00001; close "rsm lat" g.latitude (rad 33.16173) 0.00001;
  print_endline (kind (build 2048 2048 (Some cscrna_tres) None None));
  let m = build 2048 2048 None None (Some (List.map (fun (a,b,x,y) -> {gcp_x=a;gcp_y=b;gcp_z=0.;gcp_pixel=x;gcp_line=y})
     [121.67722222222223, 13.924722222222222, 0.5, 0.5; 121.8261111111111, 13.91861111111111, 10239.5, 0.5; 121.8261111111111, 13.858333333333333, 10239.5, 4095.5; 121.67722222222223, 13.864166666666666, 0.5, 4095.5])) in
  let g = i2w m 5120. 2048. in allclose "gcp lon" g.longitude (rad 121.7518378) 1e-8;  allclose "gcp lat" g.latitude (rad 13.89145147) 1e-8;
  (* test_sicd_sensor_model.py *)
  List.iter (fun (n,d,(lon,lat,hae),icps,dem) ->
    let m = match sicd_from_dataclass d with Ok b -> SarSicd b | _ -> failwith "sicd" in
    let sc = float_of_int d.scp_col and sr = float_of_int d.scp_row in
    let g = if dem then
      (match opened_image_to_world to_geodetic to_geocentric m {ix=sc;iy=sr} (Some {set_elevation=(fun g -> {g with elevation=(to_geodetic d.scp_position).elevation}); describe_region=(fun g -> let h=(to_geodetic d.scp_position).elevation in Some ((h-.100.,h+.100.),30.))}) None with Ok (Some g) -> g | Ok None -> failwith "nan" | Err _ -> failwith "dem err")
      else i2w m sc sr in
    let e = to_geocentric g in
    allclose (n^" ecf x") e.vx d.scp_position.vx 0.001; allclose (n^" ecf y") e.vy d.scp_position.vy 0.001; allclose (n^" ecf z") e.vz d.scp_position.vz 0.001;
    allclose (n^" lon") g.longitude (rad lon) 1e-8; allclose (n^" lat") g.latitude (rad lat) 1e-8; 
    allclose (n^" hae") g.elevation hae (if dem then 1e-5 else 1e-3);
    let (x,y) = w2i m (geo lon lat hae) in allclose (n^" col") x sc 1e-8; allclose (n^" row") y sr 1e-8;
    let nc = float_of_int d.image_data.num_cols and nr = float_of_int d.image_data.num_rows in
    List.iter (fun (ix,lo,la) -> let (x,y) = match ix with "1:FRFC" -> (0.,0.) | "2:FRLC" -> (nc,0.) | "3:LRLC" -> (nc,nr) | _ -> (0.,nr) in
      let g = i2w m x y in allclose (n^" icp lon "^ix) g.longitude (rad lo) 1e-5; allclose (n^" icp lat "^ix) g.latitude (rad la) 1e-5;
      let (x',y') = w2i m g in close (n^" round trip col") x' x 0.01; close (n^" round trip row") y' y 0.01) icps)
   ["rma",sicd_rma,llh_rma,icp_rma,true; "rma hae",sicd_rma,llh_rma,icp_rma,false; "capella",sicd_capella,llh_capella,icp_capella,false; "pfa",sicd_pfa,llh_pfa,icp_pfa,false];
  (* test_sidd_sensor_model.py *)
  let m = match sidd_from_dataclass lstsq sidd_full with Ok b -> SarSidd b | _ -> failwith "sidd" in
  let scp = to_geodetic sidd_full.ref_position in
  let (x,y) = w2i m scp in allclose "sidd col" x sidd_full.ref_col 1.; allclose "sidd row" y sidd_full.ref_row 1.;
  let g = i2w m sidd_full.ref_col sidd_full.ref_row in allclose "sidd lon" g.longitude scp.longitude 1e-8; allclose "sidd lat" g.latitude scp.latitude 1e-8; allclose "sidd h" g.elevation scp.elevation 1e-8;
  let nc = 15327. and nr = 15328. in
  List.iter (fun (ix,lo,la) -> let (x,y) = match ix with "1:FRFC" -> (0.,0.) | "2:FRLC" -> (nc,0.) | "3:LRLC" -> (nc,nr) | _ -> (0.,nr) in
      let g = i2w m x y in allclose ("sidd icp lon "^ix) g.longitude (rad lo) 1e-6; allclose ("sidd icp lat "^ix) g.latitude (rad la) 1e-6;
      let (x',y') = w2i m (geo lo la scp.elevation) in allclose "sidd icp col" x' x 0.5; allclose "sidd icp row" y' y 0.5) icp_full;
  let s = match sidd_from_dataclass lstsq sidd_chipped with Ok b -> b | _ -> failwith "sidd" in
  let m = SarSidd s in let full = SarSidd {s with chip_transform=None} in
  let g = i2w m 0. 0. and h = i2w full 512. 512. in
  allclose "chip lon" g.longitude h.longitude 1e-8; allclose "chip lat" g.latitude h.latitude 1e-8; allclose "chip h" g.elevation h.elevation 1e-8;
  Printf.printf "%d checks, %d failures\n" !checks !bad
