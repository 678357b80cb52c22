Require Import Extraction ExtrOcamlBasic ExtrOcamlNativeString ExtrOcamlNatInt ExtrOcamlZInt.
Require Import ZArith Reals.
Require Import Verif.Base Verif.SicdModel Verif.SarMetaModel Verif.RsmModel Verif.RpcModel Verif.TreModel Verif.BuilderModel Verif.OpenModel Verif.TransformModel Verif.CoordModel Verif.TileModel Verif.DemModel Verif.DisplayModel.
Extract Constant R => "float".
Extract Inlined Constant Rdefinitions.RbaseSymbolsImpl.R => "float".
Extract Constant Rdefinitions.RbaseSymbolsImpl.R0 => "0.0".
Extract Constant Rdefinitions.RbaseSymbolsImpl.R1 => "1.0".
Extract Constant Rdefinitions.RbaseSymbolsImpl.Rplus => "( +. )".
Extract Constant Rdefinitions.RbaseSymbolsImpl.Rmult => "( *. )".
Extract Constant Rdefinitions.RbaseSymbolsImpl.Ropp => "( ~-. )".
Extract Constant Rdefinitions.RinvImpl.Rinv => "(fun x -> 1.0 /. x)".
Extract Constant Rdiv => "( /. )".
Extract Constant Rminus => "( -. )".
Extract Constant IZR => "float_of_int".
Extract Constant INR => "float_of_int".
Extract Constant PI => "(4.0 *. atan 1.0)".
Extract Constant sqrt => "Stdlib.sqrt".
Extract Constant cos => "Stdlib.cos".
Extract Constant sin => "Stdlib.sin".
Extract Constant ln => "Stdlib.log".
Extract Constant up => "(fun x -> int_of_float (Stdlib.floor x) + 1)".
Extract Constant Rlt_dec => "(fun (a:float) b -> a < b)".
Extract Constant Rle_dec => "(fun (a:float) b -> a <= b)".
Extract Constant Rgt_dec => "(fun (a:float) b -> a > b)".
Extract Constant Req_EM_T => "(fun (a:float) b -> a = b)".
Extract Constant Rmax => "(fun (a:float) b -> if a < b then b else a)".
Extract Constant Rmin => "(fun (a:float) b -> if a < b then a else b)".
Extract Constant Rabs => "Stdlib.abs_float".
Extract Constant total_order_T => "(fun (a:float) b -> failwith ""total_order_T"")".
Extraction Blacklist String List.
Separate Extraction sicd_from_dataclass sicd_image_to_world sicd_world_to_image sidd_from_dataclass sidd_image_to_world sidd_world_to_image sidd_update
  rsm_sensor sectioned_sensor make_ground_domain rpc_sensor open_builders opened_image_to_world opened_world_to_image factory_build format_coord bilinear equilateral_triangle to_dms_string.
