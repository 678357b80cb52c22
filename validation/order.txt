Ascii.ml BinNums.ml BinPosDef.ml Datatypes.ml List0.ml Nat.ml PeanoNat.ml RIneq.ml R_sqrt.ml Raxioms.ml Rbasic_fun.ml Ring_theory.ml Rtrigo1.ml Rtrigo_def.ml Specif.ml String0.ml TileModel.ml BinPos.ml BinNat.ml BinInt.ml Text.ml ZArith_dec.ml QArith_base.ml ConstructiveCauchyReals.ml QExtra.ml Qabs.ml ClassicalDedekindReals.ml Rdefinitions.ml Rpow_def.ml Base.ml CoordModel.ml DemModel.ml SensorBase.ml Vec.ml TransformModel.ml SicdModel.ml SarMetaModel.ml RsmModel.ml RpcModel.ml TreModel.ml BuilderModel.ml OpenModel.ml 
