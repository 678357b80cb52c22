-Q theories Verif
theories/Base.v
theories/BaseFacts.v
theories/Text.v
theories/TextFacts.v
theories/TileModel.v
theories/TileSpec.v
theories/TileProofs.v
theories/TileProps.v
theories/CoordModel.v
theories/CoordFloatModel.v
theories/CoordSpec.v
theories/CoordProofs.v
theories/CoordProps.v
theories/DemModel.v
theories/DemSpec.v
theories/DemProofs.v
theories/DemProps.v
theories/Vec.v
theories/VecFacts.v
theories/SensorBase.v
theories/RpcModel.v
theories/RsmModel.v
theories/PolySpec.v
theories/PolyProofs.v
theories/PolyProps.v
theories/TransformModel.v
theories/TransformSpec.v
theories/TransformProofs.v
theories/TransformProps.v
theories/DemThreadModel.v
theories/DemThreadProps.v
theories/DemGdalModel.v
theories/DemGdalProps.v
theories/SicdModel.v
theories/SicdSpec.v
theories/SicdProofs.v
theories/SicdGroundProofs.v
theories/SicdProps.v
theories/SicdSurfaceProps.v
theories/SarMetaModel.v
theories/SarMetaSpec.v
theories/SarMetaProofs.v
theories/SarMetaProps.v
theories/SicdMetaSpec.v
theories/SicdMetaProps.v
theories/SicdFindSpec.v
theories/SicdFindProps.v
theories/SicdStareSpec.v
theories/SicdStareProps.v
theories/GeodesyModel.v
theories/GeodesyProofs.v
theories/GeodesyHeightProofs.v
theories/GeodesyProps.v
theories/GeodesyUseProps.v
theories/GeodesyVectors.v
theories/GeodesyDemProps.v
theories/GeodesyLevelProps.v
theories/GeodesyTerrainProps.v
theories/DisplayModel.v
theories/DisplaySpec.v
theories/DisplayProofs.v
theories/DisplayProps.v
theories/HistSpec.v
theories/HistProps.v
theories/ConfigModel.v
theories/ConfigSpec.v
theories/ConfigProofs.v
theories/ConfigProps.v
theories/TreModel.v
theories/TreSpec.v
theories/TreProofs.v
theories/TreProps.v
theories/BuilderModel.v
theories/BuilderSpec.v
theories/BuilderProofs.v
theories/BuilderProps.v
theories/BuilderSensorProps.v
theories/ExtModel.v
theories/ExtProps.v
theories/EncodeModel.v
theories/EncodeSpec.v
theories/EncodeProofs.v
theories/EncodeProps.v
theories/EncodeSensorProps.v
theories/EncodeThreadModel.v
theories/EncodeThreadProps.v
theories/FeatureModel.v
theories/FeatureProps.v
theories/GeolocModel.v
theories/GeolocSpec.v
theories/GeolocProofs.v
theories/GeolocProps.v
theories/IndexModel.v
theories/IndexProps.v
theories/OrthoModel.v
theories/OrthoProps.v
theories/OrthoMapProps.v
theories/RoundModel.v
theories/RoundSpec.v
theories/RoundProofs.v
theories/RoundProps.v
theories/FloatSpec.v
theories/FloatModel.v
theories/FloatProofs.v
theories/FloatNearest.v
theories/FloatProps.v
theories/TileFloatSpec.v
theories/TileFloatModel.v
theories/TileFloatProofs.v
theories/TileFloatProps.v
theories/DmsFloatModel.v
theories/DmsFloatSpec.v
theories/DmsFloatProofs.v
theories/DmsFloatProps.v
theories/DisplayFloatModel.v
theories/DisplayFloatSpec.v
theories/DisplayFloatProofs.v
theories/DisplayHistProofs.v
theories/DisplayFloatProps.v
theories/HeapModel.v
theories/HeapSpec.v
theories/HeapProofs.v
theories/HeapProps.v
theories/OpenSpec.v
theories/OpenModel.v
theories/OpenProps.v
theories/TestVectors.v
theories/SensorVectors.v
theories/SchemaModel.v
theories/SchemaEnums.v
theories/SchemaCommon.v
theories/SchemaSicd.v
theories/SchemaSidd.v
theories/SchemaSpec.v
theories/SchemaProofs.v
theories/SchemaProps.v
theories/SchemaCheck.v
theories/ExampleDocs.v
theories/SarDocModel.v
theories/SarDocProofs.v
theories/SarDocProps.v
theories/SarTextSpec.v
theories/SarTextProofs.v
theories/SarTextProps.v
theories/SarVectorProps.v
theories/XsdModel.v
theories/XsdTypes.v
theories/XsdCommon.v
theories/XsdSicd.v
theories/XsdSidd.v
theories/XsdPairs.v
theories/XsdSpec.v
theories/XsdProofs.v
theories/XsdChangeProofs.v
theories/XsdCheck.v
theories/XsdProps.v
theories/XsdChipProps.v
theories/TileDocModel.v
theories/TileDocProofs.v
theories/TileDocProps.v
theories/SarChipProps.v
theories/TileSiddSpec.v
theories/TileSiddProofs.v
theories/TileSiddProps.v
theories/RpcFloatModel.v
theories/RpcFloatSpec.v
theories/RpcFloatProofs.v
theories/RpcFloatProps.v
theories/RsmFloatModel.v
theories/RsmFloatSpec.v
theories/RsmFloatProofs.v
theories/RsmFloatProps.v
theories/SectionFloatModel.v
theories/SectionFloatProofs.v
theories/SectionFloatProps.v
theories/LongitudeFloatModel.v
theories/LongitudeFloatProps.v
theories/SicdPixelFloatModel.v
theories/SicdPixelFloatProps.v
theories/GridFloatModel.v
theories/GridFloatProps.v
theories/FloatRunProps.v
theories/ImageVectors.v
theories/ExampleTres.v
theories/TreVectors.v
