(** The complex types of schemas/sidd/SICommonTypes.xsd, SICommonTypes_V1.0.xsd, SFA.xsd and external; a table made by a script from the schemas.
    Extensions, attribute groups and references are expanded; the type of an element without a named type has the
    name of the enclosing type and the element. *)
Require Import ZArith String List.
Require Import Verif.SchemaModel Verif.XsdModel Verif.XsdTypes.
Import ListNotations.
Local Open Scope string_scope.

(** schemas/sidd/SICommonTypes.xsd:6-12. *)
Definition x_common01_XYZType : XClass := mkXClass "common01.XYZType"
  (PSequence [
    PElement (tns_common01, "X") (XSimple SNumber) 1 (Some 1);
    PElement (tns_common01, "Y") (XSimple SNumber) 1 (Some 1);
    PElement (tns_common01, "Z") (XSimple SNumber) 1 (Some 1)])
  None [].

(** schemas/sidd/SICommonTypes.xsd:13-19. *)
Definition x_common01_XYZAttributeType : XClass := mkXClass "common01.XYZAttributeType"
  (PSequence [
    PElement (tns_common01, "X") (XSimple SNumber) 1 (Some 1);
    PElement (tns_common01, "Y") (XSimple SNumber) 1 (Some 1);
    PElement (tns_common01, "Z") (XSimple SNumber) 1 (Some 1)])
  None [
    mkXAttribute ("", "name") SText false].

(** schemas/sidd/SICommonTypes.xsd:20-26. *)
Definition x_common01_LLHType : XClass := mkXClass "common01.LLHType"
  (PSequence [
    PElement (tns_common01, "Lat") (XSimple SNumber) 1 (Some 1);
    PElement (tns_common01, "Lon") (XSimple SNumber) 1 (Some 1);
    PElement (tns_common01, "HAE") (XSimple SNumber) 1 (Some 1)])
  None [].

(** schemas/sidd/SICommonTypes.xsd:27-32. *)
Definition x_common01_LatLonType : XClass := mkXClass "common01.LatLonType"
  (PSequence [
    PElement (tns_common01, "Lat") (XSimple SNumber) 1 (Some 1);
    PElement (tns_common01, "Lon") (XSimple SNumber) 1 (Some 1)])
  None [].

(** schemas/sidd/SICommonTypes.xsd:47-53. *)
Definition x_common01_LatLonCornerType : XClass := mkXClass "common01.LatLonCornerType"
  (PSequence [
    PElement (tns_common01, "Lat") (XSimple SNumber) 1 (Some 1);
    PElement (tns_common01, "Lon") (XSimple SNumber) 1 (Some 1)])
  None [
    mkXAttribute ("", "index") s_common01_CornerAttrType true].

(** schemas/sidd/SICommonTypes.xsd:54-60. *)
Definition x_common01_LatLonCornerStringType : XClass := mkXClass "common01.LatLonCornerStringType"
  (PSequence [
    PElement (tns_common01, "Lat") (XSimple SNumber) 1 (Some 1);
    PElement (tns_common01, "Lon") (XSimple SNumber) 1 (Some 1)])
  None [
    mkXAttribute ("", "index") s_common01_CornerStringType true].

(** schemas/sidd/SICommonTypes.xsd:61-68. *)
Definition x_common01_LatLonHAECornerType : XClass := mkXClass "common01.LatLonHAECornerType"
  (PSequence [
    PElement (tns_common01, "Lat") (XSimple SNumber) 1 (Some 1);
    PElement (tns_common01, "Lon") (XSimple SNumber) 1 (Some 1);
    PElement (tns_common01, "HAE") (XSimple SNumber) 1 (Some 1)])
  None [
    mkXAttribute ("", "index") s_common01_CornerAttrType true].

(** schemas/sidd/SICommonTypes.xsd:69-75. *)
Definition x_common01_LatLonVertexType : XClass := mkXClass "common01.LatLonVertexType"
  (PSequence [
    PElement (tns_common01, "Lat") (XSimple SNumber) 1 (Some 1);
    PElement (tns_common01, "Lon") (XSimple SNumber) 1 (Some 1)])
  None [
    mkXAttribute ("", "index") SInt32 true].

(** schemas/sidd/SICommonTypes.xsd:76-83. *)
Definition x_common01_LLHCornerStringType : XClass := mkXClass "common01.LLHCornerStringType"
  (PSequence [
    PElement (tns_common01, "Lat") (XSimple SNumber) 1 (Some 1);
    PElement (tns_common01, "Lon") (XSimple SNumber) 1 (Some 1);
    PElement (tns_common01, "HAE") (XSimple SNumber) 1 (Some 1)])
  None [
    mkXAttribute ("", "index") s_common01_CornerStringType true].

(** schemas/sidd/SICommonTypes.xsd:84-89. *)
Definition x_common01_RowColIntType : XClass := mkXClass "common01.RowColIntType"
  (PSequence [
    PElement (tns_common01, "Row") (XSimple SInt32) 1 (Some 1);
    PElement (tns_common01, "Col") (XSimple SInt32) 1 (Some 1)])
  None [].

(** schemas/sidd/SICommonTypes.xsd:90-95. *)
Definition x_common01_RowColDoubleType : XClass := mkXClass "common01.RowColDoubleType"
  (PSequence [
    PElement (tns_common01, "Row") (XSimple SNumber) 1 (Some 1);
    PElement (tns_common01, "Col") (XSimple SNumber) 1 (Some 1)])
  None [].

(** schemas/sidd/SICommonTypes.xsd:104-109. *)
Definition x_common01_ComplexType : XClass := mkXClass "common01.ComplexType"
  (PSequence [
    PElement (tns_common01, "Real") (XSimple SNumber) 1 (Some 1);
    PElement (tns_common01, "Imag") (XSimple SNumber) 1 (Some 1)])
  None [].

(** schemas/sidd/SICommonTypes.xsd:110-116. *)
Definition x_common01_RowColVertexType : XClass := mkXClass "common01.RowColVertexType"
  (PSequence [
    PElement (tns_common01, "Row") (XSimple SInt32) 1 (Some 1);
    PElement (tns_common01, "Col") (XSimple SInt32) 1 (Some 1)])
  None [
    mkXAttribute ("", "index") SInt32 true].

(** schemas/sidd/SICommonTypes.xsd:117-123. *)
Definition x_common01_PolyCoef1DType : XClass := mkXClass "common01.PolyCoef1DType"
  (PSequence [])
  (Some SNumber) [
    mkXAttribute ("", "exponent1") SInt32 true].

(** schemas/sidd/SICommonTypes.xsd:124-131. *)
Definition x_common01_PolyCoef2DType : XClass := mkXClass "common01.PolyCoef2DType"
  (PSequence [])
  (Some SNumber) [
    mkXAttribute ("", "exponent1") SInt32 true;
    mkXAttribute ("", "exponent2") SInt32 true].

(** schemas/sidd/SICommonTypes.xsd:132-137. *)
Definition x_common01_Poly1DType : XClass := mkXClass "common01.Poly1DType"
  (PSequence [
    PElement (tns_common01, "Coef") (XComplex "common01.PolyCoef1DType") 1 None])
  None [
    mkXAttribute ("", "order1") SInt32 true].

(** schemas/sidd/SICommonTypes.xsd:138-144. *)
Definition x_common01_Poly2DType : XClass := mkXClass "common01.Poly2DType"
  (PSequence [
    PElement (tns_common01, "Coef") (XComplex "common01.PolyCoef2DType") 1 None])
  None [
    mkXAttribute ("", "order1") SInt32 true;
    mkXAttribute ("", "order2") SInt32 true].

(** schemas/sidd/SICommonTypes.xsd:145-151. *)
Definition x_common01_XYZPolyType : XClass := mkXClass "common01.XYZPolyType"
  (PSequence [
    PElement (tns_common01, "X") (XComplex "common01.Poly1DType") 1 (Some 1);
    PElement (tns_common01, "Y") (XComplex "common01.Poly1DType") 1 (Some 1);
    PElement (tns_common01, "Z") (XComplex "common01.Poly1DType") 1 (Some 1)])
  None [].

(** schemas/sidd/SICommonTypes.xsd:152-158. *)
Definition x_common01_XYZPolyAttributeType : XClass := mkXClass "common01.XYZPolyAttributeType"
  (PSequence [
    PElement (tns_common01, "X") (XComplex "common01.Poly1DType") 1 (Some 1);
    PElement (tns_common01, "Y") (XComplex "common01.Poly1DType") 1 (Some 1);
    PElement (tns_common01, "Z") (XComplex "common01.Poly1DType") 1 (Some 1)])
  None [
    mkXAttribute ("", "index") SInt32 true].

(** schemas/sidd/SICommonTypes.xsd:162-168. *)
Definition x_common01_LineType_Endpoint : XClass := mkXClass "common01.LineType/Endpoint"
  (PSequence [
    PElement (tns_common01, "Lat") (XSimple SNumber) 1 (Some 1);
    PElement (tns_common01, "Lon") (XSimple SNumber) 1 (Some 1)])
  None [
    mkXAttribute ("", "index") SInt32 true].

(** schemas/sidd/SICommonTypes.xsd:159-172. *)
Definition x_common01_LineType : XClass := mkXClass "common01.LineType"
  (PSequence [
    PElement (tns_common01, "Endpoint") (XComplex "common01.LineType/Endpoint") 2 None])
  None [
    mkXAttribute ("", "size") SInt32 true].

(** schemas/sidd/SICommonTypes.xsd:176-182. *)
Definition x_common01_PolygonType_Vertex : XClass := mkXClass "common01.PolygonType/Vertex"
  (PSequence [
    PElement (tns_common01, "Lat") (XSimple SNumber) 1 (Some 1);
    PElement (tns_common01, "Lon") (XSimple SNumber) 1 (Some 1)])
  None [
    mkXAttribute ("", "index") SInt32 true].

(** schemas/sidd/SICommonTypes.xsd:173-186. *)
Definition x_common01_PolygonType : XClass := mkXClass "common01.PolygonType"
  (PSequence [
    PElement (tns_common01, "Vertex") (XComplex "common01.PolygonType/Vertex") 3 None])
  None [
    mkXAttribute ("", "size") SInt32 true].

(** schemas/sidd/SICommonTypes.xsd:187-193. *)
Definition x_common01_ArrayDoubleType : XClass := mkXClass "common01.ArrayDoubleType"
  (PSequence [])
  (Some SNumber) [
    mkXAttribute ("", "index") SInt32 true].

(** schemas/sidd/SICommonTypes.xsd:194-200. *)
Definition x_common01_ParameterType : XClass := mkXClass "common01.ParameterType"
  (PSequence [])
  (Some SText) [
    mkXAttribute ("", "name") SText true].

(** schemas/sidd/SICommonTypes.xsd:218-223. *)
Definition x_common01_RadarModeType : XClass := mkXClass "common01.RadarModeType"
  (PSequence [
    PElement (tns_common01, "ModeType") (XSimple s_common01_ModeIdentifierType) 1 (Some 1);
    PElement (tns_common01, "ModeID") (XSimple SText) 0 (Some 1)])
  None [].

(** schemas/sidd/SICommonTypes.xsd:261-272. *)
Definition x_common01_CollectionInfoType : XClass := mkXClass "common01.CollectionInfoType"
  (PSequence [
    PElement (tns_common01, "CollectorName") (XSimple SText) 1 (Some 1);
    PElement (tns_common01, "IlluminatorName") (XSimple SText) 0 (Some 1);
    PElement (tns_common01, "CoreName") (XSimple SText) 1 (Some 1);
    PElement (tns_common01, "CollectType") (XSimple s_common01_CollectIdentifierType) 0 (Some 1);
    PElement (tns_common01, "RadarMode") (XComplex "common01.RadarModeType") 1 (Some 1);
    PElement (tns_common01, "Classification") (XSimple SText) 1 (Some 1);
    PElement (tns_common01, "CountryCode") (XSimple SText) 0 None;
    PElement (tns_common01, "Parameter") (XComplex "common01.ParameterType") 0 None])
  None [].

(** schemas/sidd/SICommonTypes.xsd:273-280. *)
Definition x_common01_ImageCreationType : XClass := mkXClass "common01.ImageCreationType"
  (PSequence [
    PElement (tns_common01, "Application") (XSimple SText) 0 (Some 1);
    PElement (tns_common01, "DateTime") (XSimple SDateTime) 0 (Some 1);
    PElement (tns_common01, "Site") (XSimple SText) 0 (Some 1);
    PElement (tns_common01, "Profile") (XSimple SText) 0 (Some 1)])
  None [].

(** schemas/sidd/SICommonTypes.xsd:295-301. *)
Definition x_common01_ErrorStatisticsType_CompositeSCP_RgAzErr : XClass := mkXClass "common01.ErrorStatisticsType/CompositeSCP/RgAzErr"
  (PSequence [
    PElement (tns_common01, "Rg") (XSimple SNumber) 1 (Some 1);
    PElement (tns_common01, "Az") (XSimple SNumber) 1 (Some 1);
    PElement (tns_common01, "RgAz") (XSimple SNumber) 1 (Some 1)])
  None [].

(** schemas/sidd/SICommonTypes.xsd:304-310. *)
Definition x_common01_ErrorStatisticsType_CompositeSCP_RowColErr : XClass := mkXClass "common01.ErrorStatisticsType/CompositeSCP/RowColErr"
  (PSequence [
    PElement (tns_common01, "Row") (XSimple SNumber) 1 (Some 1);
    PElement (tns_common01, "Col") (XSimple SNumber) 1 (Some 1);
    PElement (tns_common01, "RowCol") (XSimple SNumber) 1 (Some 1)])
  None [].

(** schemas/sidd/SICommonTypes.xsd:291-314. *)
Definition x_common01_ErrorStatisticsType_CompositeSCP : XClass := mkXClass "common01.ErrorStatisticsType/CompositeSCP"
  (PSequence [
    PChoice [
    PElement (tns_common01, "RgAzErr") (XComplex "common01.ErrorStatisticsType/CompositeSCP/RgAzErr") 0 (Some 1);
    PElement (tns_common01, "RowColErr") (XComplex "common01.ErrorStatisticsType/CompositeSCP/RowColErr") 0 (Some 1)]])
  None [].

(** schemas/sidd/SICommonTypes.xsd:330-348. *)
Definition x_common01_ErrorStatisticsType_Components_PosVelErr_CorrCoefs : XClass := mkXClass "common01.ErrorStatisticsType/Components/PosVelErr/CorrCoefs"
  (PSequence [
    PElement (tns_common01, "P1P2") (XSimple SNumber) 1 (Some 1);
    PElement (tns_common01, "P1P3") (XSimple SNumber) 1 (Some 1);
    PElement (tns_common01, "P1V1") (XSimple SNumber) 1 (Some 1);
    PElement (tns_common01, "P1V2") (XSimple SNumber) 1 (Some 1);
    PElement (tns_common01, "P1V3") (XSimple SNumber) 1 (Some 1);
    PElement (tns_common01, "P2P3") (XSimple SNumber) 1 (Some 1);
    PElement (tns_common01, "P2V1") (XSimple SNumber) 1 (Some 1);
    PElement (tns_common01, "P2V2") (XSimple SNumber) 1 (Some 1);
    PElement (tns_common01, "P2V3") (XSimple SNumber) 1 (Some 1);
    PElement (tns_common01, "P3V1") (XSimple SNumber) 1 (Some 1);
    PElement (tns_common01, "P3V2") (XSimple SNumber) 1 (Some 1);
    PElement (tns_common01, "P3V3") (XSimple SNumber) 1 (Some 1);
    PElement (tns_common01, "V1V2") (XSimple SNumber) 1 (Some 1);
    PElement (tns_common01, "V1V3") (XSimple SNumber) 1 (Some 1);
    PElement (tns_common01, "V2V3") (XSimple SNumber) 1 (Some 1)])
  None [].

(** schemas/sidd/SICommonTypes.xsd:351-356. *)
Definition x_common01_ErrorStatisticsType_Components_PosVelErr_PositionDecorr : XClass := mkXClass "common01.ErrorStatisticsType/Components/PosVelErr/PositionDecorr"
  (PSequence [
    PElement (tns_common01, "CorrCoefZero") (XSimple SNumber) 1 (Some 1);
    PElement (tns_common01, "DecorrRate") (XSimple SNumber) 1 (Some 1)])
  None [].

(** schemas/sidd/SICommonTypes.xsd:320-359. *)
Definition x_common01_ErrorStatisticsType_Components_PosVelErr : XClass := mkXClass "common01.ErrorStatisticsType/Components/PosVelErr"
  (PSequence [
    PElement (tns_common01, "Frame") (XSimple s_common01_ErrorFrameType) 1 (Some 1);
    PElement (tns_common01, "P1") (XSimple SNumber) 1 (Some 1);
    PElement (tns_common01, "P2") (XSimple SNumber) 1 (Some 1);
    PElement (tns_common01, "P3") (XSimple SNumber) 1 (Some 1);
    PElement (tns_common01, "V1") (XSimple SNumber) 1 (Some 1);
    PElement (tns_common01, "V2") (XSimple SNumber) 1 (Some 1);
    PElement (tns_common01, "V3") (XSimple SNumber) 1 (Some 1);
    PElement (tns_common01, "CorrCoefs") (XComplex "common01.ErrorStatisticsType/Components/PosVelErr/CorrCoefs") 0 (Some 1);
    PElement (tns_common01, "PositionDecorr") (XComplex "common01.ErrorStatisticsType/Components/PosVelErr/PositionDecorr") 0 (Some 1)])
  None [].

(** schemas/sidd/SICommonTypes.xsd:368-373. *)
Definition x_common01_ErrorStatisticsType_Components_RadarSensor_RangeBiasDecorr : XClass := mkXClass "common01.ErrorStatisticsType/Components/RadarSensor/RangeBiasDecorr"
  (PSequence [
    PElement (tns_common01, "CorrCoefZero") (XSimple SNumber) 1 (Some 1);
    PElement (tns_common01, "DecorrRate") (XSimple SNumber) 1 (Some 1)])
  None [].

(** schemas/sidd/SICommonTypes.xsd:362-376. *)
Definition x_common01_ErrorStatisticsType_Components_RadarSensor : XClass := mkXClass "common01.ErrorStatisticsType/Components/RadarSensor"
  (PSequence [
    PElement (tns_common01, "RangeBias") (XSimple SNumber) 1 (Some 1);
    PElement (tns_common01, "ClockFreqSF") (XSimple SNumber) 0 (Some 1);
    PElement (tns_common01, "TransmitFreqSF") (XSimple SNumber) 0 (Some 1);
    PElement (tns_common01, "RangeBiasDecorr") (XComplex "common01.ErrorStatisticsType/Components/RadarSensor/RangeBiasDecorr") 0 (Some 1)])
  None [].

(** schemas/sidd/SICommonTypes.xsd:384-389. *)
Definition x_common01_ErrorStatisticsType_Components_TropoError_TropoRangeDecorr : XClass := mkXClass "common01.ErrorStatisticsType/Components/TropoError/TropoRangeDecorr"
  (PSequence [
    PElement (tns_common01, "CorrCoefZero") (XSimple SNumber) 1 (Some 1);
    PElement (tns_common01, "DecorrRate") (XSimple SNumber) 1 (Some 1)])
  None [].

(** schemas/sidd/SICommonTypes.xsd:379-392. *)
Definition x_common01_ErrorStatisticsType_Components_TropoError : XClass := mkXClass "common01.ErrorStatisticsType/Components/TropoError"
  (PSequence [
    PElement (tns_common01, "TropoRangeVertical") (XSimple SNumber) 0 (Some 1);
    PElement (tns_common01, "TropoRangeSlant") (XSimple SNumber) 0 (Some 1);
    PElement (tns_common01, "TropoRangeDecorr") (XComplex "common01.ErrorStatisticsType/Components/TropoError/TropoRangeDecorr") 0 (Some 1)])
  None [].

(** schemas/sidd/SICommonTypes.xsd:401-406. *)
Definition x_common01_ErrorStatisticsType_Components_IonoError_IonoRangeVertDecorr : XClass := mkXClass "common01.ErrorStatisticsType/Components/IonoError/IonoRangeVertDecorr"
  (PSequence [
    PElement (tns_common01, "CorrCoefZero") (XSimple SNumber) 1 (Some 1);
    PElement (tns_common01, "DecorrRate") (XSimple SNumber) 1 (Some 1)])
  None [].

(** schemas/sidd/SICommonTypes.xsd:395-409. *)
Definition x_common01_ErrorStatisticsType_Components_IonoError : XClass := mkXClass "common01.ErrorStatisticsType/Components/IonoError"
  (PSequence [
    PElement (tns_common01, "IonoRangeVertical") (XSimple SNumber) 0 (Some 1);
    PElement (tns_common01, "IonoRangeRateVertical") (XSimple SNumber) 0 (Some 1);
    PElement (tns_common01, "IonoRgRgRateCC") (XSimple SNumber) 1 (Some 1);
    PElement (tns_common01, "IonoRangeVertDecorr") (XComplex "common01.ErrorStatisticsType/Components/IonoError/IonoRangeVertDecorr") 0 (Some 1)])
  None [].

(** schemas/sidd/SICommonTypes.xsd:317-412. *)
Definition x_common01_ErrorStatisticsType_Components : XClass := mkXClass "common01.ErrorStatisticsType/Components"
  (PSequence [
    PElement (tns_common01, "PosVelErr") (XComplex "common01.ErrorStatisticsType/Components/PosVelErr") 0 (Some 1);
    PElement (tns_common01, "RadarSensor") (XComplex "common01.ErrorStatisticsType/Components/RadarSensor") 0 (Some 1);
    PElement (tns_common01, "TropoError") (XComplex "common01.ErrorStatisticsType/Components/TropoError") 0 (Some 1);
    PElement (tns_common01, "IonoError") (XComplex "common01.ErrorStatisticsType/Components/IonoError") 0 (Some 1)])
  None [].

(** schemas/sidd/SICommonTypes.xsd:415-419. *)
Definition x_common01_ErrorStatisticsType_AdditionalParms : XClass := mkXClass "common01.ErrorStatisticsType/AdditionalParms"
  (PSequence [
    PElement (tns_common01, "Parameter") (XComplex "common01.ParameterType") 1 None])
  None [].

(** schemas/sidd/SICommonTypes.xsd:288-422. *)
Definition x_common01_ErrorStatisticsType : XClass := mkXClass "common01.ErrorStatisticsType"
  (PSequence [
    PElement (tns_common01, "CompositeSCP") (XComplex "common01.ErrorStatisticsType/CompositeSCP") 0 (Some 1);
    PElement (tns_common01, "Components") (XComplex "common01.ErrorStatisticsType/Components") 0 (Some 1);
    PElement (tns_common01, "AdditionalParms") (XComplex "common01.ErrorStatisticsType/AdditionalParms") 0 (Some 1)])
  None [].

(** schemas/sidd/SICommonTypes.xsd:424-429. *)
Definition x_common01_ValidDataType : XClass := mkXClass "common01.ValidDataType"
  (PSequence [
    PElement (tns_common01, "Vertex") (XComplex "common01.RowColVertexType") 3 None])
  None [
    mkXAttribute ("", "size") SInt32 true].

(** schemas/sidd/SICommonTypes.xsd:442-452. *)
Definition x_common01_RadiometricType : XClass := mkXClass "common01.RadiometricType"
  (PSequence [
    PElement (tns_common01, "NoisePoly") (XComplex "common01.Poly2DType") 0 (Some 1);
    PElement (tns_common01, "RCSSFPoly") (XComplex "common01.Poly2DType") 0 (Some 1);
    PElement (tns_common01, "BetaZeroSFPoly") (XComplex "common01.Poly2DType") 0 (Some 1);
    PElement (tns_common01, "SigmaZeroSFPoly") (XComplex "common01.Poly2DType") 0 (Some 1);
    PElement (tns_common01, "SigmaZeroSFIncidenceMap") (XSimple s_common01_SigmaZeroSFIncidenceMapType) 0 (Some 1);
    PElement (tns_common01, "GammaZeroSFPoly") (XComplex "common01.Poly2DType") 0 (Some 1);
    PElement (tns_common01, "GammaZeroSFIncidenceMap") (XSimple s_common01_GammaZeroSFIncidenceMapType) 0 (Some 1)])
  None [].

(** schemas/sidd/SICommonTypes.xsd:454-462. *)
Definition x_common01_AngleMagnitudeType : XClass := mkXClass "common01.AngleMagnitudeType"
  (PSequence [
    PElement (tns_common01, "Angle") (XSimple s_common01_Neg180To180Type) 1 (Some 1);
    PElement (tns_common01, "Magnitude") (XSimple SNumber) 1 (Some 1)])
  None [].

(** schemas/sidd/SICommonTypes.xsd:463-479. *)
Definition x_common01_RangeAzimuthType : XClass := mkXClass "common01.RangeAzimuthType"
  (PSequence [
    PElement (tns_common01, "Range") (XSimple SNumber) 1 (Some 1);
    PElement (tns_common01, "Azimuth") (XSimple SNumber) 1 (Some 1)])
  None [].

(** schemas/sidd/SICommonTypes.xsd:480-501. *)
Definition x_common01_ReferencePointType : XClass := mkXClass "common01.ReferencePointType"
  (PSequence [
    PElement (tns_common01, "ECEF") (XComplex "common01.XYZType") 1 (Some 1);
    PElement (tns_common01, "Point") (XComplex "common01.RowColDoubleType") 1 (Some 1)])
  None [
    mkXAttribute ("", "name") SText false].

(** schemas/sidd/SFA.xsd:18-18. *)
Definition x_sfa_GeometryType : XClass := mkXClass "sfa.GeometryType"
  (PSequence [])
  None [].

(** schemas/sidd/SFA.xsd:19-30. *)
Definition x_sfa_PointType : XClass := mkXClass "sfa.PointType"
  (PSequence [
    PElement (tns_sfa, "X") (XSimple SNumber) 1 (Some 1);
    PElement (tns_sfa, "Y") (XSimple SNumber) 1 (Some 1);
    PElement (tns_sfa, "Z") (XSimple SNumber) 0 (Some 1);
    PElement (tns_sfa, "M") (XSimple SNumber) 0 (Some 1)])
  None [].

(** schemas/sidd/SFA.xsd:31-35. *)
Definition x_sfa_CurveType : XClass := mkXClass "sfa.CurveType"
  (PSequence [])
  None [].

(** schemas/sidd/SFA.xsd:36-44. *)
Definition x_sfa_LineStringType : XClass := mkXClass "sfa.LineStringType"
  (PSequence [
    PElement (tns_sfa, "Vertex") (XComplex "sfa.PointType") 2 None])
  None [].

(** schemas/sidd/SFA.xsd:45-49. *)
Definition x_sfa_LineType : XClass := mkXClass "sfa.LineType"
  (PSequence [
    PElement (tns_sfa, "Vertex") (XComplex "sfa.PointType") 2 None])
  None [].

(** schemas/sidd/SFA.xsd:50-54. *)
Definition x_sfa_LinearRingType : XClass := mkXClass "sfa.LinearRingType"
  (PSequence [
    PElement (tns_sfa, "Vertex") (XComplex "sfa.PointType") 2 None])
  None [].

(** schemas/sidd/SFA.xsd:55-59. *)
Definition x_sfa_SurfaceType : XClass := mkXClass "sfa.SurfaceType"
  (PSequence [])
  None [].

(** schemas/sidd/SFA.xsd:60-68. *)
Definition x_sfa_PolygonType : XClass := mkXClass "sfa.PolygonType"
  (PSequence [
    PElement (tns_sfa, "Ring") (XComplex "sfa.LinearRingType") 1 None])
  None [].

(** schemas/sidd/SFA.xsd:69-73. *)
Definition x_sfa_TriangleType : XClass := mkXClass "sfa.TriangleType"
  (PSequence [
    PElement (tns_sfa, "Ring") (XComplex "sfa.LinearRingType") 1 None])
  None [].

(** schemas/sidd/SFA.xsd:74-82. *)
Definition x_sfa_PolyhedralSurfaceType : XClass := mkXClass "sfa.PolyhedralSurfaceType"
  (PSequence [
    PElement (tns_sfa, "Patch") (XComplex "sfa.PolygonType") 1 None])
  None [].

(** schemas/sidd/SFA.xsd:83-92. *)
Definition x_sfa_TriangulatedIrregularNetworkType : XClass := mkXClass "sfa.TriangulatedIrregularNetworkType"
  (PSequence [
    PSequence [
    PElement (tns_sfa, "Patch") (XComplex "sfa.PolygonType") 1 None];
    PSequence [
    PElement (tns_sfa, "TriangularPatch") (XComplex "sfa.TriangleType") 1 None]])
  None [].

(** schemas/sidd/SFA.xsd:93-97. *)
Definition x_sfa_GeometryCollectionType : XClass := mkXClass "sfa.GeometryCollectionType"
  (PSequence [])
  None [].

(** schemas/sidd/SFA.xsd:98-106. *)
Definition x_sfa_MultiPointType : XClass := mkXClass "sfa.MultiPointType"
  (PSequence [
    PElement (tns_sfa, "Vertex") (XComplex "sfa.PointType") 2 None])
  None [].

(** schemas/sidd/SFA.xsd:107-111. *)
Definition x_sfa_MultiCurveType : XClass := mkXClass "sfa.MultiCurveType"
  (PSequence [])
  None [].

(** schemas/sidd/SFA.xsd:112-120. *)
Definition x_sfa_MultiLineStringType : XClass := mkXClass "sfa.MultiLineStringType"
  (PSequence [
    PElement (tns_sfa, "Element") (XComplex "sfa.LineType") 0 None])
  None [].

(** schemas/sidd/SFA.xsd:121-125. *)
Definition x_sfa_MultiSurfaceType : XClass := mkXClass "sfa.MultiSurfaceType"
  (PSequence [])
  None [].

(** schemas/sidd/SFA.xsd:126-134. *)
Definition x_sfa_MultiPolygonType : XClass := mkXClass "sfa.MultiPolygonType"
  (PSequence [
    PElement (tns_sfa, "Element") (XComplex "sfa.PolygonType") 0 None])
  None [].

(** schemas/sidd/SFA.xsd:136-141. *)
Definition x_sfa_UNITType : XClass := mkXClass "sfa.UNITType"
  (PSequence [
    PElement (tns_sfa, "UnitName") (XSimple SText) 1 (Some 1);
    PElement (tns_sfa, "ConversionFactor") (XSimple SNumber) 1 (Some 1)])
  None [].

(** schemas/sidd/SFA.xsd:142-147. *)
Definition x_sfa_PrimeMeridianType : XClass := mkXClass "sfa.PrimeMeridianType"
  (PSequence [
    PElement (tns_sfa, "Name") (XSimple SText) 1 (Some 1);
    PElement (tns_sfa, "Longitude") (XSimple SNumber) 1 (Some 1)])
  None [].

(** schemas/sidd/SFA.xsd:148-154. *)
Definition x_sfa_SpheriodType : XClass := mkXClass "sfa.SpheriodType"
  (PSequence [
    PElement (tns_sfa, "SpheriodName") (XSimple SText) 1 (Some 1);
    PElement (tns_sfa, "SemiMajorAxis") (XSimple SNumber) 1 (Some 1);
    PElement (tns_sfa, "InverseFlattening") (XSimple SNumber) 1 (Some 1)])
  None [].

(** schemas/sidd/SFA.xsd:155-160. *)
Definition x_sfa_ParameterType : XClass := mkXClass "sfa.ParameterType"
  (PSequence [
    PElement (tns_sfa, "ParameterName") (XSimple SText) 1 (Some 1);
    PElement (tns_sfa, "Value") (XSimple SNumber) 1 (Some 1)])
  None [].

(** schemas/sidd/SFA.xsd:161-165. *)
Definition x_sfa_ProjectionType : XClass := mkXClass "sfa.ProjectionType"
  (PSequence [
    PElement (tns_sfa, "ProjectionName") (XSimple SText) 1 (Some 1)])
  None [].

(** schemas/sidd/SFA.xsd:166-170. *)
Definition x_sfa_DatumType : XClass := mkXClass "sfa.DatumType"
  (PSequence [
    PElement (tns_sfa, "Spheroid") (XComplex "sfa.SpheriodType") 1 (Some 1)])
  None [].

(** schemas/sidd/SFA.xsd:171-178. *)
Definition x_sfa_GeocentricCoordinateSystemType : XClass := mkXClass "sfa.GeocentricCoordinateSystemType"
  (PSequence [
    PElement (tns_sfa, "Csname") (XSimple SText) 1 (Some 1);
    PElement (tns_sfa, "Datum") (XComplex "sfa.DatumType") 1 (Some 1);
    PElement (tns_sfa, "PrimeMeridian") (XComplex "sfa.PrimeMeridianType") 1 (Some 1);
    PElement (tns_sfa, "LinearUnit") (XSimple SText) 1 (Some 1)])
  None [].

(** schemas/sidd/SFA.xsd:179-187. *)
Definition x_sfa_GeographicCoordinateSystemType : XClass := mkXClass "sfa.GeographicCoordinateSystemType"
  (PSequence [
    PElement (tns_sfa, "Csname") (XSimple SText) 1 (Some 1);
    PElement (tns_sfa, "Datum") (XComplex "sfa.DatumType") 1 (Some 1);
    PElement (tns_sfa, "PrimeMeridian") (XComplex "sfa.PrimeMeridianType") 1 (Some 1);
    PElement (tns_sfa, "AngularUnit") (XSimple SText) 1 (Some 1);
    PElement (tns_sfa, "LinearUnit") (XSimple SText) 0 (Some 1)])
  None [].

(** schemas/sidd/SFA.xsd:188-196. *)
Definition x_sfa_ProjectedCoordinateSystemType : XClass := mkXClass "sfa.ProjectedCoordinateSystemType"
  (PSequence [
    PElement (tns_sfa, "Csname") (XSimple SText) 1 (Some 1);
    PElement (tns_sfa, "GeographicCoordinateSystem") (XComplex "sfa.GeographicCoordinateSystemType") 1 (Some 1);
    PElement (tns_sfa, "Projection") (XComplex "sfa.ProjectionType") 1 (Some 1);
    PElement (tns_sfa, "Parameter") (XComplex "sfa.ParameterType") 0 (Some 1);
    PElement (tns_sfa, "LinearUnit") (XSimple SText) 1 (Some 1)])
  None [].

(** schemas/sidd/SFA.xsd:197-203. *)
Definition x_sfa_AbstractReferenceSystemType : XClass := mkXClass "sfa.AbstractReferenceSystemType"
  (PChoice [
    PElement (tns_sfa, "ProjectedCoordinateSystem") (XComplex "sfa.ProjectedCoordinateSystemType") 1 (Some 1);
    PElement (tns_sfa, "GeographicCoordinateSystem") (XComplex "sfa.GeographicCoordinateSystemType") 1 (Some 1);
    PElement (tns_sfa, "GeocentricCoordinateSystem") (XComplex "sfa.GeocentricCoordinateSystemType") 1 (Some 1)])
  None [].

(** schemas/sidd/SFA.xsd:204-212. *)
Definition x_sfa_ReferenceSystemType : XClass := mkXClass "sfa.ReferenceSystemType"
  (PSequence [
    PChoice [
    PElement (tns_sfa, "ProjectedCoordinateSystem") (XComplex "sfa.ProjectedCoordinateSystemType") 1 (Some 1);
    PElement (tns_sfa, "GeographicCoordinateSystem") (XComplex "sfa.GeographicCoordinateSystemType") 1 (Some 1);
    PElement (tns_sfa, "GeocentricCoordinateSystem") (XComplex "sfa.GeocentricCoordinateSystemType") 1 (Some 1)];
    PSequence [
    PElement (tns_sfa, "AxisName") (XSimple SText) 1 None]])
  None [].

(** schemas/sidd/SICommonTypes_V1.0.xsd:6-12. *)
Definition x_common10_XYZType : XClass := mkXClass "common10.XYZType"
  (PSequence [
    PElement (tns_common10, "X") (XSimple SNumber) 1 (Some 1);
    PElement (tns_common10, "Y") (XSimple SNumber) 1 (Some 1);
    PElement (tns_common10, "Z") (XSimple SNumber) 1 (Some 1)])
  None [].

(** schemas/sidd/SICommonTypes_V1.0.xsd:13-19. *)
Definition x_common10_XYZAttributeType : XClass := mkXClass "common10.XYZAttributeType"
  (PSequence [
    PElement (tns_common10, "X") (XSimple SNumber) 1 (Some 1);
    PElement (tns_common10, "Y") (XSimple SNumber) 1 (Some 1);
    PElement (tns_common10, "Z") (XSimple SNumber) 1 (Some 1)])
  None [
    mkXAttribute ("", "name") SText false].

(** schemas/sidd/SICommonTypes_V1.0.xsd:20-26. *)
Definition x_common10_LLHType : XClass := mkXClass "common10.LLHType"
  (PSequence [
    PElement (tns_common10, "Lat") (XSimple SNumber) 1 (Some 1);
    PElement (tns_common10, "Lon") (XSimple SNumber) 1 (Some 1);
    PElement (tns_common10, "HAE") (XSimple SNumber) 1 (Some 1)])
  None [].

(** schemas/sidd/SICommonTypes_V1.0.xsd:27-32. *)
Definition x_common10_LatLonType : XClass := mkXClass "common10.LatLonType"
  (PSequence [
    PElement (tns_common10, "Lat") (XSimple SNumber) 1 (Some 1);
    PElement (tns_common10, "Lon") (XSimple SNumber) 1 (Some 1)])
  None [].

(** schemas/sidd/SICommonTypes_V1.0.xsd:47-53. *)
Definition x_common10_LatLonCornerType : XClass := mkXClass "common10.LatLonCornerType"
  (PSequence [
    PElement (tns_common10, "Lat") (XSimple SNumber) 1 (Some 1);
    PElement (tns_common10, "Lon") (XSimple SNumber) 1 (Some 1)])
  None [
    mkXAttribute ("", "index") s_common10_CornerAttrType true].

(** schemas/sidd/SICommonTypes_V1.0.xsd:54-60. *)
Definition x_common10_LatLonCornerStringType : XClass := mkXClass "common10.LatLonCornerStringType"
  (PSequence [
    PElement (tns_common10, "Lat") (XSimple SNumber) 1 (Some 1);
    PElement (tns_common10, "Lon") (XSimple SNumber) 1 (Some 1)])
  None [
    mkXAttribute ("", "index") s_common10_CornerStringType true].

(** schemas/sidd/SICommonTypes_V1.0.xsd:61-68. *)
Definition x_common10_LatLonHAECornerType : XClass := mkXClass "common10.LatLonHAECornerType"
  (PSequence [
    PElement (tns_common10, "Lat") (XSimple SNumber) 1 (Some 1);
    PElement (tns_common10, "Lon") (XSimple SNumber) 1 (Some 1);
    PElement (tns_common10, "HAE") (XSimple SNumber) 1 (Some 1)])
  None [
    mkXAttribute ("", "index") s_common10_CornerAttrType true].

(** schemas/sidd/SICommonTypes_V1.0.xsd:69-75. *)
Definition x_common10_LatLonVertexType : XClass := mkXClass "common10.LatLonVertexType"
  (PSequence [
    PElement (tns_common10, "Lat") (XSimple SNumber) 1 (Some 1);
    PElement (tns_common10, "Lon") (XSimple SNumber) 1 (Some 1)])
  None [
    mkXAttribute ("", "index") SInt32 true].

(** schemas/sidd/SICommonTypes_V1.0.xsd:76-83. *)
Definition x_common10_LLHCornerStringType : XClass := mkXClass "common10.LLHCornerStringType"
  (PSequence [
    PElement (tns_common10, "Lat") (XSimple SNumber) 1 (Some 1);
    PElement (tns_common10, "Lon") (XSimple SNumber) 1 (Some 1);
    PElement (tns_common10, "HAE") (XSimple SNumber) 1 (Some 1)])
  None [
    mkXAttribute ("", "index") s_common10_CornerStringType true].

(** schemas/sidd/SICommonTypes_V1.0.xsd:84-89. *)
Definition x_common10_LatLonRestrictionType : XClass := mkXClass "common10.LatLonRestrictionType"
  (PSequence [
    PElement (tns_common10, "Lat") (XSimple s_common10_Neg90To90Type) 1 (Some 1);
    PElement (tns_common10, "Lon") (XSimple s_common10_Neg180To180Type) 1 (Some 1)])
  None [].

(** schemas/sidd/SICommonTypes_V1.0.xsd:90-95. *)
Definition x_common10_RowColIntType : XClass := mkXClass "common10.RowColIntType"
  (PSequence [
    PElement (tns_common10, "Row") (XSimple SInt32) 1 (Some 1);
    PElement (tns_common10, "Col") (XSimple SInt32) 1 (Some 1)])
  None [].

(** schemas/sidd/SICommonTypes_V1.0.xsd:96-101. *)
Definition x_common10_RowColDoubleType : XClass := mkXClass "common10.RowColDoubleType"
  (PSequence [
    PElement (tns_common10, "Row") (XSimple SNumber) 1 (Some 1);
    PElement (tns_common10, "Col") (XSimple SNumber) 1 (Some 1)])
  None [].

(** schemas/sidd/SICommonTypes_V1.0.xsd:110-115. *)
Definition x_common10_ComplexType : XClass := mkXClass "common10.ComplexType"
  (PSequence [
    PElement (tns_common10, "Real") (XSimple SNumber) 1 (Some 1);
    PElement (tns_common10, "Imag") (XSimple SNumber) 1 (Some 1)])
  None [].

(** schemas/sidd/SICommonTypes_V1.0.xsd:116-122. *)
Definition x_common10_RowColVertexType : XClass := mkXClass "common10.RowColVertexType"
  (PSequence [
    PElement (tns_common10, "Row") (XSimple SInt32) 1 (Some 1);
    PElement (tns_common10, "Col") (XSimple SInt32) 1 (Some 1)])
  None [
    mkXAttribute ("", "index") SInt32 true].

(** schemas/sidd/SICommonTypes_V1.0.xsd:123-129. *)
Definition x_common10_PolyCoef1DType : XClass := mkXClass "common10.PolyCoef1DType"
  (PSequence [])
  (Some SNumber) [
    mkXAttribute ("", "exponent1") SInt32 true].

(** schemas/sidd/SICommonTypes_V1.0.xsd:130-137. *)
Definition x_common10_PolyCoef2DType : XClass := mkXClass "common10.PolyCoef2DType"
  (PSequence [])
  (Some SNumber) [
    mkXAttribute ("", "exponent1") SInt32 true;
    mkXAttribute ("", "exponent2") SInt32 true].

(** schemas/sidd/SICommonTypes_V1.0.xsd:138-143. *)
Definition x_common10_Poly1DType : XClass := mkXClass "common10.Poly1DType"
  (PSequence [
    PElement (tns_common10, "Coef") (XComplex "common10.PolyCoef1DType") 1 None])
  None [
    mkXAttribute ("", "order1") SInt32 true].

(** schemas/sidd/SICommonTypes_V1.0.xsd:144-150. *)
Definition x_common10_Poly2DType : XClass := mkXClass "common10.Poly2DType"
  (PSequence [
    PElement (tns_common10, "Coef") (XComplex "common10.PolyCoef2DType") 1 None])
  None [
    mkXAttribute ("", "order1") SInt32 true;
    mkXAttribute ("", "order2") SInt32 true].

(** schemas/sidd/SICommonTypes_V1.0.xsd:151-157. *)
Definition x_common10_XYZPolyType : XClass := mkXClass "common10.XYZPolyType"
  (PSequence [
    PElement (tns_common10, "X") (XComplex "common10.Poly1DType") 1 (Some 1);
    PElement (tns_common10, "Y") (XComplex "common10.Poly1DType") 1 (Some 1);
    PElement (tns_common10, "Z") (XComplex "common10.Poly1DType") 1 (Some 1)])
  None [].

(** schemas/sidd/SICommonTypes_V1.0.xsd:158-164. *)
Definition x_common10_XYZPolyAttributeType : XClass := mkXClass "common10.XYZPolyAttributeType"
  (PSequence [
    PElement (tns_common10, "X") (XComplex "common10.Poly1DType") 1 (Some 1);
    PElement (tns_common10, "Y") (XComplex "common10.Poly1DType") 1 (Some 1);
    PElement (tns_common10, "Z") (XComplex "common10.Poly1DType") 1 (Some 1)])
  None [
    mkXAttribute ("", "index") SInt32 true].

(** schemas/sidd/SICommonTypes_V1.0.xsd:168-174. *)
Definition x_common10_LineType_Endpoint : XClass := mkXClass "common10.LineType/Endpoint"
  (PSequence [
    PElement (tns_common10, "Lat") (XSimple SNumber) 1 (Some 1);
    PElement (tns_common10, "Lon") (XSimple SNumber) 1 (Some 1)])
  None [
    mkXAttribute ("", "index") SInt32 true].

(** schemas/sidd/SICommonTypes_V1.0.xsd:165-178. *)
Definition x_common10_LineType : XClass := mkXClass "common10.LineType"
  (PSequence [
    PElement (tns_common10, "Endpoint") (XComplex "common10.LineType/Endpoint") 2 None])
  None [
    mkXAttribute ("", "size") SInt32 true].

(** schemas/sidd/SICommonTypes_V1.0.xsd:182-188. *)
Definition x_common10_PolygonType_Vertex : XClass := mkXClass "common10.PolygonType/Vertex"
  (PSequence [
    PElement (tns_common10, "Lat") (XSimple SNumber) 1 (Some 1);
    PElement (tns_common10, "Lon") (XSimple SNumber) 1 (Some 1)])
  None [
    mkXAttribute ("", "index") SInt32 true].

(** schemas/sidd/SICommonTypes_V1.0.xsd:179-192. *)
Definition x_common10_PolygonType : XClass := mkXClass "common10.PolygonType"
  (PSequence [
    PElement (tns_common10, "Vertex") (XComplex "common10.PolygonType/Vertex") 3 None])
  None [
    mkXAttribute ("", "size") SInt32 true].

(** schemas/sidd/SICommonTypes_V1.0.xsd:193-199. *)
Definition x_common10_ArrayDoubleType : XClass := mkXClass "common10.ArrayDoubleType"
  (PSequence [])
  (Some SNumber) [
    mkXAttribute ("", "index") SInt32 true].

(** schemas/sidd/SICommonTypes_V1.0.xsd:200-206. *)
Definition x_common10_ParameterType : XClass := mkXClass "common10.ParameterType"
  (PSequence [])
  (Some SText) [
    mkXAttribute ("", "name") SText true].

(** schemas/sidd/SICommonTypes_V1.0.xsd:264-269. *)
Definition x_common10_RadarModeType : XClass := mkXClass "common10.RadarModeType"
  (PSequence [
    PElement (tns_common10, "ModeType") (XSimple s_common10_ModeIdentifierType) 1 (Some 1);
    PElement (tns_common10, "ModeID") (XSimple SText) 0 (Some 1)])
  None [].

(** schemas/sidd/SICommonTypes_V1.0.xsd:412-423. *)
Definition x_common10_CollectionInfoType : XClass := mkXClass "common10.CollectionInfoType"
  (PSequence [
    PElement (tns_common10, "CollectorName") (XSimple SText) 1 (Some 1);
    PElement (tns_common10, "IlluminatorName") (XSimple SText) 0 (Some 1);
    PElement (tns_common10, "CoreName") (XSimple SText) 1 (Some 1);
    PElement (tns_common10, "CollectType") (XSimple s_common10_CollectIdentifierType) 0 (Some 1);
    PElement (tns_common10, "RadarMode") (XComplex "common10.RadarModeType") 1 (Some 1);
    PElement (tns_common10, "Classification") (XSimple SText) 1 (Some 1);
    PElement (tns_common10, "CountryCode") (XSimple SText) 0 None;
    PElement (tns_common10, "Parameter") (XComplex "common10.ParameterType") 0 None])
  None [].

(** schemas/sidd/SICommonTypes_V1.0.xsd:424-431. *)
Definition x_common10_ImageCreationType : XClass := mkXClass "common10.ImageCreationType"
  (PSequence [
    PElement (tns_common10, "Application") (XSimple SText) 0 (Some 1);
    PElement (tns_common10, "DateTime") (XSimple SDateTime) 0 (Some 1);
    PElement (tns_common10, "Site") (XSimple SText) 0 (Some 1);
    PElement (tns_common10, "Profile") (XSimple SText) 0 (Some 1)])
  None [].

(** schemas/sidd/SICommonTypes_V1.0.xsd:442-448. *)
Definition x_common10_ErrorStatisticsType_CompositeSCP : XClass := mkXClass "common10.ErrorStatisticsType/CompositeSCP"
  (PSequence [
    PElement (tns_common10, "Rg") (XSimple SNumber) 1 (Some 1);
    PElement (tns_common10, "Az") (XSimple SNumber) 1 (Some 1);
    PElement (tns_common10, "RgAz") (XSimple SNumber) 1 (Some 1)])
  None [].

(** schemas/sidd/SICommonTypes_V1.0.xsd:464-482. *)
Definition x_common10_ErrorStatisticsType_Components_PosVelErr_CorrCoefs : XClass := mkXClass "common10.ErrorStatisticsType/Components/PosVelErr/CorrCoefs"
  (PSequence [
    PElement (tns_common10, "P1P2") (XSimple SNumber) 1 (Some 1);
    PElement (tns_common10, "P1P3") (XSimple SNumber) 1 (Some 1);
    PElement (tns_common10, "P1V1") (XSimple SNumber) 1 (Some 1);
    PElement (tns_common10, "P1V2") (XSimple SNumber) 1 (Some 1);
    PElement (tns_common10, "P1V3") (XSimple SNumber) 1 (Some 1);
    PElement (tns_common10, "P2P3") (XSimple SNumber) 1 (Some 1);
    PElement (tns_common10, "P2V1") (XSimple SNumber) 1 (Some 1);
    PElement (tns_common10, "P2V2") (XSimple SNumber) 1 (Some 1);
    PElement (tns_common10, "P2V3") (XSimple SNumber) 1 (Some 1);
    PElement (tns_common10, "P3V1") (XSimple SNumber) 1 (Some 1);
    PElement (tns_common10, "P3V2") (XSimple SNumber) 1 (Some 1);
    PElement (tns_common10, "P3V3") (XSimple SNumber) 1 (Some 1);
    PElement (tns_common10, "V1V2") (XSimple SNumber) 1 (Some 1);
    PElement (tns_common10, "V1V3") (XSimple SNumber) 1 (Some 1);
    PElement (tns_common10, "V2V3") (XSimple SNumber) 1 (Some 1)])
  None [].

(** schemas/sidd/SICommonTypes_V1.0.xsd:485-490. *)
Definition x_common10_ErrorStatisticsType_Components_PosVelErr_PositionDecorr : XClass := mkXClass "common10.ErrorStatisticsType/Components/PosVelErr/PositionDecorr"
  (PSequence [
    PElement (tns_common10, "CorrCoefZero") (XSimple SNumber) 1 (Some 1);
    PElement (tns_common10, "DecorrRate") (XSimple SNumber) 1 (Some 1)])
  None [].

(** schemas/sidd/SICommonTypes_V1.0.xsd:454-493. *)
Definition x_common10_ErrorStatisticsType_Components_PosVelErr : XClass := mkXClass "common10.ErrorStatisticsType/Components/PosVelErr"
  (PSequence [
    PElement (tns_common10, "Frame") (XSimple s_common10_ErrorFrameType) 1 (Some 1);
    PElement (tns_common10, "P1") (XSimple SNumber) 1 (Some 1);
    PElement (tns_common10, "P2") (XSimple SNumber) 1 (Some 1);
    PElement (tns_common10, "P3") (XSimple SNumber) 1 (Some 1);
    PElement (tns_common10, "V1") (XSimple SNumber) 1 (Some 1);
    PElement (tns_common10, "V2") (XSimple SNumber) 1 (Some 1);
    PElement (tns_common10, "V3") (XSimple SNumber) 1 (Some 1);
    PElement (tns_common10, "CorrCoefs") (XComplex "common10.ErrorStatisticsType/Components/PosVelErr/CorrCoefs") 0 (Some 1);
    PElement (tns_common10, "PositionDecorr") (XComplex "common10.ErrorStatisticsType/Components/PosVelErr/PositionDecorr") 0 (Some 1)])
  None [].

(** schemas/sidd/SICommonTypes_V1.0.xsd:502-507. *)
Definition x_common10_ErrorStatisticsType_Components_RadarSensor_RangeBiasDecorr : XClass := mkXClass "common10.ErrorStatisticsType/Components/RadarSensor/RangeBiasDecorr"
  (PSequence [
    PElement (tns_common10, "CorrCoefZero") (XSimple SNumber) 1 (Some 1);
    PElement (tns_common10, "DecorrRate") (XSimple SNumber) 1 (Some 1)])
  None [].

(** schemas/sidd/SICommonTypes_V1.0.xsd:496-510. *)
Definition x_common10_ErrorStatisticsType_Components_RadarSensor : XClass := mkXClass "common10.ErrorStatisticsType/Components/RadarSensor"
  (PSequence [
    PElement (tns_common10, "RangeBias") (XSimple SNumber) 1 (Some 1);
    PElement (tns_common10, "ClockFreqSF") (XSimple SNumber) 0 (Some 1);
    PElement (tns_common10, "TransmitFreqSF") (XSimple SNumber) 0 (Some 1);
    PElement (tns_common10, "RangeBiasDecorr") (XComplex "common10.ErrorStatisticsType/Components/RadarSensor/RangeBiasDecorr") 0 (Some 1)])
  None [].

(** schemas/sidd/SICommonTypes_V1.0.xsd:518-523. *)
Definition x_common10_ErrorStatisticsType_Components_TropoError_TropoRangeDecorr : XClass := mkXClass "common10.ErrorStatisticsType/Components/TropoError/TropoRangeDecorr"
  (PSequence [
    PElement (tns_common10, "CorrCoefZero") (XSimple SNumber) 1 (Some 1);
    PElement (tns_common10, "DecorrRate") (XSimple SNumber) 1 (Some 1)])
  None [].

(** schemas/sidd/SICommonTypes_V1.0.xsd:513-526. *)
Definition x_common10_ErrorStatisticsType_Components_TropoError : XClass := mkXClass "common10.ErrorStatisticsType/Components/TropoError"
  (PSequence [
    PElement (tns_common10, "TropoRangeVertical") (XSimple SNumber) 0 (Some 1);
    PElement (tns_common10, "TropoRangeSlant") (XSimple SNumber) 0 (Some 1);
    PElement (tns_common10, "TropoRangeDecorr") (XComplex "common10.ErrorStatisticsType/Components/TropoError/TropoRangeDecorr") 0 (Some 1)])
  None [].

(** schemas/sidd/SICommonTypes_V1.0.xsd:535-540. *)
Definition x_common10_ErrorStatisticsType_Components_IonoError_IonoRangeVertDecorr : XClass := mkXClass "common10.ErrorStatisticsType/Components/IonoError/IonoRangeVertDecorr"
  (PSequence [
    PElement (tns_common10, "CorrCoefZero") (XSimple SNumber) 1 (Some 1);
    PElement (tns_common10, "DecorrRate") (XSimple SNumber) 1 (Some 1)])
  None [].

(** schemas/sidd/SICommonTypes_V1.0.xsd:529-543. *)
Definition x_common10_ErrorStatisticsType_Components_IonoError : XClass := mkXClass "common10.ErrorStatisticsType/Components/IonoError"
  (PSequence [
    PElement (tns_common10, "IonoRangeVertical") (XSimple SNumber) 0 (Some 1);
    PElement (tns_common10, "IonoRangeRateVertical") (XSimple SNumber) 0 (Some 1);
    PElement (tns_common10, "IonoRgRgRateCC") (XSimple SNumber) 1 (Some 1);
    PElement (tns_common10, "IonoRangeVertDecorr") (XComplex "common10.ErrorStatisticsType/Components/IonoError/IonoRangeVertDecorr") 0 (Some 1)])
  None [].

(** schemas/sidd/SICommonTypes_V1.0.xsd:451-546. *)
Definition x_common10_ErrorStatisticsType_Components : XClass := mkXClass "common10.ErrorStatisticsType/Components"
  (PSequence [
    PElement (tns_common10, "PosVelErr") (XComplex "common10.ErrorStatisticsType/Components/PosVelErr") 1 (Some 1);
    PElement (tns_common10, "RadarSensor") (XComplex "common10.ErrorStatisticsType/Components/RadarSensor") 1 (Some 1);
    PElement (tns_common10, "TropoError") (XComplex "common10.ErrorStatisticsType/Components/TropoError") 0 (Some 1);
    PElement (tns_common10, "IonoError") (XComplex "common10.ErrorStatisticsType/Components/IonoError") 0 (Some 1)])
  None [].

(** schemas/sidd/SICommonTypes_V1.0.xsd:558-563. *)
Definition x_common10_ErrorStatisticsType_Unmodeled_UnmodeledDecorr_Xrow : XClass := mkXClass "common10.ErrorStatisticsType/Unmodeled/UnmodeledDecorr/Xrow"
  (PSequence [
    PElement (tns_common10, "CorrCoefZero") (XSimple SNumber) 1 (Some 1);
    PElement (tns_common10, "DecorrRate") (XSimple SNumber) 1 (Some 1)])
  None [].

(** schemas/sidd/SICommonTypes_V1.0.xsd:566-571. *)
Definition x_common10_ErrorStatisticsType_Unmodeled_UnmodeledDecorr_Ycol : XClass := mkXClass "common10.ErrorStatisticsType/Unmodeled/UnmodeledDecorr/Ycol"
  (PSequence [
    PElement (tns_common10, "CorrCoefZero") (XSimple SNumber) 1 (Some 1);
    PElement (tns_common10, "DecorrRate") (XSimple SNumber) 1 (Some 1)])
  None [].

(** schemas/sidd/SICommonTypes_V1.0.xsd:555-574. *)
Definition x_common10_ErrorStatisticsType_Unmodeled_UnmodeledDecorr : XClass := mkXClass "common10.ErrorStatisticsType/Unmodeled/UnmodeledDecorr"
  (PSequence [
    PElement (tns_common10, "Xrow") (XComplex "common10.ErrorStatisticsType/Unmodeled/UnmodeledDecorr/Xrow") 1 (Some 1);
    PElement (tns_common10, "Ycol") (XComplex "common10.ErrorStatisticsType/Unmodeled/UnmodeledDecorr/Ycol") 1 (Some 1)])
  None [].

(** schemas/sidd/SICommonTypes_V1.0.xsd:549-577. *)
Definition x_common10_ErrorStatisticsType_Unmodeled : XClass := mkXClass "common10.ErrorStatisticsType/Unmodeled"
  (PSequence [
    PElement (tns_common10, "Xrow") (XSimple SNumber) 1 (Some 1);
    PElement (tns_common10, "Ycol") (XSimple SNumber) 1 (Some 1);
    PElement (tns_common10, "XrowYcol") (XSimple SNumber) 1 (Some 1);
    PElement (tns_common10, "UnmodeledDecorr") (XComplex "common10.ErrorStatisticsType/Unmodeled/UnmodeledDecorr") 0 (Some 1)])
  None [].

(** schemas/sidd/SICommonTypes_V1.0.xsd:580-584. *)
Definition x_common10_ErrorStatisticsType_AdditionalParms : XClass := mkXClass "common10.ErrorStatisticsType/AdditionalParms"
  (PSequence [
    PElement (tns_common10, "Parameter") (XComplex "common10.ParameterType") 1 None])
  None [].

(** schemas/sidd/SICommonTypes_V1.0.xsd:439-587. *)
Definition x_common10_ErrorStatisticsType : XClass := mkXClass "common10.ErrorStatisticsType"
  (PSequence [
    PElement (tns_common10, "CompositeSCP") (XComplex "common10.ErrorStatisticsType/CompositeSCP") 0 (Some 1);
    PElement (tns_common10, "Components") (XComplex "common10.ErrorStatisticsType/Components") 0 (Some 1);
    PElement (tns_common10, "Unmodeled") (XComplex "common10.ErrorStatisticsType/Unmodeled") 0 (Some 1);
    PElement (tns_common10, "AdditionalParms") (XComplex "common10.ErrorStatisticsType/AdditionalParms") 0 (Some 1)])
  None [].

(** schemas/sidd/SICommonTypes_V1.0.xsd:589-594. *)
Definition x_common10_ValidDataType : XClass := mkXClass "common10.ValidDataType"
  (PSequence [
    PElement (tns_common10, "Vertex") (XComplex "common10.RowColVertexType") 3 None])
  None [
    mkXAttribute ("", "size") SInt32 true].

(** schemas/sidd/SICommonTypes_V1.0.xsd:604-616. *)
Definition x_common10_RadiometricType_NoiseLevel : XClass := mkXClass "common10.RadiometricType/NoiseLevel"
  (PSequence [
    PElement (tns_common10, "NoiseLevelType") (XSimple (SEnum false ["ABSOLUTE"; "RELATIVE"])) 1 (Some 1);
    PElement (tns_common10, "NoisePoly") (XComplex "common10.Poly2DType") 1 (Some 1)])
  None [].

(** schemas/sidd/SICommonTypes_V1.0.xsd:601-632. *)
Definition x_common10_RadiometricType : XClass := mkXClass "common10.RadiometricType"
  (PSequence [
    PElement (tns_common10, "NoiseLevel") (XComplex "common10.RadiometricType/NoiseLevel") 0 (Some 1);
    PElement (tns_common10, "NoisePoly") (XComplex "common10.Poly2DType") 0 (Some 1);
    PElement (tns_common10, "RCSSFPoly") (XComplex "common10.Poly2DType") 0 (Some 1);
    PElement (tns_common10, "SigmaZeroSFPoly") (XComplex "common10.Poly2DType") 0 (Some 1);
    PElement (tns_common10, "BetaZeroSFPoly") (XComplex "common10.Poly2DType") 0 (Some 1);
    PElement (tns_common10, "SigmaZeroSFIncidenceMap") (XSimple (SEnum false ["APPLIED"; "NOT_APPLIED"])) 0 (Some 1);
    PElement (tns_common10, "GammaZeroSFPoly") (XComplex "common10.Poly2DType") 0 (Some 1)])
  None [].

(** schemas/sidd/SICommonTypes_V1.0.xsd:634-642. *)
Definition x_common10_AngleMagnitudeType : XClass := mkXClass "common10.AngleMagnitudeType"
  (PSequence [
    PElement (tns_common10, "Angle") (XSimple s_common10_Neg180To180Type) 1 (Some 1);
    PElement (tns_common10, "Magnitude") (XSimple SNumber) 1 (Some 1)])
  None [].

(** schemas/sidd/SICommonTypes_V1.0.xsd:643-651. *)
Definition x_common10_AngleZeroToExclusive360MagnitudeType : XClass := mkXClass "common10.AngleZeroToExclusive360MagnitudeType"
  (PSequence [
    PElement (tns_common10, "Angle") (XSimple s_common10_ZeroToExclusive360Type) 1 (Some 1);
    PElement (tns_common10, "Magnitude") (XSimple SNumber) 1 (Some 1)])
  None [].

(** schemas/sidd/SICommonTypes_V1.0.xsd:652-668. *)
Definition x_common10_RangeAzimuthType : XClass := mkXClass "common10.RangeAzimuthType"
  (PSequence [
    PElement (tns_common10, "Range") (XSimple SNumber) 1 (Some 1);
    PElement (tns_common10, "Azimuth") (XSimple SNumber) 1 (Some 1)])
  None [].

(** schemas/sidd/SICommonTypes_V1.0.xsd:669-690. *)
Definition x_common10_ReferencePointType : XClass := mkXClass "common10.ReferencePointType"
  (PSequence [
    PElement (tns_common10, "ECEF") (XComplex "common10.XYZType") 1 (Some 1);
    PElement (tns_common10, "Point") (XComplex "common10.RowColDoubleType") 1 (Some 1)])
  None [
    mkXAttribute ("", "name") SText false].

(** schemas/sidd/SICommonTypes_V1.0.xsd:702-709. *)
Definition x_common10_MatchInfoType_MatchType_MatchCollection : XClass := mkXClass "common10.MatchInfoType/MatchType/MatchCollection"
  (PSequence [
    PElement (tns_common10, "CoreName") (XSimple SText) 1 (Some 1);
    PElement (tns_common10, "MatchIndex") (XSimple SInt32) 0 (Some 1);
    PElement (tns_common10, "Parameter") (XComplex "common10.ParameterType") 0 None])
  None [
    mkXAttribute ("", "index") SInt32 true].

(** schemas/sidd/SICommonTypes_V1.0.xsd:696-713. *)
Definition x_common10_MatchInfoType_MatchType : XClass := mkXClass "common10.MatchInfoType/MatchType"
  (PSequence [
    PElement (tns_common10, "TypeID") (XSimple SText) 1 (Some 1);
    PElement (tns_common10, "CurrentIndex") (XSimple SInt32) 0 (Some 1);
    PElement (tns_common10, "NumMatchCollections") (XSimple SInt32) 1 (Some 1);
    PElement (tns_common10, "MatchCollection") (XComplex "common10.MatchInfoType/MatchType/MatchCollection") 0 None])
  None [
    mkXAttribute ("", "index") SInt32 true].

(** schemas/sidd/SICommonTypes_V1.0.xsd:692-716. *)
Definition x_common10_MatchInfoType : XClass := mkXClass "common10.MatchInfoType"
  (PSequence [
    PElement (tns_common10, "NumMatchTypes") (XSimple SInt32) 1 (Some 1);
    PElement (tns_common10, "MatchType") (XComplex "common10.MatchInfoType/MatchType") 1 None])
  None [].

(** schemas/sidd/SICommonTypes_V1.0.xsd:718-729. *)
Definition x_common10_GeoInfoType : XClass := mkXClass "common10.GeoInfoType"
  (PSequence [
    PElement (tns_common10, "Desc") (XComplex "common10.ParameterType") 0 None;
    POptional (PChoice [
    PElement (tns_common10, "Point") (XComplex "common10.LatLonRestrictionType") 1 (Some 1);
    PElement (tns_common10, "Line") (XComplex "common10.LineType") 1 (Some 1);
    PElement (tns_common10, "Polygon") (XComplex "common10.PolygonType") 1 (Some 1)]);
    PElement (tns_common10, "GeoInfo") (XComplex "common10.GeoInfoType") 0 None])
  None [
    mkXAttribute ("", "name") SText true].

(** schemas/sidd/external/ISM-v13/Schema/ISM/IC-ISM.xsd:610-616. *)
Definition x_ism13_LongStringWithSecurityType : XClass := mkXClass "ism13.LongStringWithSecurityType"
  (PSequence [])
  (Some s_ism13_LongStringType) [
    mkXAttribute (tns_ism13, "classification") s_cvenum_ism_classification_all_CVEnumISMClassificationAll true;
    mkXAttribute (tns_ism13, "ownerProducer") s_cvenum_ismcat_ownerproducer_CVEnumISMCATOwnerProducer true;
    mkXAttribute (tns_ism13, "joint") (SBoolean None) false;
    mkXAttribute (tns_ism13, "SCIcontrols") s_cvenum_ism_scicontrols_CVEnumISMSCIControls false;
    mkXAttribute (tns_ism13, "SARIdentifier") s_cvenum_ism_sar_CVEnumISMSAR false;
    mkXAttribute (tns_ism13, "atomicEnergyMarkings") s_cvenum_ism_atomicEnergyMarkings_CVEnumISMatomicEnergyMarkings false;
    mkXAttribute (tns_ism13, "disseminationControls") s_cvenum_ism_dissem_CVEnumISMDissem false;
    mkXAttribute (tns_ism13, "displayOnlyTo") s_cvenum_ismcat_relto_CVEnumISMCATRelTo false;
    mkXAttribute (tns_ism13, "FGIsourceOpen") s_cvenum_ismcat_fgiopen_CVEnumISMCATFGIOpen false;
    mkXAttribute (tns_ism13, "FGIsourceProtected") s_cvenum_ismcat_fgiprotected_CVEnumISMCATFGIProtected false;
    mkXAttribute (tns_ism13, "releasableTo") s_cvenum_ismcat_relto_CVEnumISMCATRelTo false;
    mkXAttribute (tns_ism13, "nonICmarkings") s_cvenum_ism_nonic_CVEnumISMNonIC false;
    mkXAttribute (tns_ism13, "classifiedBy") (SString false (Some 1024%nat) []) false;
    mkXAttribute (tns_ism13, "compilationReason") (SString false (Some 1024%nat) []) false;
    mkXAttribute (tns_ism13, "derivativelyClassifiedBy") (SString false (Some 1024%nat) []) false;
    mkXAttribute (tns_ism13, "classificationReason") (SString false (Some 4096%nat) []) false;
    mkXAttribute (tns_ism13, "nonUSControls") s_cvenum_ism_nonuscontrols_CVEnumISMNonUSControls false;
    mkXAttribute (tns_ism13, "derivedFrom") (SString false (Some 1024%nat) []) false;
    mkXAttribute (tns_ism13, "declassDate") SDate false;
    mkXAttribute (tns_ism13, "declassEvent") (SString false (Some 1024%nat) []) false;
    mkXAttribute (tns_ism13, "declassException") s_cvenum_ism_25x_CVEnumISM25X false].

(** schemas/sidd/external/ISM-v13/Schema/ISM/IC-ISM.xsd:814-820. *)
Definition x_ism13_NoticeText_ : XClass := mkXClass "ism13.NoticeText/"
  (PSequence [])
  (Some s_ism13_LongStringType) [
    mkXAttribute (tns_ism13, "classification") s_cvenum_ism_classification_all_CVEnumISMClassificationAll true;
    mkXAttribute (tns_ism13, "ownerProducer") s_cvenum_ismcat_ownerproducer_CVEnumISMCATOwnerProducer true;
    mkXAttribute (tns_ism13, "joint") (SBoolean None) false;
    mkXAttribute (tns_ism13, "SCIcontrols") s_cvenum_ism_scicontrols_CVEnumISMSCIControls false;
    mkXAttribute (tns_ism13, "SARIdentifier") s_cvenum_ism_sar_CVEnumISMSAR false;
    mkXAttribute (tns_ism13, "atomicEnergyMarkings") s_cvenum_ism_atomicEnergyMarkings_CVEnumISMatomicEnergyMarkings false;
    mkXAttribute (tns_ism13, "disseminationControls") s_cvenum_ism_dissem_CVEnumISMDissem false;
    mkXAttribute (tns_ism13, "displayOnlyTo") s_cvenum_ismcat_relto_CVEnumISMCATRelTo false;
    mkXAttribute (tns_ism13, "FGIsourceOpen") s_cvenum_ismcat_fgiopen_CVEnumISMCATFGIOpen false;
    mkXAttribute (tns_ism13, "FGIsourceProtected") s_cvenum_ismcat_fgiprotected_CVEnumISMCATFGIProtected false;
    mkXAttribute (tns_ism13, "releasableTo") s_cvenum_ismcat_relto_CVEnumISMCATRelTo false;
    mkXAttribute (tns_ism13, "nonICmarkings") s_cvenum_ism_nonic_CVEnumISMNonIC false;
    mkXAttribute (tns_ism13, "classifiedBy") (SString false (Some 1024%nat) []) false;
    mkXAttribute (tns_ism13, "compilationReason") (SString false (Some 1024%nat) []) false;
    mkXAttribute (tns_ism13, "derivativelyClassifiedBy") (SString false (Some 1024%nat) []) false;
    mkXAttribute (tns_ism13, "classificationReason") (SString false (Some 4096%nat) []) false;
    mkXAttribute (tns_ism13, "nonUSControls") s_cvenum_ism_nonuscontrols_CVEnumISMNonUSControls false;
    mkXAttribute (tns_ism13, "derivedFrom") (SString false (Some 1024%nat) []) false;
    mkXAttribute (tns_ism13, "declassDate") SDate false;
    mkXAttribute (tns_ism13, "declassEvent") (SString false (Some 1024%nat) []) false;
    mkXAttribute (tns_ism13, "declassException") s_cvenum_ism_25x_CVEnumISM25X false;
    mkXAttribute (tns_ism13, "pocType") s_cvenum_ism_pocType_CVEnumISMPocType false].

(** schemas/sidd/external/ISM-v13/Schema/ISM/IC-ISM.xsd:646-655. *)
Definition x_ism13_NoticeBaseType : XClass := mkXClass "ism13.NoticeBaseType"
  (PSequence [
    PElement (tns_ism13, "NoticeText") (XComplex "ism13.NoticeText/") 1 None])
  None [].

(** schemas/sidd/external/ISM-v13/Schema/ISM/IC-ISM.xsd:657-669. *)
Definition x_ism13_NoticeType : XClass := mkXClass "ism13.NoticeType"
  (PSequence [
    PElement (tns_ism13, "NoticeText") (XComplex "ism13.NoticeText/") 1 None])
  None [
    mkXAttribute (tns_ism13, "noticeType") s_cvenum_ism_notice_CVEnumISMNotice false;
    mkXAttribute (tns_ism13, "noticeReason") (SString false (Some 2048%nat) []) false;
    mkXAttribute (tns_ism13, "noticeDate") SDate false;
    mkXAttribute (tns_ism13, "unregisteredNoticeType") (SString false (Some 2048%nat) []) false;
    mkXAttribute (tns_ism13, "externalNotice") (SBoolean None) false;
    mkXAttribute (tns_ism13, "classification") s_cvenum_ism_classification_all_CVEnumISMClassificationAll false;
    mkXAttribute (tns_ism13, "ownerProducer") s_cvenum_ismcat_ownerproducer_CVEnumISMCATOwnerProducer false;
    mkXAttribute (tns_ism13, "joint") (SBoolean None) false;
    mkXAttribute (tns_ism13, "SCIcontrols") s_cvenum_ism_scicontrols_CVEnumISMSCIControls false;
    mkXAttribute (tns_ism13, "SARIdentifier") s_cvenum_ism_sar_CVEnumISMSAR false;
    mkXAttribute (tns_ism13, "atomicEnergyMarkings") s_cvenum_ism_atomicEnergyMarkings_CVEnumISMatomicEnergyMarkings false;
    mkXAttribute (tns_ism13, "disseminationControls") s_cvenum_ism_dissem_CVEnumISMDissem false;
    mkXAttribute (tns_ism13, "displayOnlyTo") s_cvenum_ismcat_relto_CVEnumISMCATRelTo false;
    mkXAttribute (tns_ism13, "FGIsourceOpen") s_cvenum_ismcat_fgiopen_CVEnumISMCATFGIOpen false;
    mkXAttribute (tns_ism13, "FGIsourceProtected") s_cvenum_ismcat_fgiprotected_CVEnumISMCATFGIProtected false;
    mkXAttribute (tns_ism13, "releasableTo") s_cvenum_ismcat_relto_CVEnumISMCATRelTo false;
    mkXAttribute (tns_ism13, "nonICmarkings") s_cvenum_ism_nonic_CVEnumISMNonIC false;
    mkXAttribute (tns_ism13, "classifiedBy") (SString false (Some 1024%nat) []) false;
    mkXAttribute (tns_ism13, "compilationReason") (SString false (Some 1024%nat) []) false;
    mkXAttribute (tns_ism13, "derivativelyClassifiedBy") (SString false (Some 1024%nat) []) false;
    mkXAttribute (tns_ism13, "classificationReason") (SString false (Some 4096%nat) []) false;
    mkXAttribute (tns_ism13, "nonUSControls") s_cvenum_ism_nonuscontrols_CVEnumISMNonUSControls false;
    mkXAttribute (tns_ism13, "derivedFrom") (SString false (Some 1024%nat) []) false;
    mkXAttribute (tns_ism13, "declassDate") SDate false;
    mkXAttribute (tns_ism13, "declassEvent") (SString false (Some 1024%nat) []) false;
    mkXAttribute (tns_ism13, "declassException") s_cvenum_ism_25x_CVEnumISM25X false].

(** schemas/sidd/external/ISM-v13/Schema/ISM/IC-ISM.xsd:671-683. *)
Definition x_ism13_NoticeExternalType : XClass := mkXClass "ism13.NoticeExternalType"
  (PSequence [
    PElement (tns_ism13, "NoticeText") (XComplex "ism13.NoticeText/") 1 None])
  None [
    mkXAttribute (tns_ism13, "noticeType") s_cvenum_ism_notice_CVEnumISMNotice false;
    mkXAttribute (tns_ism13, "noticeReason") (SString false (Some 2048%nat) []) false;
    mkXAttribute (tns_ism13, "noticeDate") SDate false;
    mkXAttribute (tns_ism13, "unregisteredNoticeType") (SString false (Some 2048%nat) []) false;
    mkXAttribute (tns_ism13, "externalNotice") (SBoolean (Some true)) true;
    mkXAttribute (tns_ism13, "classification") s_cvenum_ism_classification_all_CVEnumISMClassificationAll false;
    mkXAttribute (tns_ism13, "ownerProducer") s_cvenum_ismcat_ownerproducer_CVEnumISMCATOwnerProducer false;
    mkXAttribute (tns_ism13, "joint") (SBoolean None) false;
    mkXAttribute (tns_ism13, "SCIcontrols") s_cvenum_ism_scicontrols_CVEnumISMSCIControls false;
    mkXAttribute (tns_ism13, "SARIdentifier") s_cvenum_ism_sar_CVEnumISMSAR false;
    mkXAttribute (tns_ism13, "atomicEnergyMarkings") s_cvenum_ism_atomicEnergyMarkings_CVEnumISMatomicEnergyMarkings false;
    mkXAttribute (tns_ism13, "disseminationControls") s_cvenum_ism_dissem_CVEnumISMDissem false;
    mkXAttribute (tns_ism13, "displayOnlyTo") s_cvenum_ismcat_relto_CVEnumISMCATRelTo false;
    mkXAttribute (tns_ism13, "FGIsourceOpen") s_cvenum_ismcat_fgiopen_CVEnumISMCATFGIOpen false;
    mkXAttribute (tns_ism13, "FGIsourceProtected") s_cvenum_ismcat_fgiprotected_CVEnumISMCATFGIProtected false;
    mkXAttribute (tns_ism13, "releasableTo") s_cvenum_ismcat_relto_CVEnumISMCATRelTo false;
    mkXAttribute (tns_ism13, "nonICmarkings") s_cvenum_ism_nonic_CVEnumISMNonIC false;
    mkXAttribute (tns_ism13, "classifiedBy") (SString false (Some 1024%nat) []) false;
    mkXAttribute (tns_ism13, "compilationReason") (SString false (Some 1024%nat) []) false;
    mkXAttribute (tns_ism13, "derivativelyClassifiedBy") (SString false (Some 1024%nat) []) false;
    mkXAttribute (tns_ism13, "classificationReason") (SString false (Some 4096%nat) []) false;
    mkXAttribute (tns_ism13, "nonUSControls") s_cvenum_ism_nonuscontrols_CVEnumISMNonUSControls false;
    mkXAttribute (tns_ism13, "derivedFrom") (SString false (Some 1024%nat) []) false;
    mkXAttribute (tns_ism13, "declassDate") SDate false;
    mkXAttribute (tns_ism13, "declassEvent") (SString false (Some 1024%nat) []) false;
    mkXAttribute (tns_ism13, "declassException") s_cvenum_ism_25x_CVEnumISM25X false].

(** schemas/sidd/external/ISM-v13/Schema/ISM/IC-ISM.xsd:766-776. *)
Definition x_ism13_NoticeListType : XClass := mkXClass "ism13.NoticeListType"
  (PSequence [
    PElement (tns_ism13, "Notice") (XComplex "ism13.NoticeType") 1 None])
  None [
    mkXAttribute (tns_ism13, "classification") s_cvenum_ism_classification_all_CVEnumISMClassificationAll true;
    mkXAttribute (tns_ism13, "ownerProducer") s_cvenum_ismcat_ownerproducer_CVEnumISMCATOwnerProducer true;
    mkXAttribute (tns_ism13, "joint") (SBoolean None) false;
    mkXAttribute (tns_ism13, "SCIcontrols") s_cvenum_ism_scicontrols_CVEnumISMSCIControls false;
    mkXAttribute (tns_ism13, "SARIdentifier") s_cvenum_ism_sar_CVEnumISMSAR false;
    mkXAttribute (tns_ism13, "atomicEnergyMarkings") s_cvenum_ism_atomicEnergyMarkings_CVEnumISMatomicEnergyMarkings false;
    mkXAttribute (tns_ism13, "disseminationControls") s_cvenum_ism_dissem_CVEnumISMDissem false;
    mkXAttribute (tns_ism13, "displayOnlyTo") s_cvenum_ismcat_relto_CVEnumISMCATRelTo false;
    mkXAttribute (tns_ism13, "FGIsourceOpen") s_cvenum_ismcat_fgiopen_CVEnumISMCATFGIOpen false;
    mkXAttribute (tns_ism13, "FGIsourceProtected") s_cvenum_ismcat_fgiprotected_CVEnumISMCATFGIProtected false;
    mkXAttribute (tns_ism13, "releasableTo") s_cvenum_ismcat_relto_CVEnumISMCATRelTo false;
    mkXAttribute (tns_ism13, "nonICmarkings") s_cvenum_ism_nonic_CVEnumISMNonIC false;
    mkXAttribute (tns_ism13, "classifiedBy") (SString false (Some 1024%nat) []) false;
    mkXAttribute (tns_ism13, "compilationReason") (SString false (Some 1024%nat) []) false;
    mkXAttribute (tns_ism13, "derivativelyClassifiedBy") (SString false (Some 1024%nat) []) false;
    mkXAttribute (tns_ism13, "classificationReason") (SString false (Some 4096%nat) []) false;
    mkXAttribute (tns_ism13, "nonUSControls") s_cvenum_ism_nonuscontrols_CVEnumISMNonUSControls false;
    mkXAttribute (tns_ism13, "derivedFrom") (SString false (Some 1024%nat) []) false;
    mkXAttribute (tns_ism13, "declassDate") SDate false;
    mkXAttribute (tns_ism13, "declassEvent") (SString false (Some 1024%nat) []) false;
    mkXAttribute (tns_ism13, "declassException") s_cvenum_ism_25x_CVEnumISM25X false].

(** schemas/sidd/external/ISM-v13/Schema/ISM/IC-ISM.xsd:780-790. *)
Definition x_ism13_NoticeExternalListType : XClass := mkXClass "ism13.NoticeExternalListType"
  (PSequence [
    PElement (tns_ism13, "NoticeExternal") (XComplex "ism13.NoticeExternalType") 1 None])
  None [
    mkXAttribute (tns_ism13, "classification") s_cvenum_ism_classification_all_CVEnumISMClassificationAll true;
    mkXAttribute (tns_ism13, "ownerProducer") s_cvenum_ismcat_ownerproducer_CVEnumISMCATOwnerProducer true;
    mkXAttribute (tns_ism13, "joint") (SBoolean None) false;
    mkXAttribute (tns_ism13, "SCIcontrols") s_cvenum_ism_scicontrols_CVEnumISMSCIControls false;
    mkXAttribute (tns_ism13, "SARIdentifier") s_cvenum_ism_sar_CVEnumISMSAR false;
    mkXAttribute (tns_ism13, "atomicEnergyMarkings") s_cvenum_ism_atomicEnergyMarkings_CVEnumISMatomicEnergyMarkings false;
    mkXAttribute (tns_ism13, "disseminationControls") s_cvenum_ism_dissem_CVEnumISMDissem false;
    mkXAttribute (tns_ism13, "displayOnlyTo") s_cvenum_ismcat_relto_CVEnumISMCATRelTo false;
    mkXAttribute (tns_ism13, "FGIsourceOpen") s_cvenum_ismcat_fgiopen_CVEnumISMCATFGIOpen false;
    mkXAttribute (tns_ism13, "FGIsourceProtected") s_cvenum_ismcat_fgiprotected_CVEnumISMCATFGIProtected false;
    mkXAttribute (tns_ism13, "releasableTo") s_cvenum_ismcat_relto_CVEnumISMCATRelTo false;
    mkXAttribute (tns_ism13, "nonICmarkings") s_cvenum_ism_nonic_CVEnumISMNonIC false;
    mkXAttribute (tns_ism13, "classifiedBy") (SString false (Some 1024%nat) []) false;
    mkXAttribute (tns_ism13, "compilationReason") (SString false (Some 1024%nat) []) false;
    mkXAttribute (tns_ism13, "derivativelyClassifiedBy") (SString false (Some 1024%nat) []) false;
    mkXAttribute (tns_ism13, "classificationReason") (SString false (Some 4096%nat) []) false;
    mkXAttribute (tns_ism13, "nonUSControls") s_cvenum_ism_nonuscontrols_CVEnumISMNonUSControls false;
    mkXAttribute (tns_ism13, "derivedFrom") (SString false (Some 1024%nat) []) false;
    mkXAttribute (tns_ism13, "declassDate") SDate false;
    mkXAttribute (tns_ism13, "declassEvent") (SString false (Some 1024%nat) []) false;
    mkXAttribute (tns_ism13, "declassException") s_cvenum_ism_25x_CVEnumISM25X false].

(** schemas/sidd/external/ISM-v13/Schema/ISM/IC-ISM.xsd:1092-1098. *)
Definition x_ism13_ShortStringWithSecurityType : XClass := mkXClass "ism13.ShortStringWithSecurityType"
  (PSequence [])
  (Some s_ism13_ShortStringType) [
    mkXAttribute (tns_ism13, "classification") s_cvenum_ism_classification_all_CVEnumISMClassificationAll true;
    mkXAttribute (tns_ism13, "ownerProducer") s_cvenum_ismcat_ownerproducer_CVEnumISMCATOwnerProducer true;
    mkXAttribute (tns_ism13, "joint") (SBoolean None) false;
    mkXAttribute (tns_ism13, "SCIcontrols") s_cvenum_ism_scicontrols_CVEnumISMSCIControls false;
    mkXAttribute (tns_ism13, "SARIdentifier") s_cvenum_ism_sar_CVEnumISMSAR false;
    mkXAttribute (tns_ism13, "atomicEnergyMarkings") s_cvenum_ism_atomicEnergyMarkings_CVEnumISMatomicEnergyMarkings false;
    mkXAttribute (tns_ism13, "disseminationControls") s_cvenum_ism_dissem_CVEnumISMDissem false;
    mkXAttribute (tns_ism13, "displayOnlyTo") s_cvenum_ismcat_relto_CVEnumISMCATRelTo false;
    mkXAttribute (tns_ism13, "FGIsourceOpen") s_cvenum_ismcat_fgiopen_CVEnumISMCATFGIOpen false;
    mkXAttribute (tns_ism13, "FGIsourceProtected") s_cvenum_ismcat_fgiprotected_CVEnumISMCATFGIProtected false;
    mkXAttribute (tns_ism13, "releasableTo") s_cvenum_ismcat_relto_CVEnumISMCATRelTo false;
    mkXAttribute (tns_ism13, "nonICmarkings") s_cvenum_ism_nonic_CVEnumISMNonIC false;
    mkXAttribute (tns_ism13, "classifiedBy") (SString false (Some 1024%nat) []) false;
    mkXAttribute (tns_ism13, "compilationReason") (SString false (Some 1024%nat) []) false;
    mkXAttribute (tns_ism13, "derivativelyClassifiedBy") (SString false (Some 1024%nat) []) false;
    mkXAttribute (tns_ism13, "classificationReason") (SString false (Some 4096%nat) []) false;
    mkXAttribute (tns_ism13, "nonUSControls") s_cvenum_ism_nonuscontrols_CVEnumISMNonUSControls false;
    mkXAttribute (tns_ism13, "derivedFrom") (SString false (Some 1024%nat) []) false;
    mkXAttribute (tns_ism13, "declassDate") SDate false;
    mkXAttribute (tns_ism13, "declassEvent") (SString false (Some 1024%nat) []) false;
    mkXAttribute (tns_ism13, "declassException") s_cvenum_ism_25x_CVEnumISM25X false].

Definition common_types : list XClass := [
  x_common01_XYZType; x_common01_XYZAttributeType; x_common01_LLHType; x_common01_LatLonType; x_common01_LatLonCornerType;
  x_common01_LatLonCornerStringType; x_common01_LatLonHAECornerType; x_common01_LatLonVertexType; x_common01_LLHCornerStringType;
  x_common01_RowColIntType; x_common01_RowColDoubleType; x_common01_ComplexType; x_common01_RowColVertexType; x_common01_PolyCoef1DType;
  x_common01_PolyCoef2DType; x_common01_Poly1DType; x_common01_Poly2DType; x_common01_XYZPolyType; x_common01_XYZPolyAttributeType;
  x_common01_LineType_Endpoint; x_common01_LineType; x_common01_PolygonType_Vertex; x_common01_PolygonType; x_common01_ArrayDoubleType;
  x_common01_ParameterType; x_common01_RadarModeType; x_common01_CollectionInfoType; x_common01_ImageCreationType;
  x_common01_ErrorStatisticsType_CompositeSCP_RgAzErr; x_common01_ErrorStatisticsType_CompositeSCP_RowColErr;
  x_common01_ErrorStatisticsType_CompositeSCP; x_common01_ErrorStatisticsType_Components_PosVelErr_CorrCoefs;
  x_common01_ErrorStatisticsType_Components_PosVelErr_PositionDecorr; x_common01_ErrorStatisticsType_Components_PosVelErr;
  x_common01_ErrorStatisticsType_Components_RadarSensor_RangeBiasDecorr; x_common01_ErrorStatisticsType_Components_RadarSensor;
  x_common01_ErrorStatisticsType_Components_TropoError_TropoRangeDecorr; x_common01_ErrorStatisticsType_Components_TropoError;
  x_common01_ErrorStatisticsType_Components_IonoError_IonoRangeVertDecorr; x_common01_ErrorStatisticsType_Components_IonoError;
  x_common01_ErrorStatisticsType_Components; x_common01_ErrorStatisticsType_AdditionalParms; x_common01_ErrorStatisticsType;
  x_common01_ValidDataType; x_common01_RadiometricType; x_common01_AngleMagnitudeType; x_common01_RangeAzimuthType; x_common01_ReferencePointType;
  x_sfa_GeometryType; x_sfa_PointType; x_sfa_CurveType; x_sfa_LineStringType; x_sfa_LineType; x_sfa_LinearRingType; x_sfa_SurfaceType;
  x_sfa_PolygonType; x_sfa_TriangleType; x_sfa_PolyhedralSurfaceType; x_sfa_TriangulatedIrregularNetworkType; x_sfa_GeometryCollectionType;
  x_sfa_MultiPointType; x_sfa_MultiCurveType; x_sfa_MultiLineStringType; x_sfa_MultiSurfaceType; x_sfa_MultiPolygonType; x_sfa_UNITType;
  x_sfa_PrimeMeridianType; x_sfa_SpheriodType; x_sfa_ParameterType; x_sfa_ProjectionType; x_sfa_DatumType; x_sfa_GeocentricCoordinateSystemType;
  x_sfa_GeographicCoordinateSystemType; x_sfa_ProjectedCoordinateSystemType; x_sfa_AbstractReferenceSystemType; x_sfa_ReferenceSystemType;
  x_common10_XYZType; x_common10_XYZAttributeType; x_common10_LLHType; x_common10_LatLonType; x_common10_LatLonCornerType;
  x_common10_LatLonCornerStringType; x_common10_LatLonHAECornerType; x_common10_LatLonVertexType; x_common10_LLHCornerStringType;
  x_common10_LatLonRestrictionType; x_common10_RowColIntType; x_common10_RowColDoubleType; x_common10_ComplexType; x_common10_RowColVertexType;
  x_common10_PolyCoef1DType; x_common10_PolyCoef2DType; x_common10_Poly1DType; x_common10_Poly2DType; x_common10_XYZPolyType;
  x_common10_XYZPolyAttributeType; x_common10_LineType_Endpoint; x_common10_LineType; x_common10_PolygonType_Vertex; x_common10_PolygonType;
  x_common10_ArrayDoubleType; x_common10_ParameterType; x_common10_RadarModeType; x_common10_CollectionInfoType; x_common10_ImageCreationType;
  x_common10_ErrorStatisticsType_CompositeSCP; x_common10_ErrorStatisticsType_Components_PosVelErr_CorrCoefs;
  x_common10_ErrorStatisticsType_Components_PosVelErr_PositionDecorr; x_common10_ErrorStatisticsType_Components_PosVelErr;
  x_common10_ErrorStatisticsType_Components_RadarSensor_RangeBiasDecorr; x_common10_ErrorStatisticsType_Components_RadarSensor;
  x_common10_ErrorStatisticsType_Components_TropoError_TropoRangeDecorr; x_common10_ErrorStatisticsType_Components_TropoError;
  x_common10_ErrorStatisticsType_Components_IonoError_IonoRangeVertDecorr; x_common10_ErrorStatisticsType_Components_IonoError;
  x_common10_ErrorStatisticsType_Components; x_common10_ErrorStatisticsType_Unmodeled_UnmodeledDecorr_Xrow;
  x_common10_ErrorStatisticsType_Unmodeled_UnmodeledDecorr_Ycol; x_common10_ErrorStatisticsType_Unmodeled_UnmodeledDecorr;
  x_common10_ErrorStatisticsType_Unmodeled; x_common10_ErrorStatisticsType_AdditionalParms; x_common10_ErrorStatisticsType; x_common10_ValidDataType;
  x_common10_RadiometricType_NoiseLevel; x_common10_RadiometricType; x_common10_AngleMagnitudeType; x_common10_AngleZeroToExclusive360MagnitudeType;
  x_common10_RangeAzimuthType; x_common10_ReferencePointType; x_common10_MatchInfoType_MatchType_MatchCollection; x_common10_MatchInfoType_MatchType;
  x_common10_MatchInfoType; x_common10_GeoInfoType; x_ism13_LongStringWithSecurityType; x_ism13_NoticeText_; x_ism13_NoticeBaseType;
  x_ism13_NoticeType; x_ism13_NoticeExternalType; x_ism13_NoticeListType; x_ism13_NoticeExternalListType; x_ism13_ShortStringWithSecurityType].
