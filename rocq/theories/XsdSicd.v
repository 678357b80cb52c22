(** The complex types of schemas/sicd; a table made by a script from the schemas.
    Extensions, attribute groups and references are expanded; the type of an element without a named type has the
    name of the enclosing type and the element. *)
Require Import ZArith String List.
Require Import Verif.SchemaModel Verif.XsdModel Verif.XsdTypes.
Import ListNotations.
Local Open Scope string_scope.

(** schemas/sicd/SICD_schema_V1.2.1_2018_12_13.xsd:38-44. *)
Definition x_sicd121_XYZType : XClass := mkXClass "sicd121.XYZType"
  (PSequence [
    PElement (tns_sicd121, "X") (XSimple SNumber) 1 (Some 1);
    PElement (tns_sicd121, "Y") (XSimple SNumber) 1 (Some 1);
    PElement (tns_sicd121, "Z") (XSimple SNumber) 1 (Some 1)])
  None [].

(** schemas/sicd/SICD_schema_V1.2.1_2018_12_13.xsd:46-52. *)
Definition x_sicd121_LatLonHAEType : XClass := mkXClass "sicd121.LatLonHAEType"
  (PSequence [
    PElement (tns_sicd121, "Lat") (XSimple SNumber) 1 (Some 1);
    PElement (tns_sicd121, "Lon") (XSimple SNumber) 1 (Some 1);
    PElement (tns_sicd121, "HAE") (XSimple SNumber) 1 (Some 1)])
  None [].

(** schemas/sicd/SICD_schema_V1.2.1_2018_12_13.xsd:54-59. *)
Definition x_sicd121_LatLonType : XClass := mkXClass "sicd121.LatLonType"
  (PSequence [
    PElement (tns_sicd121, "Lat") (XSimple SNumber) 1 (Some 1);
    PElement (tns_sicd121, "Lon") (XSimple SNumber) 1 (Some 1)])
  None [].

(** schemas/sicd/SICD_schema_V1.2.1_2018_12_13.xsd:61-67. *)
Definition x_sicd121_LatLonHAERestrictionType : XClass := mkXClass "sicd121.LatLonHAERestrictionType"
  (PSequence [
    PElement (tns_sicd121, "Lat") (XSimple s_sicd121_Neg90To90Type) 1 (Some 1);
    PElement (tns_sicd121, "Lon") (XSimple s_sicd121_Neg180To180Type) 1 (Some 1);
    PElement (tns_sicd121, "HAE") (XSimple SNumber) 1 (Some 1)])
  None [].

(** schemas/sicd/SICD_schema_V1.2.1_2018_12_13.xsd:69-74. *)
Definition x_sicd121_LatLonRestrictionType : XClass := mkXClass "sicd121.LatLonRestrictionType"
  (PSequence [
    PElement (tns_sicd121, "Lat") (XSimple s_sicd121_Neg90To90Type) 1 (Some 1);
    PElement (tns_sicd121, "Lon") (XSimple s_sicd121_Neg180To180Type) 1 (Some 1)])
  None [].

(** schemas/sicd/SICD_schema_V1.2.1_2018_12_13.xsd:92-98. *)
Definition x_sicd121_LatLonCornerType : XClass := mkXClass "sicd121.LatLonCornerType"
  (PSequence [
    PElement (tns_sicd121, "Lat") (XSimple SNumber) 1 (Some 1);
    PElement (tns_sicd121, "Lon") (XSimple SNumber) 1 (Some 1)])
  None [
    mkXAttribute ("", "index") s_sicd121_CornerAttrType true].

(** schemas/sicd/SICD_schema_V1.2.1_2018_12_13.xsd:100-106. *)
Definition x_sicd121_LatLonCornerStringType : XClass := mkXClass "sicd121.LatLonCornerStringType"
  (PSequence [
    PElement (tns_sicd121, "Lat") (XSimple SNumber) 1 (Some 1);
    PElement (tns_sicd121, "Lon") (XSimple SNumber) 1 (Some 1)])
  None [
    mkXAttribute ("", "index") s_sicd121_CornerStringType true].

(** schemas/sicd/SICD_schema_V1.2.1_2018_12_13.xsd:108-114. *)
Definition x_sicd121_LatLonHAECornerRestrictType : XClass := mkXClass "sicd121.LatLonHAECornerRestrictType"
  (PSequence [
    PElement (tns_sicd121, "Lat") (XSimple s_sicd121_Neg90To90Type) 1 (Some 1);
    PElement (tns_sicd121, "Lon") (XSimple s_sicd121_Neg180To180Type) 1 (Some 1);
    PElement (tns_sicd121, "HAE") (XSimple SNumber) 1 (Some 1)])
  None [
    mkXAttribute ("", "index") s_sicd121_CornerAttrType true].

(** schemas/sicd/SICD_schema_V1.2.1_2018_12_13.xsd:116-122. *)
Definition x_sicd121_LatLonHAECornerStringType : XClass := mkXClass "sicd121.LatLonHAECornerStringType"
  (PSequence [
    PElement (tns_sicd121, "Lat") (XSimple SNumber) 1 (Some 1);
    PElement (tns_sicd121, "Lon") (XSimple SNumber) 1 (Some 1);
    PElement (tns_sicd121, "HAE") (XSimple SNumber) 1 (Some 1)])
  None [
    mkXAttribute ("", "index") s_sicd121_CornerStringType true].

(** schemas/sicd/SICD_schema_V1.2.1_2018_12_13.xsd:124-129. *)
Definition x_sicd121_RowColType : XClass := mkXClass "sicd121.RowColType"
  (PSequence [
    PElement (tns_sicd121, "Row") (XSimple SInt32) 1 (Some 1);
    PElement (tns_sicd121, "Col") (XSimple SInt32) 1 (Some 1)])
  None [].

(** schemas/sicd/SICD_schema_V1.2.1_2018_12_13.xsd:131-136. *)
Definition x_sicd121_ComplexType : XClass := mkXClass "sicd121.ComplexType"
  (PSequence [
    PElement (tns_sicd121, "Real") (XSimple SNumber) 1 (Some 1);
    PElement (tns_sicd121, "Imag") (XSimple SNumber) 1 (Some 1)])
  None [].

(** schemas/sicd/SICD_schema_V1.2.1_2018_12_13.xsd:138-144. *)
Definition x_sicd121_RowColvertexType : XClass := mkXClass "sicd121.RowColvertexType"
  (PSequence [
    PElement (tns_sicd121, "Row") (XSimple SInt32) 1 (Some 1);
    PElement (tns_sicd121, "Col") (XSimple SInt32) 1 (Some 1)])
  None [
    mkXAttribute ("", "index") SInt32 true].

(** schemas/sicd/SICD_schema_V1.2.1_2018_12_13.xsd:146-152. *)
Definition x_sicd121_PolyCoef1DType : XClass := mkXClass "sicd121.PolyCoef1DType"
  (PSequence [])
  (Some SNumber) [
    mkXAttribute ("", "exponent1") SInt32 true].

(** schemas/sicd/SICD_schema_V1.2.1_2018_12_13.xsd:154-161. *)
Definition x_sicd121_PolyCoef2DType : XClass := mkXClass "sicd121.PolyCoef2DType"
  (PSequence [])
  (Some SNumber) [
    mkXAttribute ("", "exponent1") SInt32 true;
    mkXAttribute ("", "exponent2") SInt32 true].

(** schemas/sicd/SICD_schema_V1.2.1_2018_12_13.xsd:163-168. *)
Definition x_sicd121_Poly1DType : XClass := mkXClass "sicd121.Poly1DType"
  (PSequence [
    PElement (tns_sicd121, "Coef") (XComplex "sicd121.PolyCoef1DType") 1 None])
  None [
    mkXAttribute ("", "order1") SInt32 true].

(** schemas/sicd/SICD_schema_V1.2.1_2018_12_13.xsd:170-176. *)
Definition x_sicd121_Poly2DType : XClass := mkXClass "sicd121.Poly2DType"
  (PSequence [
    PElement (tns_sicd121, "Coef") (XComplex "sicd121.PolyCoef2DType") 1 None])
  None [
    mkXAttribute ("", "order1") SInt32 true;
    mkXAttribute ("", "order2") SInt32 true].

(** schemas/sicd/SICD_schema_V1.2.1_2018_12_13.xsd:178-184. *)
Definition x_sicd121_XYZPolyType : XClass := mkXClass "sicd121.XYZPolyType"
  (PSequence [
    PElement (tns_sicd121, "X") (XComplex "sicd121.Poly1DType") 1 (Some 1);
    PElement (tns_sicd121, "Y") (XComplex "sicd121.Poly1DType") 1 (Some 1);
    PElement (tns_sicd121, "Z") (XComplex "sicd121.Poly1DType") 1 (Some 1)])
  None [].

(** schemas/sicd/SICD_schema_V1.2.1_2018_12_13.xsd:186-192. *)
Definition x_sicd121_XYZPolyAttributeType : XClass := mkXClass "sicd121.XYZPolyAttributeType"
  (PSequence [
    PElement (tns_sicd121, "X") (XComplex "sicd121.Poly1DType") 1 (Some 1);
    PElement (tns_sicd121, "Y") (XComplex "sicd121.Poly1DType") 1 (Some 1);
    PElement (tns_sicd121, "Z") (XComplex "sicd121.Poly1DType") 1 (Some 1)])
  None [
    mkXAttribute ("", "index") SInt32 true].

(** schemas/sicd/SICD_schema_V1.2.1_2018_12_13.xsd:194-199. *)
Definition x_sicd121_GainPhasePolyType : XClass := mkXClass "sicd121.GainPhasePolyType"
  (PSequence [
    PElement (tns_sicd121, "GainPoly") (XComplex "sicd121.Poly2DType") 1 (Some 1);
    PElement (tns_sicd121, "PhasePoly") (XComplex "sicd121.Poly2DType") 1 (Some 1)])
  None [].

(** schemas/sicd/SICD_schema_V1.2.1_2018_12_13.xsd:204-210. *)
Definition x_sicd121_LineType_Endpoint : XClass := mkXClass "sicd121.LineType/Endpoint"
  (PSequence [
    PElement (tns_sicd121, "Lat") (XSimple SNumber) 1 (Some 1);
    PElement (tns_sicd121, "Lon") (XSimple SNumber) 1 (Some 1)])
  None [
    mkXAttribute ("", "index") SInt32 true].

(** schemas/sicd/SICD_schema_V1.2.1_2018_12_13.xsd:201-214. *)
Definition x_sicd121_LineType : XClass := mkXClass "sicd121.LineType"
  (PSequence [
    PElement (tns_sicd121, "Endpoint") (XComplex "sicd121.LineType/Endpoint") 2 None])
  None [
    mkXAttribute ("", "size") SInt32 true].

(** schemas/sicd/SICD_schema_V1.2.1_2018_12_13.xsd:219-225. *)
Definition x_sicd121_PolygonType_Vertex : XClass := mkXClass "sicd121.PolygonType/Vertex"
  (PSequence [
    PElement (tns_sicd121, "Lat") (XSimple s_sicd121_Neg90To90Type) 1 (Some 1);
    PElement (tns_sicd121, "Lon") (XSimple s_sicd121_Neg180To180Type) 1 (Some 1)])
  None [
    mkXAttribute ("", "index") SInt32 true].

(** schemas/sicd/SICD_schema_V1.2.1_2018_12_13.xsd:216-229. *)
Definition x_sicd121_PolygonType : XClass := mkXClass "sicd121.PolygonType"
  (PSequence [
    PElement (tns_sicd121, "Vertex") (XComplex "sicd121.PolygonType/Vertex") 3 None])
  None [
    mkXAttribute ("", "size") SInt32 true].

(** schemas/sicd/SICD_schema_V1.2.1_2018_12_13.xsd:231-237. *)
Definition x_sicd121_ArrayDouble : XClass := mkXClass "sicd121.ArrayDouble"
  (PSequence [])
  (Some SNumber) [
    mkXAttribute ("", "index") SInt32 true].

(** schemas/sicd/SICD_schema_V1.2.1_2018_12_13.xsd:239-244. *)
Definition x_sicd121_ErrorDecorrFuncType : XClass := mkXClass "sicd121.ErrorDecorrFuncType"
  (PSequence [
    PElement (tns_sicd121, "CorrCoefZero") (XSimple SNumber) 1 (Some 1);
    PElement (tns_sicd121, "DecorrRate") (XSimple SNumber) 1 (Some 1)])
  None [].

(** schemas/sicd/SICD_schema_V1.2.1_2018_12_13.xsd:246-252. *)
Definition x_sicd121_ParameterType : XClass := mkXClass "sicd121.ParameterType"
  (PSequence [])
  (Some SText) [
    mkXAttribute ("", "name") SText true].

(** schemas/sicd/SICD_schema_V1.2.1_2018_12_13.xsd:328-341. *)
Definition x_sicd121_CollectionInfoType_RadarMode : XClass := mkXClass "sicd121.CollectionInfoType/RadarMode"
  (PSequence [
    PElement (tns_sicd121, "ModeType") (XSimple (SEnum false ["SPOTLIGHT"; "STRIPMAP"; "DYNAMIC STRIPMAP"])) 1 (Some 1);
    PElement (tns_sicd121, "ModeID") (XSimple SText) 0 (Some 1)])
  None [].

(** schemas/sicd/SICD_schema_V1.2.1_2018_12_13.xsd:314-347. *)
Definition x_sicd121_CollectionInfoType : XClass := mkXClass "sicd121.CollectionInfoType"
  (PSequence [
    PElement (tns_sicd121, "CollectorName") (XSimple SText) 1 (Some 1);
    PElement (tns_sicd121, "IlluminatorName") (XSimple SText) 0 (Some 1);
    PElement (tns_sicd121, "CoreName") (XSimple SText) 1 (Some 1);
    PElement (tns_sicd121, "CollectType") (XSimple (SEnum false ["MONOSTATIC"; "BISTATIC"])) 0 (Some 1);
    PElement (tns_sicd121, "RadarMode") (XComplex "sicd121.CollectionInfoType/RadarMode") 1 (Some 1);
    PElement (tns_sicd121, "Classification") (XSimple SText) 1 (Some 1);
    PElement (tns_sicd121, "CountryCode") (XSimple SText) 0 None;
    PElement (tns_sicd121, "Parameter") (XComplex "sicd121.ParameterType") 0 None])
  None [].

(** schemas/sicd/SICD_schema_V1.2.1_2018_12_13.xsd:349-356. *)
Definition x_sicd121_ImageCreationType : XClass := mkXClass "sicd121.ImageCreationType"
  (PSequence [
    PElement (tns_sicd121, "Application") (XSimple SText) 0 (Some 1);
    PElement (tns_sicd121, "DateTime") (XSimple SDateTime) 0 (Some 1);
    PElement (tns_sicd121, "Site") (XSimple SText) 0 (Some 1);
    PElement (tns_sicd121, "Profile") (XSimple SText) 0 (Some 1)])
  None [].

(** schemas/sicd/SICD_schema_V1.2.1_2018_12_13.xsd:370-375. *)
Definition x_sicd121_ImageDataType_AmpTable : XClass := mkXClass "sicd121.ImageDataType/AmpTable"
  (PSequence [
    PElement (tns_sicd121, "Amplitude") (XComplex "sicd121.ArrayDouble") 256 (Some 256)])
  None [
    mkXAttribute ("", "size") SInt32 true].

(** schemas/sicd/SICD_schema_V1.2.1_2018_12_13.xsd:382-387. *)
Definition x_sicd121_ImageDataType_FullImage : XClass := mkXClass "sicd121.ImageDataType/FullImage"
  (PSequence [
    PElement (tns_sicd121, "NumRows") (XSimple SInt32) 1 (Some 1);
    PElement (tns_sicd121, "NumCols") (XSimple SInt32) 1 (Some 1)])
  None [].

(** schemas/sicd/SICD_schema_V1.2.1_2018_12_13.xsd:391-396. *)
Definition x_sicd121_ImageDataType_ValidData : XClass := mkXClass "sicd121.ImageDataType/ValidData"
  (PSequence [
    PElement (tns_sicd121, "Vertex") (XComplex "sicd121.RowColvertexType") 3 None])
  None [
    mkXAttribute ("", "size") SInt32 true].

(** schemas/sicd/SICD_schema_V1.2.1_2018_12_13.xsd:358-399. *)
Definition x_sicd121_ImageDataType : XClass := mkXClass "sicd121.ImageDataType"
  (PSequence [
    PElement (tns_sicd121, "PixelType") (XSimple (SEnum false ["RE32F_IM32F"; "RE16I_IM16I"; "AMP8I_PHS8I"])) 1 (Some 1);
    PElement (tns_sicd121, "AmpTable") (XComplex "sicd121.ImageDataType/AmpTable") 0 (Some 1);
    PElement (tns_sicd121, "NumRows") (XSimple SInt32) 1 (Some 1);
    PElement (tns_sicd121, "NumCols") (XSimple SInt32) 1 (Some 1);
    PElement (tns_sicd121, "FirstRow") (XSimple SInt32) 1 (Some 1);
    PElement (tns_sicd121, "FirstCol") (XSimple SInt32) 1 (Some 1);
    PElement (tns_sicd121, "FullImage") (XComplex "sicd121.ImageDataType/FullImage") 1 (Some 1);
    PElement (tns_sicd121, "SCPPixel") (XComplex "sicd121.RowColType") 1 (Some 1);
    PElement (tns_sicd121, "ValidData") (XComplex "sicd121.ImageDataType/ValidData") 0 (Some 1)])
  None [].

(** schemas/sicd/SICD_schema_V1.2.1_2018_12_13.xsd:401-412. *)
Definition x_sicd121_GeoInfoType : XClass := mkXClass "sicd121.GeoInfoType"
  (PSequence [
    PElement (tns_sicd121, "Desc") (XComplex "sicd121.ParameterType") 0 None;
    POptional (PChoice [
    PElement (tns_sicd121, "Point") (XComplex "sicd121.LatLonRestrictionType") 1 (Some 1);
    PElement (tns_sicd121, "Line") (XComplex "sicd121.LineType") 1 (Some 1);
    PElement (tns_sicd121, "Polygon") (XComplex "sicd121.PolygonType") 1 (Some 1)]);
    PElement (tns_sicd121, "GeoInfo") (XComplex "sicd121.GeoInfoType") 0 None])
  None [
    mkXAttribute ("", "name") SText true].

(** schemas/sicd/SICD_schema_V1.2.1_2018_12_13.xsd:424-429. *)
Definition x_sicd121_GeoDataType_SCP : XClass := mkXClass "sicd121.GeoDataType/SCP"
  (PSequence [
    PElement (tns_sicd121, "ECF") (XComplex "sicd121.XYZType") 1 (Some 1);
    PElement (tns_sicd121, "LLH") (XComplex "sicd121.LatLonHAERestrictionType") 1 (Some 1)])
  None [].

(** schemas/sicd/SICD_schema_V1.2.1_2018_12_13.xsd:432-436. *)
Definition x_sicd121_GeoDataType_ImageCorners : XClass := mkXClass "sicd121.GeoDataType/ImageCorners"
  (PSequence [
    PElement (tns_sicd121, "ICP") (XComplex "sicd121.LatLonCornerStringType") 4 (Some 4)])
  None [].

(** schemas/sicd/SICD_schema_V1.2.1_2018_12_13.xsd:414-441. *)
Definition x_sicd121_GeoDataType : XClass := mkXClass "sicd121.GeoDataType"
  (PSequence [
    PElement (tns_sicd121, "EarthModel") (XSimple (SEnum false ["WGS_84"])) 1 (Some 1);
    PElement (tns_sicd121, "SCP") (XComplex "sicd121.GeoDataType/SCP") 1 (Some 1);
    PElement (tns_sicd121, "ImageCorners") (XComplex "sicd121.GeoDataType/ImageCorners") 1 (Some 1);
    PElement (tns_sicd121, "ValidData") (XComplex "sicd121.PolygonType") 0 (Some 1);
    PElement (tns_sicd121, "GeoInfo") (XComplex "sicd121.GeoInfoType") 0 None])
  None [].

(** schemas/sicd/SICD_schema_V1.2.1_2018_12_13.xsd:462-467. *)
Definition x_sicd121_DirParamType_WgtType : XClass := mkXClass "sicd121.DirParamType/WgtType"
  (PSequence [
    PElement (tns_sicd121, "WindowName") (XSimple SText) 1 (Some 1);
    PElement (tns_sicd121, "Parameter") (XComplex "sicd121.ParameterType") 0 None])
  None [].

(** schemas/sicd/SICD_schema_V1.2.1_2018_12_13.xsd:470-475. *)
Definition x_sicd121_DirParamType_WgtFunct : XClass := mkXClass "sicd121.DirParamType/WgtFunct"
  (PSequence [
    PElement (tns_sicd121, "Wgt") (XComplex "sicd121.ArrayDouble") 2 None])
  None [
    mkXAttribute ("", "size") SInt32 true].

(** schemas/sicd/SICD_schema_V1.2.1_2018_12_13.xsd:443-478. *)
Definition x_sicd121_DirParamType : XClass := mkXClass "sicd121.DirParamType"
  (PSequence [
    PElement (tns_sicd121, "UVectECF") (XComplex "sicd121.XYZType") 1 (Some 1);
    PElement (tns_sicd121, "SS") (XSimple SNumber) 1 (Some 1);
    PElement (tns_sicd121, "ImpRespWid") (XSimple SNumber) 1 (Some 1);
    PElement (tns_sicd121, "Sgn") (XSimple (SEnum true ["1"; "-1"])) 1 (Some 1);
    PElement (tns_sicd121, "ImpRespBW") (XSimple SNumber) 1 (Some 1);
    PElement (tns_sicd121, "KCtr") (XSimple SNumber) 1 (Some 1);
    PElement (tns_sicd121, "DeltaK1") (XSimple SNumber) 1 (Some 1);
    PElement (tns_sicd121, "DeltaK2") (XSimple SNumber) 1 (Some 1);
    PElement (tns_sicd121, "DeltaKCOAPoly") (XComplex "sicd121.Poly2DType") 0 (Some 1);
    PElement (tns_sicd121, "WgtType") (XComplex "sicd121.DirParamType/WgtType") 0 (Some 1);
    PElement (tns_sicd121, "WgtFunct") (XComplex "sicd121.DirParamType/WgtFunct") 0 (Some 1)])
  None [].

(** schemas/sicd/SICD_schema_V1.2.1_2018_12_13.xsd:480-506. *)
Definition x_sicd121_GridType : XClass := mkXClass "sicd121.GridType"
  (PSequence [
    PElement (tns_sicd121, "ImagePlane") (XSimple (SEnum false ["SLANT"; "GROUND"; "OTHER"])) 1 (Some 1);
    PElement (tns_sicd121, "Type") (XSimple (SEnum false ["RGAZIM"; "RGZERO"; "XRGYCR"; "XCTYAT"; "PLANE"])) 1 (Some 1);
    PElement (tns_sicd121, "TimeCOAPoly") (XComplex "sicd121.Poly2DType") 1 (Some 1);
    PElement (tns_sicd121, "Row") (XComplex "sicd121.DirParamType") 1 (Some 1);
    PElement (tns_sicd121, "Col") (XComplex "sicd121.DirParamType") 1 (Some 1)])
  None [].

(** schemas/sicd/SICD_schema_V1.2.1_2018_12_13.xsd:516-525. *)
Definition x_sicd121_TimelineType_IPP_Set : XClass := mkXClass "sicd121.TimelineType/IPP/Set"
  (PSequence [
    PElement (tns_sicd121, "TStart") (XSimple SNumber) 1 (Some 1);
    PElement (tns_sicd121, "TEnd") (XSimple SNumber) 1 (Some 1);
    PElement (tns_sicd121, "IPPStart") (XSimple SInt32) 1 (Some 1);
    PElement (tns_sicd121, "IPPEnd") (XSimple SInt32) 1 (Some 1);
    PElement (tns_sicd121, "IPPPoly") (XComplex "sicd121.Poly1DType") 1 (Some 1)])
  None [
    mkXAttribute ("", "index") SInt32 true].

(** schemas/sicd/SICD_schema_V1.2.1_2018_12_13.xsd:513-529. *)
Definition x_sicd121_TimelineType_IPP : XClass := mkXClass "sicd121.TimelineType/IPP"
  (PSequence [
    PElement (tns_sicd121, "Set") (XComplex "sicd121.TimelineType/IPP/Set") 1 None])
  None [
    mkXAttribute ("", "size") SInt32 true].

(** schemas/sicd/SICD_schema_V1.2.1_2018_12_13.xsd:508-532. *)
Definition x_sicd121_TimelineType : XClass := mkXClass "sicd121.TimelineType"
  (PSequence [
    PElement (tns_sicd121, "CollectStart") (XSimple SDateTime) 1 (Some 1);
    PElement (tns_sicd121, "CollectDuration") (XSimple SNumber) 1 (Some 1);
    PElement (tns_sicd121, "IPP") (XComplex "sicd121.TimelineType/IPP") 0 (Some 1)])
  None [].

(** schemas/sicd/SICD_schema_V1.2.1_2018_12_13.xsd:540-545. *)
Definition x_sicd121_PositionType_RcvAPC : XClass := mkXClass "sicd121.PositionType/RcvAPC"
  (PSequence [
    PElement (tns_sicd121, "RcvAPCPoly") (XComplex "sicd121.XYZPolyAttributeType") 1 None])
  None [
    mkXAttribute ("", "size") SInt32 true].

(** schemas/sicd/SICD_schema_V1.2.1_2018_12_13.xsd:534-548. *)
Definition x_sicd121_PositionType : XClass := mkXClass "sicd121.PositionType"
  (PSequence [
    PElement (tns_sicd121, "ARPPoly") (XComplex "sicd121.XYZPolyType") 1 (Some 1);
    PElement (tns_sicd121, "GRPPoly") (XComplex "sicd121.XYZPolyType") 0 (Some 1);
    PElement (tns_sicd121, "TxAPCPoly") (XComplex "sicd121.XYZPolyType") 0 (Some 1);
    PElement (tns_sicd121, "RcvAPC") (XComplex "sicd121.PositionType/RcvAPC") 0 (Some 1)])
  None [].

(** schemas/sicd/SICD_schema_V1.2.1_2018_12_13.xsd:553-558. *)
Definition x_sicd121_RadarCollectionType_TxFrequency : XClass := mkXClass "sicd121.RadarCollectionType/TxFrequency"
  (PSequence [
    PElement (tns_sicd121, "Min") (XSimple SNumber) 1 (Some 1);
    PElement (tns_sicd121, "Max") (XSimple SNumber) 1 (Some 1)])
  None [].

(** schemas/sicd/SICD_schema_V1.2.1_2018_12_13.xsd:565-586. *)
Definition x_sicd121_RadarCollectionType_Waveform_WFParameters : XClass := mkXClass "sicd121.RadarCollectionType/Waveform/WFParameters"
  (PSequence [
    PElement (tns_sicd121, "TxPulseLength") (XSimple SNumber) 0 (Some 1);
    PElement (tns_sicd121, "TxRFBandwidth") (XSimple SNumber) 0 (Some 1);
    PElement (tns_sicd121, "TxFreqStart") (XSimple SNumber) 0 (Some 1);
    PElement (tns_sicd121, "TxFMRate") (XSimple SNumber) 0 (Some 1);
    PElement (tns_sicd121, "RcvDemodType") (XSimple (SEnum false ["STRETCH"; "CHIRP"])) 0 (Some 1);
    PElement (tns_sicd121, "RcvWindowLength") (XSimple SNumber) 0 (Some 1);
    PElement (tns_sicd121, "ADCSampleRate") (XSimple SNumber) 0 (Some 1);
    PElement (tns_sicd121, "RcvIFBandwidth") (XSimple SNumber) 0 (Some 1);
    PElement (tns_sicd121, "RcvFreqStart") (XSimple SNumber) 0 (Some 1);
    PElement (tns_sicd121, "RcvFMRate") (XSimple SNumber) 0 (Some 1)])
  None [
    mkXAttribute ("", "index") SInt32 true].

(** schemas/sicd/SICD_schema_V1.2.1_2018_12_13.xsd:562-590. *)
Definition x_sicd121_RadarCollectionType_Waveform : XClass := mkXClass "sicd121.RadarCollectionType/Waveform"
  (PSequence [
    PElement (tns_sicd121, "WFParameters") (XComplex "sicd121.RadarCollectionType/Waveform/WFParameters") 1 None])
  None [
    mkXAttribute ("", "size") SInt32 true].

(** schemas/sicd/SICD_schema_V1.2.1_2018_12_13.xsd:597-603. *)
Definition x_sicd121_RadarCollectionType_TxSequence_TxStep : XClass := mkXClass "sicd121.RadarCollectionType/TxSequence/TxStep"
  (PSequence [
    PElement (tns_sicd121, "WFIndex") (XSimple SInt32) 0 (Some 1);
    PElement (tns_sicd121, "TxPolarization") (XSimple s_sicd121_Polarization2Type) 0 (Some 1)])
  None [
    mkXAttribute ("", "index") SInt32 true].

(** schemas/sicd/SICD_schema_V1.2.1_2018_12_13.xsd:594-607. *)
Definition x_sicd121_RadarCollectionType_TxSequence : XClass := mkXClass "sicd121.RadarCollectionType/TxSequence"
  (PSequence [
    PElement (tns_sicd121, "TxStep") (XComplex "sicd121.RadarCollectionType/TxSequence/TxStep") 1 None])
  None [
    mkXAttribute ("", "size") SInt32 true].

(** schemas/sicd/SICD_schema_V1.2.1_2018_12_13.xsd:613-619. *)
Definition x_sicd121_RadarCollectionType_RcvChannels_ChanParameters : XClass := mkXClass "sicd121.RadarCollectionType/RcvChannels/ChanParameters"
  (PSequence [
    PElement (tns_sicd121, "TxRcvPolarization") (XSimple s_sicd121_DualPolarizationType) 1 (Some 1);
    PElement (tns_sicd121, "RcvAPCIndex") (XSimple SInt32) 0 (Some 1)])
  None [
    mkXAttribute ("", "index") SInt32 true].

(** schemas/sicd/SICD_schema_V1.2.1_2018_12_13.xsd:610-623. *)
Definition x_sicd121_RadarCollectionType_RcvChannels : XClass := mkXClass "sicd121.RadarCollectionType/RcvChannels"
  (PSequence [
    PElement (tns_sicd121, "ChanParameters") (XComplex "sicd121.RadarCollectionType/RcvChannels/ChanParameters") 1 None])
  None [
    mkXAttribute ("", "size") SInt32 true].

(** schemas/sicd/SICD_schema_V1.2.1_2018_12_13.xsd:629-633. *)
Definition x_sicd121_RadarCollectionType_Area_Corner : XClass := mkXClass "sicd121.RadarCollectionType/Area/Corner"
  (PSequence [
    PElement (tns_sicd121, "ACP") (XComplex "sicd121.LatLonHAECornerRestrictType") 4 (Some 4)])
  None [].

(** schemas/sicd/SICD_schema_V1.2.1_2018_12_13.xsd:639-646. *)
Definition x_sicd121_RadarCollectionType_Area_Plane_RefPt : XClass := mkXClass "sicd121.RadarCollectionType/Area/Plane/RefPt"
  (PSequence [
    PElement (tns_sicd121, "ECF") (XComplex "sicd121.XYZType") 1 (Some 1);
    PElement (tns_sicd121, "Line") (XSimple SNumber) 1 (Some 1);
    PElement (tns_sicd121, "Sample") (XSimple SNumber) 1 (Some 1)])
  None [
    mkXAttribute ("", "name") SText false].

(** schemas/sicd/SICD_schema_V1.2.1_2018_12_13.xsd:649-656. *)
Definition x_sicd121_RadarCollectionType_Area_Plane_XDir : XClass := mkXClass "sicd121.RadarCollectionType/Area/Plane/XDir"
  (PSequence [
    PElement (tns_sicd121, "UVectECF") (XComplex "sicd121.XYZType") 1 (Some 1);
    PElement (tns_sicd121, "LineSpacing") (XSimple SNumber) 1 (Some 1);
    PElement (tns_sicd121, "NumLines") (XSimple SInt32) 1 (Some 1);
    PElement (tns_sicd121, "FirstLine") (XSimple SInt32) 1 (Some 1)])
  None [].

(** schemas/sicd/SICD_schema_V1.2.1_2018_12_13.xsd:659-666. *)
Definition x_sicd121_RadarCollectionType_Area_Plane_YDir : XClass := mkXClass "sicd121.RadarCollectionType/Area/Plane/YDir"
  (PSequence [
    PElement (tns_sicd121, "UVectECF") (XComplex "sicd121.XYZType") 1 (Some 1);
    PElement (tns_sicd121, "SampleSpacing") (XSimple SNumber) 1 (Some 1);
    PElement (tns_sicd121, "NumSamples") (XSimple SInt32) 1 (Some 1);
    PElement (tns_sicd121, "FirstSample") (XSimple SInt32) 1 (Some 1)])
  None [].

(** schemas/sicd/SICD_schema_V1.2.1_2018_12_13.xsd:672-681. *)
Definition x_sicd121_RadarCollectionType_Area_Plane_SegmentList_Segment : XClass := mkXClass "sicd121.RadarCollectionType/Area/Plane/SegmentList/Segment"
  (PSequence [
    PElement (tns_sicd121, "StartLine") (XSimple SInt32) 1 (Some 1);
    PElement (tns_sicd121, "StartSample") (XSimple SInt32) 1 (Some 1);
    PElement (tns_sicd121, "EndLine") (XSimple SInt32) 1 (Some 1);
    PElement (tns_sicd121, "EndSample") (XSimple SInt32) 1 (Some 1);
    PElement (tns_sicd121, "Identifier") (XSimple SText) 1 (Some 1)])
  None [
    mkXAttribute ("", "index") SInt32 true].

(** schemas/sicd/SICD_schema_V1.2.1_2018_12_13.xsd:669-685. *)
Definition x_sicd121_RadarCollectionType_Area_Plane_SegmentList : XClass := mkXClass "sicd121.RadarCollectionType/Area/Plane/SegmentList"
  (PSequence [
    PElement (tns_sicd121, "Segment") (XComplex "sicd121.RadarCollectionType/Area/Plane/SegmentList/Segment") 1 None])
  None [
    mkXAttribute ("", "size") SInt32 true].

(** schemas/sicd/SICD_schema_V1.2.1_2018_12_13.xsd:636-689. *)
Definition x_sicd121_RadarCollectionType_Area_Plane : XClass := mkXClass "sicd121.RadarCollectionType/Area/Plane"
  (PSequence [
    PElement (tns_sicd121, "RefPt") (XComplex "sicd121.RadarCollectionType/Area/Plane/RefPt") 1 (Some 1);
    PElement (tns_sicd121, "XDir") (XComplex "sicd121.RadarCollectionType/Area/Plane/XDir") 1 (Some 1);
    PElement (tns_sicd121, "YDir") (XComplex "sicd121.RadarCollectionType/Area/Plane/YDir") 1 (Some 1);
    PElement (tns_sicd121, "SegmentList") (XComplex "sicd121.RadarCollectionType/Area/Plane/SegmentList") 0 (Some 1);
    PElement (tns_sicd121, "Orientation") (XSimple s_sicd121_OrientationType) 0 (Some 1)])
  None [].

(** schemas/sicd/SICD_schema_V1.2.1_2018_12_13.xsd:626-692. *)
Definition x_sicd121_RadarCollectionType_Area : XClass := mkXClass "sicd121.RadarCollectionType/Area"
  (PSequence [
    PElement (tns_sicd121, "Corner") (XComplex "sicd121.RadarCollectionType/Area/Corner") 1 (Some 1);
    PElement (tns_sicd121, "Plane") (XComplex "sicd121.RadarCollectionType/Area/Plane") 0 (Some 1)])
  None [].

(** schemas/sicd/SICD_schema_V1.2.1_2018_12_13.xsd:550-696. *)
Definition x_sicd121_RadarCollectionType : XClass := mkXClass "sicd121.RadarCollectionType"
  (PSequence [
    PElement (tns_sicd121, "TxFrequency") (XComplex "sicd121.RadarCollectionType/TxFrequency") 1 (Some 1);
    PElement (tns_sicd121, "RefFreqIndex") (XSimple SInt32) 0 (Some 1);
    PElement (tns_sicd121, "Waveform") (XComplex "sicd121.RadarCollectionType/Waveform") 0 (Some 1);
    PElement (tns_sicd121, "TxPolarization") (XSimple s_sicd121_Polarization1Type) 1 (Some 1);
    PElement (tns_sicd121, "TxSequence") (XComplex "sicd121.RadarCollectionType/TxSequence") 0 (Some 1);
    PElement (tns_sicd121, "RcvChannels") (XComplex "sicd121.RadarCollectionType/RcvChannels") 1 (Some 1);
    PElement (tns_sicd121, "Area") (XComplex "sicd121.RadarCollectionType/Area") 0 (Some 1);
    PElement (tns_sicd121, "Parameter") (XComplex "sicd121.ParameterType") 0 None])
  None [].

(** schemas/sicd/SICD_schema_V1.2.1_2018_12_13.xsd:701-707. *)
Definition x_sicd121_ImageFormationType_RcvChanProc : XClass := mkXClass "sicd121.ImageFormationType/RcvChanProc"
  (PSequence [
    PElement (tns_sicd121, "NumChanProc") (XSimple SInt32) 1 (Some 1);
    PElement (tns_sicd121, "PRFScaleFactor") (XSimple SNumber) 0 (Some 1);
    PElement (tns_sicd121, "ChanIndex") (XSimple SInt32) 1 None])
  None [].

(** schemas/sicd/SICD_schema_V1.2.1_2018_12_13.xsd:713-718. *)
Definition x_sicd121_ImageFormationType_TxFrequencyProc : XClass := mkXClass "sicd121.ImageFormationType/TxFrequencyProc"
  (PSequence [
    PElement (tns_sicd121, "MinProc") (XSimple SNumber) 1 (Some 1);
    PElement (tns_sicd121, "MaxProc") (XSimple SNumber) 1 (Some 1)])
  None [].

(** schemas/sicd/SICD_schema_V1.2.1_2018_12_13.xsd:767-773. *)
Definition x_sicd121_ImageFormationType_Processing : XClass := mkXClass "sicd121.ImageFormationType/Processing"
  (PSequence [
    PElement (tns_sicd121, "Type") (XSimple SText) 1 (Some 1);
    PElement (tns_sicd121, "Applied") (XSimple (SBoolean None)) 1 (Some 1);
    PElement (tns_sicd121, "Parameter") (XComplex "sicd121.ParameterType") 0 None])
  None [].

(** schemas/sicd/SICD_schema_V1.2.1_2018_12_13.xsd:780-796. *)
Definition x_sicd121_ImageFormationType_PolarizationCalibration_Distortion : XClass := mkXClass "sicd121.ImageFormationType/PolarizationCalibration/Distortion"
  (PSequence [
    PElement (tns_sicd121, "CalibrationDate") (XSimple SDateTime) 0 (Some 1);
    PElement (tns_sicd121, "A") (XSimple SNumber) 1 (Some 1);
    PElement (tns_sicd121, "F1") (XComplex "sicd121.ComplexType") 1 (Some 1);
    PElement (tns_sicd121, "Q1") (XComplex "sicd121.ComplexType") 1 (Some 1);
    PElement (tns_sicd121, "Q2") (XComplex "sicd121.ComplexType") 1 (Some 1);
    PElement (tns_sicd121, "F2") (XComplex "sicd121.ComplexType") 1 (Some 1);
    PElement (tns_sicd121, "Q3") (XComplex "sicd121.ComplexType") 1 (Some 1);
    PElement (tns_sicd121, "Q4") (XComplex "sicd121.ComplexType") 1 (Some 1);
    PElement (tns_sicd121, "GainErrorA") (XSimple SNumber) 0 (Some 1);
    PElement (tns_sicd121, "GainErrorF1") (XSimple SNumber) 0 (Some 1);
    PElement (tns_sicd121, "GainErrorF2") (XSimple SNumber) 0 (Some 1);
    PElement (tns_sicd121, "PhaseErrorF1") (XSimple SNumber) 0 (Some 1);
    PElement (tns_sicd121, "PhaseErrorF2") (XSimple SNumber) 0 (Some 1)])
  None [].

(** schemas/sicd/SICD_schema_V1.2.1_2018_12_13.xsd:776-799. *)
Definition x_sicd121_ImageFormationType_PolarizationCalibration : XClass := mkXClass "sicd121.ImageFormationType/PolarizationCalibration"
  (PSequence [
    PElement (tns_sicd121, "DistortCorrectionApplied") (XSimple (SBoolean None)) 1 (Some 1);
    PElement (tns_sicd121, "Distortion") (XComplex "sicd121.ImageFormationType/PolarizationCalibration/Distortion") 1 (Some 1)])
  None [].

(** schemas/sicd/SICD_schema_V1.2.1_2018_12_13.xsd:698-802. *)
Definition x_sicd121_ImageFormationType : XClass := mkXClass "sicd121.ImageFormationType"
  (PSequence [
    PElement (tns_sicd121, "RcvChanProc") (XComplex "sicd121.ImageFormationType/RcvChanProc") 1 (Some 1);
    PElement (tns_sicd121, "TxRcvPolarizationProc") (XSimple s_sicd121_DualPolarizationType) 1 (Some 1);
    PElement (tns_sicd121, "TStartProc") (XSimple SNumber) 1 (Some 1);
    PElement (tns_sicd121, "TEndProc") (XSimple SNumber) 1 (Some 1);
    PElement (tns_sicd121, "TxFrequencyProc") (XComplex "sicd121.ImageFormationType/TxFrequencyProc") 1 (Some 1);
    PElement (tns_sicd121, "SegmentIdentifier") (XSimple SText) 0 (Some 1);
    PElement (tns_sicd121, "ImageFormAlgo") (XSimple (SEnum false ["PFA"; "RMA"; "RGAZCOMP"; "OTHER"])) 1 (Some 1);
    PElement (tns_sicd121, "STBeamComp") (XSimple (SEnum false ["NO"; "GLOBAL"; "SV"])) 1 (Some 1);
    PElement (tns_sicd121, "ImageBeamComp") (XSimple (SEnum false ["NO"; "SV"])) 1 (Some 1);
    PElement (tns_sicd121, "AzAutofocus") (XSimple (SEnum false ["NO"; "GLOBAL"; "SV"])) 1 (Some 1);
    PElement (tns_sicd121, "RgAutofocus") (XSimple (SEnum false ["NO"; "GLOBAL"; "SV"])) 1 (Some 1);
    PElement (tns_sicd121, "Processing") (XComplex "sicd121.ImageFormationType/Processing") 0 None;
    PElement (tns_sicd121, "PolarizationCalibration") (XComplex "sicd121.ImageFormationType/PolarizationCalibration") 0 (Some 1)])
  None [].

(** schemas/sicd/SICD_schema_V1.2.1_2018_12_13.xsd:804-828. *)
Definition x_sicd121_SCPCOAType : XClass := mkXClass "sicd121.SCPCOAType"
  (PSequence [
    PElement (tns_sicd121, "SCPTime") (XSimple SNumber) 1 (Some 1);
    PElement (tns_sicd121, "ARPPos") (XComplex "sicd121.XYZType") 1 (Some 1);
    PElement (tns_sicd121, "ARPVel") (XComplex "sicd121.XYZType") 1 (Some 1);
    PElement (tns_sicd121, "ARPAcc") (XComplex "sicd121.XYZType") 1 (Some 1);
    PElement (tns_sicd121, "SideOfTrack") (XSimple (SEnum false ["L"; "R"])) 1 (Some 1);
    PElement (tns_sicd121, "SlantRange") (XSimple SNumber) 1 (Some 1);
    PElement (tns_sicd121, "GroundRange") (XSimple SNumber) 1 (Some 1);
    PElement (tns_sicd121, "DopplerConeAng") (XSimple SNumber) 1 (Some 1);
    PElement (tns_sicd121, "GrazeAng") (XSimple s_sicd121_ZeroTo90Type) 1 (Some 1);
    PElement (tns_sicd121, "IncidenceAng") (XSimple s_sicd121_ZeroTo90Type) 1 (Some 1);
    PElement (tns_sicd121, "TwistAng") (XSimple s_sicd121_Neg90To90Type) 1 (Some 1);
    PElement (tns_sicd121, "SlopeAng") (XSimple s_sicd121_ZeroTo90Type) 1 (Some 1);
    PElement (tns_sicd121, "AzimAng") (XSimple s_sicd121_ZeroTo360Type) 1 (Some 1);
    PElement (tns_sicd121, "LayoverAng") (XSimple s_sicd121_ZeroTo360Type) 1 (Some 1)])
  None [].

(** schemas/sicd/SICD_schema_V1.2.1_2018_12_13.xsd:833-845. *)
Definition x_sicd121_RadiometricType_NoiseLevel : XClass := mkXClass "sicd121.RadiometricType/NoiseLevel"
  (PSequence [
    PElement (tns_sicd121, "NoiseLevelType") (XSimple (SEnum false ["ABSOLUTE"; "RELATIVE"])) 1 (Some 1);
    PElement (tns_sicd121, "NoisePoly") (XComplex "sicd121.Poly2DType") 1 (Some 1)])
  None [].

(** schemas/sicd/SICD_schema_V1.2.1_2018_12_13.xsd:830-852. *)
Definition x_sicd121_RadiometricType : XClass := mkXClass "sicd121.RadiometricType"
  (PSequence [
    PElement (tns_sicd121, "NoiseLevel") (XComplex "sicd121.RadiometricType/NoiseLevel") 0 (Some 1);
    PElement (tns_sicd121, "RCSSFPoly") (XComplex "sicd121.Poly2DType") 0 (Some 1);
    PElement (tns_sicd121, "SigmaZeroSFPoly") (XComplex "sicd121.Poly2DType") 0 (Some 1);
    PElement (tns_sicd121, "BetaZeroSFPoly") (XComplex "sicd121.Poly2DType") 0 (Some 1);
    PElement (tns_sicd121, "GammaZeroSFPoly") (XComplex "sicd121.Poly2DType") 0 (Some 1)])
  None [].

(** schemas/sicd/SICD_schema_V1.2.1_2018_12_13.xsd:860-865. *)
Definition x_sicd121_AntParamType_EB : XClass := mkXClass "sicd121.AntParamType/EB"
  (PSequence [
    PElement (tns_sicd121, "DCXPoly") (XComplex "sicd121.Poly1DType") 1 (Some 1);
    PElement (tns_sicd121, "DCYPoly") (XComplex "sicd121.Poly1DType") 1 (Some 1)])
  None [].

(** schemas/sicd/SICD_schema_V1.2.1_2018_12_13.xsd:854-873. *)
Definition x_sicd121_AntParamType : XClass := mkXClass "sicd121.AntParamType"
  (PSequence [
    PElement (tns_sicd121, "XAxisPoly") (XComplex "sicd121.XYZPolyType") 1 (Some 1);
    PElement (tns_sicd121, "YAxisPoly") (XComplex "sicd121.XYZPolyType") 1 (Some 1);
    PElement (tns_sicd121, "FreqZero") (XSimple SNumber) 1 (Some 1);
    PElement (tns_sicd121, "EB") (XComplex "sicd121.AntParamType/EB") 0 (Some 1);
    PElement (tns_sicd121, "Array") (XComplex "sicd121.GainPhasePolyType") 1 (Some 1);
    PElement (tns_sicd121, "Elem") (XComplex "sicd121.GainPhasePolyType") 0 (Some 1);
    PElement (tns_sicd121, "GainBSPoly") (XComplex "sicd121.Poly1DType") 0 (Some 1);
    PElement (tns_sicd121, "EBFreqShift") (XSimple (SBoolean None)) 0 (Some 1);
    PElement (tns_sicd121, "MLFreqDilation") (XSimple (SBoolean None)) 0 (Some 1)])
  None [].

(** schemas/sicd/SICD_schema_V1.2.1_2018_12_13.xsd:875-881. *)
Definition x_sicd121_AntennaType : XClass := mkXClass "sicd121.AntennaType"
  (PSequence [
    PElement (tns_sicd121, "Tx") (XComplex "sicd121.AntParamType") 0 (Some 1);
    PElement (tns_sicd121, "Rcv") (XComplex "sicd121.AntParamType") 0 (Some 1);
    PElement (tns_sicd121, "TwoWay") (XComplex "sicd121.AntParamType") 0 (Some 1)])
  None [].

(** schemas/sicd/SICD_schema_V1.2.1_2018_12_13.xsd:886-892. *)
Definition x_sicd121_ErrorStatisticsType_CompositeSCP : XClass := mkXClass "sicd121.ErrorStatisticsType/CompositeSCP"
  (PSequence [
    PElement (tns_sicd121, "Rg") (XSimple SNumber) 1 (Some 1);
    PElement (tns_sicd121, "Az") (XSimple SNumber) 1 (Some 1);
    PElement (tns_sicd121, "RgAz") (XSimple SNumber) 1 (Some 1)])
  None [].

(** schemas/sicd/SICD_schema_V1.2.1_2018_12_13.xsd:916-934. *)
Definition x_sicd121_ErrorStatisticsType_Components_PosVelErr_CorrCoefs : XClass := mkXClass "sicd121.ErrorStatisticsType/Components/PosVelErr/CorrCoefs"
  (PSequence [
    PElement (tns_sicd121, "P1P2") (XSimple SNumber) 1 (Some 1);
    PElement (tns_sicd121, "P1P3") (XSimple SNumber) 1 (Some 1);
    PElement (tns_sicd121, "P1V1") (XSimple SNumber) 1 (Some 1);
    PElement (tns_sicd121, "P1V2") (XSimple SNumber) 1 (Some 1);
    PElement (tns_sicd121, "P1V3") (XSimple SNumber) 1 (Some 1);
    PElement (tns_sicd121, "P2P3") (XSimple SNumber) 1 (Some 1);
    PElement (tns_sicd121, "P2V1") (XSimple SNumber) 1 (Some 1);
    PElement (tns_sicd121, "P2V2") (XSimple SNumber) 1 (Some 1);
    PElement (tns_sicd121, "P2V3") (XSimple SNumber) 1 (Some 1);
    PElement (tns_sicd121, "P3V1") (XSimple SNumber) 1 (Some 1);
    PElement (tns_sicd121, "P3V2") (XSimple SNumber) 1 (Some 1);
    PElement (tns_sicd121, "P3V3") (XSimple SNumber) 1 (Some 1);
    PElement (tns_sicd121, "V1V2") (XSimple SNumber) 1 (Some 1);
    PElement (tns_sicd121, "V1V3") (XSimple SNumber) 1 (Some 1);
    PElement (tns_sicd121, "V2V3") (XSimple SNumber) 1 (Some 1)])
  None [].

(** schemas/sicd/SICD_schema_V1.2.1_2018_12_13.xsd:898-938. *)
Definition x_sicd121_ErrorStatisticsType_Components_PosVelErr : XClass := mkXClass "sicd121.ErrorStatisticsType/Components/PosVelErr"
  (PSequence [
    PElement (tns_sicd121, "Frame") (XSimple (SEnum false ["ECF"; "RIC_ECF"; "RIC_ECI"])) 1 (Some 1);
    PElement (tns_sicd121, "P1") (XSimple SNumber) 1 (Some 1);
    PElement (tns_sicd121, "P2") (XSimple SNumber) 1 (Some 1);
    PElement (tns_sicd121, "P3") (XSimple SNumber) 1 (Some 1);
    PElement (tns_sicd121, "V1") (XSimple SNumber) 1 (Some 1);
    PElement (tns_sicd121, "V2") (XSimple SNumber) 1 (Some 1);
    PElement (tns_sicd121, "V3") (XSimple SNumber) 1 (Some 1);
    PElement (tns_sicd121, "CorrCoefs") (XComplex "sicd121.ErrorStatisticsType/Components/PosVelErr/CorrCoefs") 0 (Some 1);
    PElement (tns_sicd121, "PositionDecorr") (XComplex "sicd121.ErrorDecorrFuncType") 0 (Some 1)])
  None [].

(** schemas/sicd/SICD_schema_V1.2.1_2018_12_13.xsd:941-948. *)
Definition x_sicd121_ErrorStatisticsType_Components_RadarSensor : XClass := mkXClass "sicd121.ErrorStatisticsType/Components/RadarSensor"
  (PSequence [
    PElement (tns_sicd121, "RangeBias") (XSimple SNumber) 1 (Some 1);
    PElement (tns_sicd121, "ClockFreqSF") (XSimple SNumber) 0 (Some 1);
    PElement (tns_sicd121, "TransmitFreqSF") (XSimple SNumber) 0 (Some 1);
    PElement (tns_sicd121, "RangeBiasDecorr") (XComplex "sicd121.ErrorDecorrFuncType") 0 (Some 1)])
  None [].

(** schemas/sicd/SICD_schema_V1.2.1_2018_12_13.xsd:951-957. *)
Definition x_sicd121_ErrorStatisticsType_Components_TropoError : XClass := mkXClass "sicd121.ErrorStatisticsType/Components/TropoError"
  (PSequence [
    PElement (tns_sicd121, "TropoRangeVertical") (XSimple SNumber) 0 (Some 1);
    PElement (tns_sicd121, "TropoRangeSlant") (XSimple SNumber) 0 (Some 1);
    PElement (tns_sicd121, "TropoRangeDecorr") (XComplex "sicd121.ErrorDecorrFuncType") 0 (Some 1)])
  None [].

(** schemas/sicd/SICD_schema_V1.2.1_2018_12_13.xsd:960-967. *)
Definition x_sicd121_ErrorStatisticsType_Components_IonoError : XClass := mkXClass "sicd121.ErrorStatisticsType/Components/IonoError"
  (PSequence [
    PElement (tns_sicd121, "IonoRangeVertical") (XSimple SNumber) 0 (Some 1);
    PElement (tns_sicd121, "IonoRangeRateVertical") (XSimple SNumber) 0 (Some 1);
    PElement (tns_sicd121, "IonoRgRgRateCC") (XSimple SNumber) 1 (Some 1);
    PElement (tns_sicd121, "IonoRangeVertDecorr") (XComplex "sicd121.ErrorDecorrFuncType") 0 (Some 1)])
  None [].

(** schemas/sicd/SICD_schema_V1.2.1_2018_12_13.xsd:895-970. *)
Definition x_sicd121_ErrorStatisticsType_Components : XClass := mkXClass "sicd121.ErrorStatisticsType/Components"
  (PSequence [
    PElement (tns_sicd121, "PosVelErr") (XComplex "sicd121.ErrorStatisticsType/Components/PosVelErr") 1 (Some 1);
    PElement (tns_sicd121, "RadarSensor") (XComplex "sicd121.ErrorStatisticsType/Components/RadarSensor") 1 (Some 1);
    PElement (tns_sicd121, "TropoError") (XComplex "sicd121.ErrorStatisticsType/Components/TropoError") 0 (Some 1);
    PElement (tns_sicd121, "IonoError") (XComplex "sicd121.ErrorStatisticsType/Components/IonoError") 0 (Some 1)])
  None [].

(** schemas/sicd/SICD_schema_V1.2.1_2018_12_13.xsd:973-977. *)
Definition x_sicd121_ErrorStatisticsType_AdditionalParms : XClass := mkXClass "sicd121.ErrorStatisticsType/AdditionalParms"
  (PSequence [
    PElement (tns_sicd121, "Parameter") (XComplex "sicd121.ParameterType") 1 None])
  None [].

(** schemas/sicd/SICD_schema_V1.2.1_2018_12_13.xsd:883-980. *)
Definition x_sicd121_ErrorStatisticsType : XClass := mkXClass "sicd121.ErrorStatisticsType"
  (PSequence [
    PElement (tns_sicd121, "CompositeSCP") (XComplex "sicd121.ErrorStatisticsType/CompositeSCP") 0 (Some 1);
    PElement (tns_sicd121, "Components") (XComplex "sicd121.ErrorStatisticsType/Components") 0 (Some 1);
    PElement (tns_sicd121, "AdditionalParms") (XComplex "sicd121.ErrorStatisticsType/AdditionalParms") 0 (Some 1)])
  None [].

(** schemas/sicd/SICD_schema_V1.2.1_2018_12_13.xsd:992-999. *)
Definition x_sicd121_MatchInfoType_MatchType_MatchCollection : XClass := mkXClass "sicd121.MatchInfoType/MatchType/MatchCollection"
  (PSequence [
    PElement (tns_sicd121, "CoreName") (XSimple SText) 1 (Some 1);
    PElement (tns_sicd121, "MatchIndex") (XSimple SInt32) 0 (Some 1);
    PElement (tns_sicd121, "Parameter") (XComplex "sicd121.ParameterType") 0 None])
  None [
    mkXAttribute ("", "index") SInt32 true].

(** schemas/sicd/SICD_schema_V1.2.1_2018_12_13.xsd:986-1003. *)
Definition x_sicd121_MatchInfoType_MatchType : XClass := mkXClass "sicd121.MatchInfoType/MatchType"
  (PSequence [
    PElement (tns_sicd121, "TypeID") (XSimple SText) 1 (Some 1);
    PElement (tns_sicd121, "CurrentIndex") (XSimple SInt32) 0 (Some 1);
    PElement (tns_sicd121, "NumMatchCollections") (XSimple SInt32) 1 (Some 1);
    PElement (tns_sicd121, "MatchCollection") (XComplex "sicd121.MatchInfoType/MatchType/MatchCollection") 0 None])
  None [
    mkXAttribute ("", "index") SInt32 true].

(** schemas/sicd/SICD_schema_V1.2.1_2018_12_13.xsd:982-1006. *)
Definition x_sicd121_MatchInfoType : XClass := mkXClass "sicd121.MatchInfoType"
  (PSequence [
    PElement (tns_sicd121, "NumMatchTypes") (XSimple SInt32) 1 (Some 1);
    PElement (tns_sicd121, "MatchType") (XComplex "sicd121.MatchInfoType/MatchType") 1 None])
  None [].

(** schemas/sicd/SICD_schema_V1.2.1_2018_12_13.xsd:1008-1013. *)
Definition x_sicd121_RgAzCompType : XClass := mkXClass "sicd121.RgAzCompType"
  (PSequence [
    PElement (tns_sicd121, "AzSF") (XSimple SNumber) 1 (Some 1);
    PElement (tns_sicd121, "KazPoly") (XComplex "sicd121.Poly1DType") 1 (Some 1)])
  None [].

(** schemas/sicd/SICD_schema_V1.2.1_2018_12_13.xsd:1027-1032. *)
Definition x_sicd121_PFAType_STDeskew : XClass := mkXClass "sicd121.PFAType/STDeskew"
  (PSequence [
    PElement (tns_sicd121, "Applied") (XSimple (SBoolean None)) 1 (Some 1);
    PElement (tns_sicd121, "STDSPhasePoly") (XComplex "sicd121.Poly2DType") 1 (Some 1)])
  None [].

(** schemas/sicd/SICD_schema_V1.2.1_2018_12_13.xsd:1015-1035. *)
Definition x_sicd121_PFAType : XClass := mkXClass "sicd121.PFAType"
  (PSequence [
    PElement (tns_sicd121, "FPN") (XComplex "sicd121.XYZType") 1 (Some 1);
    PElement (tns_sicd121, "IPN") (XComplex "sicd121.XYZType") 1 (Some 1);
    PElement (tns_sicd121, "PolarAngRefTime") (XSimple SNumber) 1 (Some 1);
    PElement (tns_sicd121, "PolarAngPoly") (XComplex "sicd121.Poly1DType") 1 (Some 1);
    PElement (tns_sicd121, "SpatialFreqSFPoly") (XComplex "sicd121.Poly1DType") 1 (Some 1);
    PElement (tns_sicd121, "Krg1") (XSimple SNumber) 1 (Some 1);
    PElement (tns_sicd121, "Krg2") (XSimple SNumber) 1 (Some 1);
    PElement (tns_sicd121, "Kaz1") (XSimple SNumber) 1 (Some 1);
    PElement (tns_sicd121, "Kaz2") (XSimple SNumber) 1 (Some 1);
    PElement (tns_sicd121, "STDeskew") (XComplex "sicd121.PFAType/STDeskew") 0 (Some 1)])
  None [].

(** schemas/sicd/SICD_schema_V1.2.1_2018_12_13.xsd:1059-1065. *)
Definition x_sicd121_RMAType_RMAT : XClass := mkXClass "sicd121.RMAType/RMAT"
  (PSequence [
    PElement (tns_sicd121, "PosRef") (XComplex "sicd121.XYZType") 1 (Some 1);
    PElement (tns_sicd121, "VelRef") (XComplex "sicd121.XYZType") 1 (Some 1);
    PElement (tns_sicd121, "DopConeAngRef") (XSimple SNumber) 1 (Some 1)])
  None [].

(** schemas/sicd/SICD_schema_V1.2.1_2018_12_13.xsd:1068-1074. *)
Definition x_sicd121_RMAType_RMCR : XClass := mkXClass "sicd121.RMAType/RMCR"
  (PSequence [
    PElement (tns_sicd121, "PosRef") (XComplex "sicd121.XYZType") 1 (Some 1);
    PElement (tns_sicd121, "VelRef") (XComplex "sicd121.XYZType") 1 (Some 1);
    PElement (tns_sicd121, "DopConeAngRef") (XSimple SNumber) 1 (Some 1)])
  None [].

(** schemas/sicd/SICD_schema_V1.2.1_2018_12_13.xsd:1077-1086. *)
Definition x_sicd121_RMAType_INCA : XClass := mkXClass "sicd121.RMAType/INCA"
  (PSequence [
    PElement (tns_sicd121, "TimeCAPoly") (XComplex "sicd121.Poly1DType") 1 (Some 1);
    PElement (tns_sicd121, "R_CA_SCP") (XSimple SNumber) 1 (Some 1);
    PElement (tns_sicd121, "FreqZero") (XSimple SNumber) 1 (Some 1);
    PElement (tns_sicd121, "DRateSFPoly") (XComplex "sicd121.Poly2DType") 1 (Some 1);
    PElement (tns_sicd121, "DopCentroidPoly") (XComplex "sicd121.Poly2DType") 0 (Some 1);
    PElement (tns_sicd121, "DopCentroidCOA") (XSimple (SBoolean None)) 0 (Some 1)])
  None [].

(** schemas/sicd/SICD_schema_V1.2.1_2018_12_13.xsd:1037-1090. *)
Definition x_sicd121_RMAType : XClass := mkXClass "sicd121.RMAType"
  (PSequence [
    PElement (tns_sicd121, "RMAlgoType") (XSimple (SEnum false ["OMEGA_K"; "CSA"; "RG_DOP"])) 1 (Some 1);
    PElement (tns_sicd121, "ImageType") (XSimple (SEnum false ["RMAT"; "RMCR"; "INCA"])) 1 (Some 1);
    PChoice [
    PElement (tns_sicd121, "RMAT") (XComplex "sicd121.RMAType/RMAT") 1 (Some 1);
    PElement (tns_sicd121, "RMCR") (XComplex "sicd121.RMAType/RMCR") 1 (Some 1);
    PElement (tns_sicd121, "INCA") (XComplex "sicd121.RMAType/INCA") 1 (Some 1)]])
  None [].

(** schemas/sicd/SICD_schema_V1.2.1_2018_12_13.xsd:1095-1117. *)
Definition x_sicd121_SICD_ : XClass := mkXClass "sicd121.SICD/"
  (PSequence [
    PElement (tns_sicd121, "CollectionInfo") (XComplex "sicd121.CollectionInfoType") 1 (Some 1);
    PElement (tns_sicd121, "ImageCreation") (XComplex "sicd121.ImageCreationType") 0 (Some 1);
    PElement (tns_sicd121, "ImageData") (XComplex "sicd121.ImageDataType") 1 (Some 1);
    PElement (tns_sicd121, "GeoData") (XComplex "sicd121.GeoDataType") 1 (Some 1);
    PElement (tns_sicd121, "Grid") (XComplex "sicd121.GridType") 1 (Some 1);
    PElement (tns_sicd121, "Timeline") (XComplex "sicd121.TimelineType") 1 (Some 1);
    PElement (tns_sicd121, "Position") (XComplex "sicd121.PositionType") 1 (Some 1);
    PElement (tns_sicd121, "RadarCollection") (XComplex "sicd121.RadarCollectionType") 1 (Some 1);
    PElement (tns_sicd121, "ImageFormation") (XComplex "sicd121.ImageFormationType") 1 (Some 1);
    PElement (tns_sicd121, "SCPCOA") (XComplex "sicd121.SCPCOAType") 1 (Some 1);
    PElement (tns_sicd121, "Radiometric") (XComplex "sicd121.RadiometricType") 0 (Some 1);
    PElement (tns_sicd121, "Antenna") (XComplex "sicd121.AntennaType") 0 (Some 1);
    PElement (tns_sicd121, "ErrorStatistics") (XComplex "sicd121.ErrorStatisticsType") 0 (Some 1);
    PElement (tns_sicd121, "MatchInfo") (XComplex "sicd121.MatchInfoType") 0 (Some 1);
    POptional (PChoice [
    PElement (tns_sicd121, "RgAzComp") (XComplex "sicd121.RgAzCompType") 1 (Some 1);
    PElement (tns_sicd121, "PFA") (XComplex "sicd121.PFAType") 1 (Some 1);
    PElement (tns_sicd121, "RMA") (XComplex "sicd121.RMAType") 1 (Some 1)])])
  None [].

(** schemas/sicd/SICD_schema_V1.3.0_2021_11_30_FINAL.xsd:38-44. *)
Definition x_sicd130_XYZType : XClass := mkXClass "sicd130.XYZType"
  (PSequence [
    PElement (tns_sicd130, "X") (XSimple SNumber) 1 (Some 1);
    PElement (tns_sicd130, "Y") (XSimple SNumber) 1 (Some 1);
    PElement (tns_sicd130, "Z") (XSimple SNumber) 1 (Some 1)])
  None [].

(** schemas/sicd/SICD_schema_V1.3.0_2021_11_30_FINAL.xsd:46-52. *)
Definition x_sicd130_LatLonHAEType : XClass := mkXClass "sicd130.LatLonHAEType"
  (PSequence [
    PElement (tns_sicd130, "Lat") (XSimple SNumber) 1 (Some 1);
    PElement (tns_sicd130, "Lon") (XSimple SNumber) 1 (Some 1);
    PElement (tns_sicd130, "HAE") (XSimple SNumber) 1 (Some 1)])
  None [].

(** schemas/sicd/SICD_schema_V1.3.0_2021_11_30_FINAL.xsd:54-59. *)
Definition x_sicd130_LatLonType : XClass := mkXClass "sicd130.LatLonType"
  (PSequence [
    PElement (tns_sicd130, "Lat") (XSimple SNumber) 1 (Some 1);
    PElement (tns_sicd130, "Lon") (XSimple SNumber) 1 (Some 1)])
  None [].

(** schemas/sicd/SICD_schema_V1.3.0_2021_11_30_FINAL.xsd:61-67. *)
Definition x_sicd130_LatLonHAERestrictionType : XClass := mkXClass "sicd130.LatLonHAERestrictionType"
  (PSequence [
    PElement (tns_sicd130, "Lat") (XSimple s_sicd130_Neg90To90Type) 1 (Some 1);
    PElement (tns_sicd130, "Lon") (XSimple s_sicd130_Neg180To180Type) 1 (Some 1);
    PElement (tns_sicd130, "HAE") (XSimple SNumber) 1 (Some 1)])
  None [].

(** schemas/sicd/SICD_schema_V1.3.0_2021_11_30_FINAL.xsd:69-74. *)
Definition x_sicd130_LatLonRestrictionType : XClass := mkXClass "sicd130.LatLonRestrictionType"
  (PSequence [
    PElement (tns_sicd130, "Lat") (XSimple s_sicd130_Neg90To90Type) 1 (Some 1);
    PElement (tns_sicd130, "Lon") (XSimple s_sicd130_Neg180To180Type) 1 (Some 1)])
  None [].

(** schemas/sicd/SICD_schema_V1.3.0_2021_11_30_FINAL.xsd:92-98. *)
Definition x_sicd130_LatLonCornerType : XClass := mkXClass "sicd130.LatLonCornerType"
  (PSequence [
    PElement (tns_sicd130, "Lat") (XSimple SNumber) 1 (Some 1);
    PElement (tns_sicd130, "Lon") (XSimple SNumber) 1 (Some 1)])
  None [
    mkXAttribute ("", "index") s_sicd130_CornerAttrType true].

(** schemas/sicd/SICD_schema_V1.3.0_2021_11_30_FINAL.xsd:100-106. *)
Definition x_sicd130_LatLonCornerStringType : XClass := mkXClass "sicd130.LatLonCornerStringType"
  (PSequence [
    PElement (tns_sicd130, "Lat") (XSimple SNumber) 1 (Some 1);
    PElement (tns_sicd130, "Lon") (XSimple SNumber) 1 (Some 1)])
  None [
    mkXAttribute ("", "index") s_sicd130_CornerStringType true].

(** schemas/sicd/SICD_schema_V1.3.0_2021_11_30_FINAL.xsd:108-114. *)
Definition x_sicd130_LatLonHAECornerRestrictType : XClass := mkXClass "sicd130.LatLonHAECornerRestrictType"
  (PSequence [
    PElement (tns_sicd130, "Lat") (XSimple s_sicd130_Neg90To90Type) 1 (Some 1);
    PElement (tns_sicd130, "Lon") (XSimple s_sicd130_Neg180To180Type) 1 (Some 1);
    PElement (tns_sicd130, "HAE") (XSimple SNumber) 1 (Some 1)])
  None [
    mkXAttribute ("", "index") s_sicd130_CornerAttrType true].

(** schemas/sicd/SICD_schema_V1.3.0_2021_11_30_FINAL.xsd:116-122. *)
Definition x_sicd130_LatLonHAECornerStringType : XClass := mkXClass "sicd130.LatLonHAECornerStringType"
  (PSequence [
    PElement (tns_sicd130, "Lat") (XSimple SNumber) 1 (Some 1);
    PElement (tns_sicd130, "Lon") (XSimple SNumber) 1 (Some 1);
    PElement (tns_sicd130, "HAE") (XSimple SNumber) 1 (Some 1)])
  None [
    mkXAttribute ("", "index") s_sicd130_CornerStringType true].

(** schemas/sicd/SICD_schema_V1.3.0_2021_11_30_FINAL.xsd:124-129. *)
Definition x_sicd130_RowColType : XClass := mkXClass "sicd130.RowColType"
  (PSequence [
    PElement (tns_sicd130, "Row") (XSimple SInt32) 1 (Some 1);
    PElement (tns_sicd130, "Col") (XSimple SInt32) 1 (Some 1)])
  None [].

(** schemas/sicd/SICD_schema_V1.3.0_2021_11_30_FINAL.xsd:131-136. *)
Definition x_sicd130_ComplexType : XClass := mkXClass "sicd130.ComplexType"
  (PSequence [
    PElement (tns_sicd130, "Real") (XSimple SNumber) 1 (Some 1);
    PElement (tns_sicd130, "Imag") (XSimple SNumber) 1 (Some 1)])
  None [].

(** schemas/sicd/SICD_schema_V1.3.0_2021_11_30_FINAL.xsd:138-144. *)
Definition x_sicd130_RowColvertexType : XClass := mkXClass "sicd130.RowColvertexType"
  (PSequence [
    PElement (tns_sicd130, "Row") (XSimple SInt32) 1 (Some 1);
    PElement (tns_sicd130, "Col") (XSimple SInt32) 1 (Some 1)])
  None [
    mkXAttribute ("", "index") SInt32 true].

(** schemas/sicd/SICD_schema_V1.3.0_2021_11_30_FINAL.xsd:146-152. *)
Definition x_sicd130_PolyCoef1DType : XClass := mkXClass "sicd130.PolyCoef1DType"
  (PSequence [])
  (Some SNumber) [
    mkXAttribute ("", "exponent1") SInt32 true].

(** schemas/sicd/SICD_schema_V1.3.0_2021_11_30_FINAL.xsd:154-161. *)
Definition x_sicd130_PolyCoef2DType : XClass := mkXClass "sicd130.PolyCoef2DType"
  (PSequence [])
  (Some SNumber) [
    mkXAttribute ("", "exponent1") SInt32 true;
    mkXAttribute ("", "exponent2") SInt32 true].

(** schemas/sicd/SICD_schema_V1.3.0_2021_11_30_FINAL.xsd:163-168. *)
Definition x_sicd130_Poly1DType : XClass := mkXClass "sicd130.Poly1DType"
  (PSequence [
    PElement (tns_sicd130, "Coef") (XComplex "sicd130.PolyCoef1DType") 1 None])
  None [
    mkXAttribute ("", "order1") SInt32 true].

(** schemas/sicd/SICD_schema_V1.3.0_2021_11_30_FINAL.xsd:170-176. *)
Definition x_sicd130_Poly2DType : XClass := mkXClass "sicd130.Poly2DType"
  (PSequence [
    PElement (tns_sicd130, "Coef") (XComplex "sicd130.PolyCoef2DType") 1 None])
  None [
    mkXAttribute ("", "order1") SInt32 true;
    mkXAttribute ("", "order2") SInt32 true].

(** schemas/sicd/SICD_schema_V1.3.0_2021_11_30_FINAL.xsd:178-184. *)
Definition x_sicd130_XYZPolyType : XClass := mkXClass "sicd130.XYZPolyType"
  (PSequence [
    PElement (tns_sicd130, "X") (XComplex "sicd130.Poly1DType") 1 (Some 1);
    PElement (tns_sicd130, "Y") (XComplex "sicd130.Poly1DType") 1 (Some 1);
    PElement (tns_sicd130, "Z") (XComplex "sicd130.Poly1DType") 1 (Some 1)])
  None [].

(** schemas/sicd/SICD_schema_V1.3.0_2021_11_30_FINAL.xsd:186-192. *)
Definition x_sicd130_XYZPolyAttributeType : XClass := mkXClass "sicd130.XYZPolyAttributeType"
  (PSequence [
    PElement (tns_sicd130, "X") (XComplex "sicd130.Poly1DType") 1 (Some 1);
    PElement (tns_sicd130, "Y") (XComplex "sicd130.Poly1DType") 1 (Some 1);
    PElement (tns_sicd130, "Z") (XComplex "sicd130.Poly1DType") 1 (Some 1)])
  None [
    mkXAttribute ("", "index") SInt32 true].

(** schemas/sicd/SICD_schema_V1.3.0_2021_11_30_FINAL.xsd:194-199. *)
Definition x_sicd130_GainPhasePolyType : XClass := mkXClass "sicd130.GainPhasePolyType"
  (PSequence [
    PElement (tns_sicd130, "GainPoly") (XComplex "sicd130.Poly2DType") 1 (Some 1);
    PElement (tns_sicd130, "PhasePoly") (XComplex "sicd130.Poly2DType") 1 (Some 1)])
  None [].

(** schemas/sicd/SICD_schema_V1.3.0_2021_11_30_FINAL.xsd:204-210. *)
Definition x_sicd130_LineType_Endpoint : XClass := mkXClass "sicd130.LineType/Endpoint"
  (PSequence [
    PElement (tns_sicd130, "Lat") (XSimple SNumber) 1 (Some 1);
    PElement (tns_sicd130, "Lon") (XSimple SNumber) 1 (Some 1)])
  None [
    mkXAttribute ("", "index") SInt32 true].

(** schemas/sicd/SICD_schema_V1.3.0_2021_11_30_FINAL.xsd:201-214. *)
Definition x_sicd130_LineType : XClass := mkXClass "sicd130.LineType"
  (PSequence [
    PElement (tns_sicd130, "Endpoint") (XComplex "sicd130.LineType/Endpoint") 2 None])
  None [
    mkXAttribute ("", "size") SInt32 true].

(** schemas/sicd/SICD_schema_V1.3.0_2021_11_30_FINAL.xsd:219-225. *)
Definition x_sicd130_PolygonType_Vertex : XClass := mkXClass "sicd130.PolygonType/Vertex"
  (PSequence [
    PElement (tns_sicd130, "Lat") (XSimple s_sicd130_Neg90To90Type) 1 (Some 1);
    PElement (tns_sicd130, "Lon") (XSimple s_sicd130_Neg180To180Type) 1 (Some 1)])
  None [
    mkXAttribute ("", "index") SInt32 true].

(** schemas/sicd/SICD_schema_V1.3.0_2021_11_30_FINAL.xsd:216-229. *)
Definition x_sicd130_PolygonType : XClass := mkXClass "sicd130.PolygonType"
  (PSequence [
    PElement (tns_sicd130, "Vertex") (XComplex "sicd130.PolygonType/Vertex") 3 None])
  None [
    mkXAttribute ("", "size") SInt32 true].

(** schemas/sicd/SICD_schema_V1.3.0_2021_11_30_FINAL.xsd:231-237. *)
Definition x_sicd130_ArrayDouble : XClass := mkXClass "sicd130.ArrayDouble"
  (PSequence [])
  (Some SNumber) [
    mkXAttribute ("", "index") SInt32 true].

(** schemas/sicd/SICD_schema_V1.3.0_2021_11_30_FINAL.xsd:239-244. *)
Definition x_sicd130_ErrorDecorrFuncType : XClass := mkXClass "sicd130.ErrorDecorrFuncType"
  (PSequence [
    PElement (tns_sicd130, "CorrCoefZero") (XSimple SNumber) 1 (Some 1);
    PElement (tns_sicd130, "DecorrRate") (XSimple SNumber) 1 (Some 1)])
  None [].

(** schemas/sicd/SICD_schema_V1.3.0_2021_11_30_FINAL.xsd:246-252. *)
Definition x_sicd130_ParameterType : XClass := mkXClass "sicd130.ParameterType"
  (PSequence [])
  (Some SText) [
    mkXAttribute ("", "name") SText true].

(** schemas/sicd/SICD_schema_V1.3.0_2021_11_30_FINAL.xsd:301-314. *)
Definition x_sicd130_CollectionInfoType_RadarMode : XClass := mkXClass "sicd130.CollectionInfoType/RadarMode"
  (PSequence [
    PElement (tns_sicd130, "ModeType") (XSimple (SEnum false ["SPOTLIGHT"; "STRIPMAP"; "DYNAMIC STRIPMAP"])) 1 (Some 1);
    PElement (tns_sicd130, "ModeID") (XSimple SText) 0 (Some 1)])
  None [].

(** schemas/sicd/SICD_schema_V1.3.0_2021_11_30_FINAL.xsd:287-320. *)
Definition x_sicd130_CollectionInfoType : XClass := mkXClass "sicd130.CollectionInfoType"
  (PSequence [
    PElement (tns_sicd130, "CollectorName") (XSimple SText) 1 (Some 1);
    PElement (tns_sicd130, "IlluminatorName") (XSimple SText) 0 (Some 1);
    PElement (tns_sicd130, "CoreName") (XSimple SText) 1 (Some 1);
    PElement (tns_sicd130, "CollectType") (XSimple (SEnum false ["MONOSTATIC"; "BISTATIC"])) 0 (Some 1);
    PElement (tns_sicd130, "RadarMode") (XComplex "sicd130.CollectionInfoType/RadarMode") 1 (Some 1);
    PElement (tns_sicd130, "Classification") (XSimple SText) 1 (Some 1);
    PElement (tns_sicd130, "CountryCode") (XSimple SText) 0 None;
    PElement (tns_sicd130, "Parameter") (XComplex "sicd130.ParameterType") 0 None])
  None [].

(** schemas/sicd/SICD_schema_V1.3.0_2021_11_30_FINAL.xsd:322-329. *)
Definition x_sicd130_ImageCreationType : XClass := mkXClass "sicd130.ImageCreationType"
  (PSequence [
    PElement (tns_sicd130, "Application") (XSimple SText) 0 (Some 1);
    PElement (tns_sicd130, "DateTime") (XSimple SDateTime) 0 (Some 1);
    PElement (tns_sicd130, "Site") (XSimple SText) 0 (Some 1);
    PElement (tns_sicd130, "Profile") (XSimple SText) 0 (Some 1)])
  None [].

(** schemas/sicd/SICD_schema_V1.3.0_2021_11_30_FINAL.xsd:343-348. *)
Definition x_sicd130_ImageDataType_AmpTable : XClass := mkXClass "sicd130.ImageDataType/AmpTable"
  (PSequence [
    PElement (tns_sicd130, "Amplitude") (XComplex "sicd130.ArrayDouble") 256 (Some 256)])
  None [
    mkXAttribute ("", "size") SInt32 true].

(** schemas/sicd/SICD_schema_V1.3.0_2021_11_30_FINAL.xsd:355-360. *)
Definition x_sicd130_ImageDataType_FullImage : XClass := mkXClass "sicd130.ImageDataType/FullImage"
  (PSequence [
    PElement (tns_sicd130, "NumRows") (XSimple SInt32) 1 (Some 1);
    PElement (tns_sicd130, "NumCols") (XSimple SInt32) 1 (Some 1)])
  None [].

(** schemas/sicd/SICD_schema_V1.3.0_2021_11_30_FINAL.xsd:364-369. *)
Definition x_sicd130_ImageDataType_ValidData : XClass := mkXClass "sicd130.ImageDataType/ValidData"
  (PSequence [
    PElement (tns_sicd130, "Vertex") (XComplex "sicd130.RowColvertexType") 3 None])
  None [
    mkXAttribute ("", "size") SInt32 true].

(** schemas/sicd/SICD_schema_V1.3.0_2021_11_30_FINAL.xsd:331-372. *)
Definition x_sicd130_ImageDataType : XClass := mkXClass "sicd130.ImageDataType"
  (PSequence [
    PElement (tns_sicd130, "PixelType") (XSimple (SEnum false ["RE32F_IM32F"; "RE16I_IM16I"; "AMP8I_PHS8I"])) 1 (Some 1);
    PElement (tns_sicd130, "AmpTable") (XComplex "sicd130.ImageDataType/AmpTable") 0 (Some 1);
    PElement (tns_sicd130, "NumRows") (XSimple SInt32) 1 (Some 1);
    PElement (tns_sicd130, "NumCols") (XSimple SInt32) 1 (Some 1);
    PElement (tns_sicd130, "FirstRow") (XSimple SInt32) 1 (Some 1);
    PElement (tns_sicd130, "FirstCol") (XSimple SInt32) 1 (Some 1);
    PElement (tns_sicd130, "FullImage") (XComplex "sicd130.ImageDataType/FullImage") 1 (Some 1);
    PElement (tns_sicd130, "SCPPixel") (XComplex "sicd130.RowColType") 1 (Some 1);
    PElement (tns_sicd130, "ValidData") (XComplex "sicd130.ImageDataType/ValidData") 0 (Some 1)])
  None [].

(** schemas/sicd/SICD_schema_V1.3.0_2021_11_30_FINAL.xsd:374-385. *)
Definition x_sicd130_GeoInfoType : XClass := mkXClass "sicd130.GeoInfoType"
  (PSequence [
    PElement (tns_sicd130, "Desc") (XComplex "sicd130.ParameterType") 0 None;
    POptional (PChoice [
    PElement (tns_sicd130, "Point") (XComplex "sicd130.LatLonRestrictionType") 1 (Some 1);
    PElement (tns_sicd130, "Line") (XComplex "sicd130.LineType") 1 (Some 1);
    PElement (tns_sicd130, "Polygon") (XComplex "sicd130.PolygonType") 1 (Some 1)]);
    PElement (tns_sicd130, "GeoInfo") (XComplex "sicd130.GeoInfoType") 0 None])
  None [
    mkXAttribute ("", "name") SText true].

(** schemas/sicd/SICD_schema_V1.3.0_2021_11_30_FINAL.xsd:397-402. *)
Definition x_sicd130_GeoDataType_SCP : XClass := mkXClass "sicd130.GeoDataType/SCP"
  (PSequence [
    PElement (tns_sicd130, "ECF") (XComplex "sicd130.XYZType") 1 (Some 1);
    PElement (tns_sicd130, "LLH") (XComplex "sicd130.LatLonHAERestrictionType") 1 (Some 1)])
  None [].

(** schemas/sicd/SICD_schema_V1.3.0_2021_11_30_FINAL.xsd:405-409. *)
Definition x_sicd130_GeoDataType_ImageCorners : XClass := mkXClass "sicd130.GeoDataType/ImageCorners"
  (PSequence [
    PElement (tns_sicd130, "ICP") (XComplex "sicd130.LatLonCornerStringType") 4 (Some 4)])
  None [].

(** schemas/sicd/SICD_schema_V1.3.0_2021_11_30_FINAL.xsd:387-414. *)
Definition x_sicd130_GeoDataType : XClass := mkXClass "sicd130.GeoDataType"
  (PSequence [
    PElement (tns_sicd130, "EarthModel") (XSimple (SEnum false ["WGS_84"])) 1 (Some 1);
    PElement (tns_sicd130, "SCP") (XComplex "sicd130.GeoDataType/SCP") 1 (Some 1);
    PElement (tns_sicd130, "ImageCorners") (XComplex "sicd130.GeoDataType/ImageCorners") 1 (Some 1);
    PElement (tns_sicd130, "ValidData") (XComplex "sicd130.PolygonType") 0 (Some 1);
    PElement (tns_sicd130, "GeoInfo") (XComplex "sicd130.GeoInfoType") 0 None])
  None [].

(** schemas/sicd/SICD_schema_V1.3.0_2021_11_30_FINAL.xsd:435-440. *)
Definition x_sicd130_DirParamType_WgtType : XClass := mkXClass "sicd130.DirParamType/WgtType"
  (PSequence [
    PElement (tns_sicd130, "WindowName") (XSimple SText) 1 (Some 1);
    PElement (tns_sicd130, "Parameter") (XComplex "sicd130.ParameterType") 0 None])
  None [].

(** schemas/sicd/SICD_schema_V1.3.0_2021_11_30_FINAL.xsd:443-448. *)
Definition x_sicd130_DirParamType_WgtFunct : XClass := mkXClass "sicd130.DirParamType/WgtFunct"
  (PSequence [
    PElement (tns_sicd130, "Wgt") (XComplex "sicd130.ArrayDouble") 2 None])
  None [
    mkXAttribute ("", "size") SInt32 true].

(** schemas/sicd/SICD_schema_V1.3.0_2021_11_30_FINAL.xsd:416-451. *)
Definition x_sicd130_DirParamType : XClass := mkXClass "sicd130.DirParamType"
  (PSequence [
    PElement (tns_sicd130, "UVectECF") (XComplex "sicd130.XYZType") 1 (Some 1);
    PElement (tns_sicd130, "SS") (XSimple SNumber) 1 (Some 1);
    PElement (tns_sicd130, "ImpRespWid") (XSimple SNumber) 1 (Some 1);
    PElement (tns_sicd130, "Sgn") (XSimple (SEnum true ["1"; "-1"])) 1 (Some 1);
    PElement (tns_sicd130, "ImpRespBW") (XSimple SNumber) 1 (Some 1);
    PElement (tns_sicd130, "KCtr") (XSimple SNumber) 1 (Some 1);
    PElement (tns_sicd130, "DeltaK1") (XSimple SNumber) 1 (Some 1);
    PElement (tns_sicd130, "DeltaK2") (XSimple SNumber) 1 (Some 1);
    PElement (tns_sicd130, "DeltaKCOAPoly") (XComplex "sicd130.Poly2DType") 0 (Some 1);
    PElement (tns_sicd130, "WgtType") (XComplex "sicd130.DirParamType/WgtType") 0 (Some 1);
    PElement (tns_sicd130, "WgtFunct") (XComplex "sicd130.DirParamType/WgtFunct") 0 (Some 1)])
  None [].

(** schemas/sicd/SICD_schema_V1.3.0_2021_11_30_FINAL.xsd:453-479. *)
Definition x_sicd130_GridType : XClass := mkXClass "sicd130.GridType"
  (PSequence [
    PElement (tns_sicd130, "ImagePlane") (XSimple (SEnum false ["SLANT"; "GROUND"; "OTHER"])) 1 (Some 1);
    PElement (tns_sicd130, "Type") (XSimple (SEnum false ["RGAZIM"; "RGZERO"; "XRGYCR"; "XCTYAT"; "PLANE"])) 1 (Some 1);
    PElement (tns_sicd130, "TimeCOAPoly") (XComplex "sicd130.Poly2DType") 1 (Some 1);
    PElement (tns_sicd130, "Row") (XComplex "sicd130.DirParamType") 1 (Some 1);
    PElement (tns_sicd130, "Col") (XComplex "sicd130.DirParamType") 1 (Some 1)])
  None [].

(** schemas/sicd/SICD_schema_V1.3.0_2021_11_30_FINAL.xsd:489-498. *)
Definition x_sicd130_TimelineType_IPP_Set : XClass := mkXClass "sicd130.TimelineType/IPP/Set"
  (PSequence [
    PElement (tns_sicd130, "TStart") (XSimple SNumber) 1 (Some 1);
    PElement (tns_sicd130, "TEnd") (XSimple SNumber) 1 (Some 1);
    PElement (tns_sicd130, "IPPStart") (XSimple SInt32) 1 (Some 1);
    PElement (tns_sicd130, "IPPEnd") (XSimple SInt32) 1 (Some 1);
    PElement (tns_sicd130, "IPPPoly") (XComplex "sicd130.Poly1DType") 1 (Some 1)])
  None [
    mkXAttribute ("", "index") SInt32 true].

(** schemas/sicd/SICD_schema_V1.3.0_2021_11_30_FINAL.xsd:486-502. *)
Definition x_sicd130_TimelineType_IPP : XClass := mkXClass "sicd130.TimelineType/IPP"
  (PSequence [
    PElement (tns_sicd130, "Set") (XComplex "sicd130.TimelineType/IPP/Set") 1 None])
  None [
    mkXAttribute ("", "size") SInt32 true].

(** schemas/sicd/SICD_schema_V1.3.0_2021_11_30_FINAL.xsd:481-505. *)
Definition x_sicd130_TimelineType : XClass := mkXClass "sicd130.TimelineType"
  (PSequence [
    PElement (tns_sicd130, "CollectStart") (XSimple SDateTime) 1 (Some 1);
    PElement (tns_sicd130, "CollectDuration") (XSimple SNumber) 1 (Some 1);
    PElement (tns_sicd130, "IPP") (XComplex "sicd130.TimelineType/IPP") 0 (Some 1)])
  None [].

(** schemas/sicd/SICD_schema_V1.3.0_2021_11_30_FINAL.xsd:513-518. *)
Definition x_sicd130_PositionType_RcvAPC : XClass := mkXClass "sicd130.PositionType/RcvAPC"
  (PSequence [
    PElement (tns_sicd130, "RcvAPCPoly") (XComplex "sicd130.XYZPolyAttributeType") 1 None])
  None [
    mkXAttribute ("", "size") SInt32 true].

(** schemas/sicd/SICD_schema_V1.3.0_2021_11_30_FINAL.xsd:507-521. *)
Definition x_sicd130_PositionType : XClass := mkXClass "sicd130.PositionType"
  (PSequence [
    PElement (tns_sicd130, "ARPPoly") (XComplex "sicd130.XYZPolyType") 1 (Some 1);
    PElement (tns_sicd130, "GRPPoly") (XComplex "sicd130.XYZPolyType") 0 (Some 1);
    PElement (tns_sicd130, "TxAPCPoly") (XComplex "sicd130.XYZPolyType") 0 (Some 1);
    PElement (tns_sicd130, "RcvAPC") (XComplex "sicd130.PositionType/RcvAPC") 0 (Some 1)])
  None [].

(** schemas/sicd/SICD_schema_V1.3.0_2021_11_30_FINAL.xsd:526-531. *)
Definition x_sicd130_RadarCollectionType_TxFrequency : XClass := mkXClass "sicd130.RadarCollectionType/TxFrequency"
  (PSequence [
    PElement (tns_sicd130, "Min") (XSimple SNumber) 1 (Some 1);
    PElement (tns_sicd130, "Max") (XSimple SNumber) 1 (Some 1)])
  None [].

(** schemas/sicd/SICD_schema_V1.3.0_2021_11_30_FINAL.xsd:538-559. *)
Definition x_sicd130_RadarCollectionType_Waveform_WFParameters : XClass := mkXClass "sicd130.RadarCollectionType/Waveform/WFParameters"
  (PSequence [
    PElement (tns_sicd130, "TxPulseLength") (XSimple SNumber) 0 (Some 1);
    PElement (tns_sicd130, "TxRFBandwidth") (XSimple SNumber) 0 (Some 1);
    PElement (tns_sicd130, "TxFreqStart") (XSimple SNumber) 0 (Some 1);
    PElement (tns_sicd130, "TxFMRate") (XSimple SNumber) 0 (Some 1);
    PElement (tns_sicd130, "RcvDemodType") (XSimple (SEnum false ["STRETCH"; "CHIRP"])) 0 (Some 1);
    PElement (tns_sicd130, "RcvWindowLength") (XSimple SNumber) 0 (Some 1);
    PElement (tns_sicd130, "ADCSampleRate") (XSimple SNumber) 0 (Some 1);
    PElement (tns_sicd130, "RcvIFBandwidth") (XSimple SNumber) 0 (Some 1);
    PElement (tns_sicd130, "RcvFreqStart") (XSimple SNumber) 0 (Some 1);
    PElement (tns_sicd130, "RcvFMRate") (XSimple SNumber) 0 (Some 1)])
  None [
    mkXAttribute ("", "index") SInt32 true].

(** schemas/sicd/SICD_schema_V1.3.0_2021_11_30_FINAL.xsd:535-563. *)
Definition x_sicd130_RadarCollectionType_Waveform : XClass := mkXClass "sicd130.RadarCollectionType/Waveform"
  (PSequence [
    PElement (tns_sicd130, "WFParameters") (XComplex "sicd130.RadarCollectionType/Waveform/WFParameters") 1 None])
  None [
    mkXAttribute ("", "size") SInt32 true].

(** schemas/sicd/SICD_schema_V1.3.0_2021_11_30_FINAL.xsd:570-576. *)
Definition x_sicd130_RadarCollectionType_TxSequence_TxStep : XClass := mkXClass "sicd130.RadarCollectionType/TxSequence/TxStep"
  (PSequence [
    PElement (tns_sicd130, "WFIndex") (XSimple SInt32) 0 (Some 1);
    PElement (tns_sicd130, "TxPolarization") (XSimple s_sicd130_Polarization2Type) 0 (Some 1)])
  None [
    mkXAttribute ("", "index") SInt32 true].

(** schemas/sicd/SICD_schema_V1.3.0_2021_11_30_FINAL.xsd:567-580. *)
Definition x_sicd130_RadarCollectionType_TxSequence : XClass := mkXClass "sicd130.RadarCollectionType/TxSequence"
  (PSequence [
    PElement (tns_sicd130, "TxStep") (XComplex "sicd130.RadarCollectionType/TxSequence/TxStep") 1 None])
  None [
    mkXAttribute ("", "size") SInt32 true].

(** schemas/sicd/SICD_schema_V1.3.0_2021_11_30_FINAL.xsd:586-592. *)
Definition x_sicd130_RadarCollectionType_RcvChannels_ChanParameters : XClass := mkXClass "sicd130.RadarCollectionType/RcvChannels/ChanParameters"
  (PSequence [
    PElement (tns_sicd130, "TxRcvPolarization") (XSimple s_sicd130_DualPolarizationType) 1 (Some 1);
    PElement (tns_sicd130, "RcvAPCIndex") (XSimple SInt32) 0 (Some 1)])
  None [
    mkXAttribute ("", "index") SInt32 true].

(** schemas/sicd/SICD_schema_V1.3.0_2021_11_30_FINAL.xsd:583-596. *)
Definition x_sicd130_RadarCollectionType_RcvChannels : XClass := mkXClass "sicd130.RadarCollectionType/RcvChannels"
  (PSequence [
    PElement (tns_sicd130, "ChanParameters") (XComplex "sicd130.RadarCollectionType/RcvChannels/ChanParameters") 1 None])
  None [
    mkXAttribute ("", "size") SInt32 true].

(** schemas/sicd/SICD_schema_V1.3.0_2021_11_30_FINAL.xsd:602-606. *)
Definition x_sicd130_RadarCollectionType_Area_Corner : XClass := mkXClass "sicd130.RadarCollectionType/Area/Corner"
  (PSequence [
    PElement (tns_sicd130, "ACP") (XComplex "sicd130.LatLonHAECornerRestrictType") 4 (Some 4)])
  None [].

(** schemas/sicd/SICD_schema_V1.3.0_2021_11_30_FINAL.xsd:612-619. *)
Definition x_sicd130_RadarCollectionType_Area_Plane_RefPt : XClass := mkXClass "sicd130.RadarCollectionType/Area/Plane/RefPt"
  (PSequence [
    PElement (tns_sicd130, "ECF") (XComplex "sicd130.XYZType") 1 (Some 1);
    PElement (tns_sicd130, "Line") (XSimple SNumber) 1 (Some 1);
    PElement (tns_sicd130, "Sample") (XSimple SNumber) 1 (Some 1)])
  None [
    mkXAttribute ("", "name") SText false].

(** schemas/sicd/SICD_schema_V1.3.0_2021_11_30_FINAL.xsd:622-629. *)
Definition x_sicd130_RadarCollectionType_Area_Plane_XDir : XClass := mkXClass "sicd130.RadarCollectionType/Area/Plane/XDir"
  (PSequence [
    PElement (tns_sicd130, "UVectECF") (XComplex "sicd130.XYZType") 1 (Some 1);
    PElement (tns_sicd130, "LineSpacing") (XSimple SNumber) 1 (Some 1);
    PElement (tns_sicd130, "NumLines") (XSimple SInt32) 1 (Some 1);
    PElement (tns_sicd130, "FirstLine") (XSimple SInt32) 1 (Some 1)])
  None [].

(** schemas/sicd/SICD_schema_V1.3.0_2021_11_30_FINAL.xsd:632-639. *)
Definition x_sicd130_RadarCollectionType_Area_Plane_YDir : XClass := mkXClass "sicd130.RadarCollectionType/Area/Plane/YDir"
  (PSequence [
    PElement (tns_sicd130, "UVectECF") (XComplex "sicd130.XYZType") 1 (Some 1);
    PElement (tns_sicd130, "SampleSpacing") (XSimple SNumber) 1 (Some 1);
    PElement (tns_sicd130, "NumSamples") (XSimple SInt32) 1 (Some 1);
    PElement (tns_sicd130, "FirstSample") (XSimple SInt32) 1 (Some 1)])
  None [].

(** schemas/sicd/SICD_schema_V1.3.0_2021_11_30_FINAL.xsd:645-654. *)
Definition x_sicd130_RadarCollectionType_Area_Plane_SegmentList_Segment : XClass := mkXClass "sicd130.RadarCollectionType/Area/Plane/SegmentList/Segment"
  (PSequence [
    PElement (tns_sicd130, "StartLine") (XSimple SInt32) 1 (Some 1);
    PElement (tns_sicd130, "StartSample") (XSimple SInt32) 1 (Some 1);
    PElement (tns_sicd130, "EndLine") (XSimple SInt32) 1 (Some 1);
    PElement (tns_sicd130, "EndSample") (XSimple SInt32) 1 (Some 1);
    PElement (tns_sicd130, "Identifier") (XSimple SText) 1 (Some 1)])
  None [
    mkXAttribute ("", "index") SInt32 true].

(** schemas/sicd/SICD_schema_V1.3.0_2021_11_30_FINAL.xsd:642-658. *)
Definition x_sicd130_RadarCollectionType_Area_Plane_SegmentList : XClass := mkXClass "sicd130.RadarCollectionType/Area/Plane/SegmentList"
  (PSequence [
    PElement (tns_sicd130, "Segment") (XComplex "sicd130.RadarCollectionType/Area/Plane/SegmentList/Segment") 1 None])
  None [
    mkXAttribute ("", "size") SInt32 true].

(** schemas/sicd/SICD_schema_V1.3.0_2021_11_30_FINAL.xsd:609-662. *)
Definition x_sicd130_RadarCollectionType_Area_Plane : XClass := mkXClass "sicd130.RadarCollectionType/Area/Plane"
  (PSequence [
    PElement (tns_sicd130, "RefPt") (XComplex "sicd130.RadarCollectionType/Area/Plane/RefPt") 1 (Some 1);
    PElement (tns_sicd130, "XDir") (XComplex "sicd130.RadarCollectionType/Area/Plane/XDir") 1 (Some 1);
    PElement (tns_sicd130, "YDir") (XComplex "sicd130.RadarCollectionType/Area/Plane/YDir") 1 (Some 1);
    PElement (tns_sicd130, "SegmentList") (XComplex "sicd130.RadarCollectionType/Area/Plane/SegmentList") 0 (Some 1);
    PElement (tns_sicd130, "Orientation") (XSimple s_sicd130_OrientationType) 0 (Some 1)])
  None [].

(** schemas/sicd/SICD_schema_V1.3.0_2021_11_30_FINAL.xsd:599-665. *)
Definition x_sicd130_RadarCollectionType_Area : XClass := mkXClass "sicd130.RadarCollectionType/Area"
  (PSequence [
    PElement (tns_sicd130, "Corner") (XComplex "sicd130.RadarCollectionType/Area/Corner") 1 (Some 1);
    PElement (tns_sicd130, "Plane") (XComplex "sicd130.RadarCollectionType/Area/Plane") 0 (Some 1)])
  None [].

(** schemas/sicd/SICD_schema_V1.3.0_2021_11_30_FINAL.xsd:523-669. *)
Definition x_sicd130_RadarCollectionType : XClass := mkXClass "sicd130.RadarCollectionType"
  (PSequence [
    PElement (tns_sicd130, "TxFrequency") (XComplex "sicd130.RadarCollectionType/TxFrequency") 1 (Some 1);
    PElement (tns_sicd130, "RefFreqIndex") (XSimple SInt32) 0 (Some 1);
    PElement (tns_sicd130, "Waveform") (XComplex "sicd130.RadarCollectionType/Waveform") 0 (Some 1);
    PElement (tns_sicd130, "TxPolarization") (XSimple s_sicd130_Polarization1Type) 1 (Some 1);
    PElement (tns_sicd130, "TxSequence") (XComplex "sicd130.RadarCollectionType/TxSequence") 0 (Some 1);
    PElement (tns_sicd130, "RcvChannels") (XComplex "sicd130.RadarCollectionType/RcvChannels") 1 (Some 1);
    PElement (tns_sicd130, "Area") (XComplex "sicd130.RadarCollectionType/Area") 0 (Some 1);
    PElement (tns_sicd130, "Parameter") (XComplex "sicd130.ParameterType") 0 None])
  None [].

(** schemas/sicd/SICD_schema_V1.3.0_2021_11_30_FINAL.xsd:674-680. *)
Definition x_sicd130_ImageFormationType_RcvChanProc : XClass := mkXClass "sicd130.ImageFormationType/RcvChanProc"
  (PSequence [
    PElement (tns_sicd130, "NumChanProc") (XSimple SInt32) 1 (Some 1);
    PElement (tns_sicd130, "PRFScaleFactor") (XSimple SNumber) 0 (Some 1);
    PElement (tns_sicd130, "ChanIndex") (XSimple SInt32) 1 None])
  None [].

(** schemas/sicd/SICD_schema_V1.3.0_2021_11_30_FINAL.xsd:686-691. *)
Definition x_sicd130_ImageFormationType_TxFrequencyProc : XClass := mkXClass "sicd130.ImageFormationType/TxFrequencyProc"
  (PSequence [
    PElement (tns_sicd130, "MinProc") (XSimple SNumber) 1 (Some 1);
    PElement (tns_sicd130, "MaxProc") (XSimple SNumber) 1 (Some 1)])
  None [].

(** schemas/sicd/SICD_schema_V1.3.0_2021_11_30_FINAL.xsd:740-746. *)
Definition x_sicd130_ImageFormationType_Processing : XClass := mkXClass "sicd130.ImageFormationType/Processing"
  (PSequence [
    PElement (tns_sicd130, "Type") (XSimple SText) 1 (Some 1);
    PElement (tns_sicd130, "Applied") (XSimple (SBoolean None)) 1 (Some 1);
    PElement (tns_sicd130, "Parameter") (XComplex "sicd130.ParameterType") 0 None])
  None [].

(** schemas/sicd/SICD_schema_V1.3.0_2021_11_30_FINAL.xsd:753-769. *)
Definition x_sicd130_ImageFormationType_PolarizationCalibration_Distortion : XClass := mkXClass "sicd130.ImageFormationType/PolarizationCalibration/Distortion"
  (PSequence [
    PElement (tns_sicd130, "CalibrationDate") (XSimple SDateTime) 0 (Some 1);
    PElement (tns_sicd130, "A") (XSimple SNumber) 1 (Some 1);
    PElement (tns_sicd130, "F1") (XComplex "sicd130.ComplexType") 1 (Some 1);
    PElement (tns_sicd130, "Q1") (XComplex "sicd130.ComplexType") 1 (Some 1);
    PElement (tns_sicd130, "Q2") (XComplex "sicd130.ComplexType") 1 (Some 1);
    PElement (tns_sicd130, "F2") (XComplex "sicd130.ComplexType") 1 (Some 1);
    PElement (tns_sicd130, "Q3") (XComplex "sicd130.ComplexType") 1 (Some 1);
    PElement (tns_sicd130, "Q4") (XComplex "sicd130.ComplexType") 1 (Some 1);
    PElement (tns_sicd130, "GainErrorA") (XSimple SNumber) 0 (Some 1);
    PElement (tns_sicd130, "GainErrorF1") (XSimple SNumber) 0 (Some 1);
    PElement (tns_sicd130, "GainErrorF2") (XSimple SNumber) 0 (Some 1);
    PElement (tns_sicd130, "PhaseErrorF1") (XSimple SNumber) 0 (Some 1);
    PElement (tns_sicd130, "PhaseErrorF2") (XSimple SNumber) 0 (Some 1)])
  None [].

(** schemas/sicd/SICD_schema_V1.3.0_2021_11_30_FINAL.xsd:749-772. *)
Definition x_sicd130_ImageFormationType_PolarizationCalibration : XClass := mkXClass "sicd130.ImageFormationType/PolarizationCalibration"
  (PSequence [
    PElement (tns_sicd130, "DistortCorrectionApplied") (XSimple (SBoolean None)) 1 (Some 1);
    PElement (tns_sicd130, "Distortion") (XComplex "sicd130.ImageFormationType/PolarizationCalibration/Distortion") 1 (Some 1)])
  None [].

(** schemas/sicd/SICD_schema_V1.3.0_2021_11_30_FINAL.xsd:671-775. *)
Definition x_sicd130_ImageFormationType : XClass := mkXClass "sicd130.ImageFormationType"
  (PSequence [
    PElement (tns_sicd130, "RcvChanProc") (XComplex "sicd130.ImageFormationType/RcvChanProc") 1 (Some 1);
    PElement (tns_sicd130, "TxRcvPolarizationProc") (XSimple s_sicd130_DualPolarizationType) 1 (Some 1);
    PElement (tns_sicd130, "TStartProc") (XSimple SNumber) 1 (Some 1);
    PElement (tns_sicd130, "TEndProc") (XSimple SNumber) 1 (Some 1);
    PElement (tns_sicd130, "TxFrequencyProc") (XComplex "sicd130.ImageFormationType/TxFrequencyProc") 1 (Some 1);
    PElement (tns_sicd130, "SegmentIdentifier") (XSimple SText) 0 (Some 1);
    PElement (tns_sicd130, "ImageFormAlgo") (XSimple (SEnum false ["PFA"; "RMA"; "RGAZCOMP"; "OTHER"])) 1 (Some 1);
    PElement (tns_sicd130, "STBeamComp") (XSimple (SEnum false ["NO"; "GLOBAL"; "SV"])) 1 (Some 1);
    PElement (tns_sicd130, "ImageBeamComp") (XSimple (SEnum false ["NO"; "SV"])) 1 (Some 1);
    PElement (tns_sicd130, "AzAutofocus") (XSimple (SEnum false ["NO"; "GLOBAL"; "SV"])) 1 (Some 1);
    PElement (tns_sicd130, "RgAutofocus") (XSimple (SEnum false ["NO"; "GLOBAL"; "SV"])) 1 (Some 1);
    PElement (tns_sicd130, "Processing") (XComplex "sicd130.ImageFormationType/Processing") 0 None;
    PElement (tns_sicd130, "PolarizationCalibration") (XComplex "sicd130.ImageFormationType/PolarizationCalibration") 0 (Some 1)])
  None [].

(** schemas/sicd/SICD_schema_V1.3.0_2021_11_30_FINAL.xsd:777-801. *)
Definition x_sicd130_SCPCOAType : XClass := mkXClass "sicd130.SCPCOAType"
  (PSequence [
    PElement (tns_sicd130, "SCPTime") (XSimple SNumber) 1 (Some 1);
    PElement (tns_sicd130, "ARPPos") (XComplex "sicd130.XYZType") 1 (Some 1);
    PElement (tns_sicd130, "ARPVel") (XComplex "sicd130.XYZType") 1 (Some 1);
    PElement (tns_sicd130, "ARPAcc") (XComplex "sicd130.XYZType") 1 (Some 1);
    PElement (tns_sicd130, "SideOfTrack") (XSimple (SEnum false ["L"; "R"])) 1 (Some 1);
    PElement (tns_sicd130, "SlantRange") (XSimple SNumber) 1 (Some 1);
    PElement (tns_sicd130, "GroundRange") (XSimple SNumber) 1 (Some 1);
    PElement (tns_sicd130, "DopplerConeAng") (XSimple SNumber) 1 (Some 1);
    PElement (tns_sicd130, "GrazeAng") (XSimple s_sicd130_ZeroTo90Type) 1 (Some 1);
    PElement (tns_sicd130, "IncidenceAng") (XSimple s_sicd130_ZeroTo90Type) 1 (Some 1);
    PElement (tns_sicd130, "TwistAng") (XSimple s_sicd130_Neg90To90Type) 1 (Some 1);
    PElement (tns_sicd130, "SlopeAng") (XSimple s_sicd130_ZeroTo90Type) 1 (Some 1);
    PElement (tns_sicd130, "AzimAng") (XSimple s_sicd130_ZeroTo360Type) 1 (Some 1);
    PElement (tns_sicd130, "LayoverAng") (XSimple s_sicd130_ZeroTo360Type) 1 (Some 1)])
  None [].

(** schemas/sicd/SICD_schema_V1.3.0_2021_11_30_FINAL.xsd:806-818. *)
Definition x_sicd130_RadiometricType_NoiseLevel : XClass := mkXClass "sicd130.RadiometricType/NoiseLevel"
  (PSequence [
    PElement (tns_sicd130, "NoiseLevelType") (XSimple (SEnum false ["ABSOLUTE"; "RELATIVE"])) 1 (Some 1);
    PElement (tns_sicd130, "NoisePoly") (XComplex "sicd130.Poly2DType") 1 (Some 1)])
  None [].

(** schemas/sicd/SICD_schema_V1.3.0_2021_11_30_FINAL.xsd:803-825. *)
Definition x_sicd130_RadiometricType : XClass := mkXClass "sicd130.RadiometricType"
  (PSequence [
    PElement (tns_sicd130, "NoiseLevel") (XComplex "sicd130.RadiometricType/NoiseLevel") 0 (Some 1);
    PElement (tns_sicd130, "RCSSFPoly") (XComplex "sicd130.Poly2DType") 0 (Some 1);
    PElement (tns_sicd130, "SigmaZeroSFPoly") (XComplex "sicd130.Poly2DType") 0 (Some 1);
    PElement (tns_sicd130, "BetaZeroSFPoly") (XComplex "sicd130.Poly2DType") 0 (Some 1);
    PElement (tns_sicd130, "GammaZeroSFPoly") (XComplex "sicd130.Poly2DType") 0 (Some 1)])
  None [].

(** schemas/sicd/SICD_schema_V1.3.0_2021_11_30_FINAL.xsd:833-838. *)
Definition x_sicd130_AntParamType_EB : XClass := mkXClass "sicd130.AntParamType/EB"
  (PSequence [
    PElement (tns_sicd130, "DCXPoly") (XComplex "sicd130.Poly1DType") 1 (Some 1);
    PElement (tns_sicd130, "DCYPoly") (XComplex "sicd130.Poly1DType") 1 (Some 1)])
  None [].

(** schemas/sicd/SICD_schema_V1.3.0_2021_11_30_FINAL.xsd:827-846. *)
Definition x_sicd130_AntParamType : XClass := mkXClass "sicd130.AntParamType"
  (PSequence [
    PElement (tns_sicd130, "XAxisPoly") (XComplex "sicd130.XYZPolyType") 1 (Some 1);
    PElement (tns_sicd130, "YAxisPoly") (XComplex "sicd130.XYZPolyType") 1 (Some 1);
    PElement (tns_sicd130, "FreqZero") (XSimple SNumber) 1 (Some 1);
    PElement (tns_sicd130, "EB") (XComplex "sicd130.AntParamType/EB") 0 (Some 1);
    PElement (tns_sicd130, "Array") (XComplex "sicd130.GainPhasePolyType") 1 (Some 1);
    PElement (tns_sicd130, "Elem") (XComplex "sicd130.GainPhasePolyType") 0 (Some 1);
    PElement (tns_sicd130, "GainBSPoly") (XComplex "sicd130.Poly1DType") 0 (Some 1);
    PElement (tns_sicd130, "EBFreqShift") (XSimple (SBoolean None)) 0 (Some 1);
    PElement (tns_sicd130, "MLFreqDilation") (XSimple (SBoolean None)) 0 (Some 1)])
  None [].

(** schemas/sicd/SICD_schema_V1.3.0_2021_11_30_FINAL.xsd:848-854. *)
Definition x_sicd130_AntennaType : XClass := mkXClass "sicd130.AntennaType"
  (PSequence [
    PElement (tns_sicd130, "Tx") (XComplex "sicd130.AntParamType") 0 (Some 1);
    PElement (tns_sicd130, "Rcv") (XComplex "sicd130.AntParamType") 0 (Some 1);
    PElement (tns_sicd130, "TwoWay") (XComplex "sicd130.AntParamType") 0 (Some 1)])
  None [].

(** schemas/sicd/SICD_schema_V1.3.0_2021_11_30_FINAL.xsd:859-865. *)
Definition x_sicd130_ErrorStatisticsType_CompositeSCP : XClass := mkXClass "sicd130.ErrorStatisticsType/CompositeSCP"
  (PSequence [
    PElement (tns_sicd130, "Rg") (XSimple SNumber) 1 (Some 1);
    PElement (tns_sicd130, "Az") (XSimple SNumber) 1 (Some 1);
    PElement (tns_sicd130, "RgAz") (XSimple SNumber) 1 (Some 1)])
  None [].

(** schemas/sicd/SICD_schema_V1.3.0_2021_11_30_FINAL.xsd:889-907. *)
Definition x_sicd130_ErrorStatisticsType_Components_PosVelErr_CorrCoefs : XClass := mkXClass "sicd130.ErrorStatisticsType/Components/PosVelErr/CorrCoefs"
  (PSequence [
    PElement (tns_sicd130, "P1P2") (XSimple SNumber) 1 (Some 1);
    PElement (tns_sicd130, "P1P3") (XSimple SNumber) 1 (Some 1);
    PElement (tns_sicd130, "P1V1") (XSimple SNumber) 1 (Some 1);
    PElement (tns_sicd130, "P1V2") (XSimple SNumber) 1 (Some 1);
    PElement (tns_sicd130, "P1V3") (XSimple SNumber) 1 (Some 1);
    PElement (tns_sicd130, "P2P3") (XSimple SNumber) 1 (Some 1);
    PElement (tns_sicd130, "P2V1") (XSimple SNumber) 1 (Some 1);
    PElement (tns_sicd130, "P2V2") (XSimple SNumber) 1 (Some 1);
    PElement (tns_sicd130, "P2V3") (XSimple SNumber) 1 (Some 1);
    PElement (tns_sicd130, "P3V1") (XSimple SNumber) 1 (Some 1);
    PElement (tns_sicd130, "P3V2") (XSimple SNumber) 1 (Some 1);
    PElement (tns_sicd130, "P3V3") (XSimple SNumber) 1 (Some 1);
    PElement (tns_sicd130, "V1V2") (XSimple SNumber) 1 (Some 1);
    PElement (tns_sicd130, "V1V3") (XSimple SNumber) 1 (Some 1);
    PElement (tns_sicd130, "V2V3") (XSimple SNumber) 1 (Some 1)])
  None [].

(** schemas/sicd/SICD_schema_V1.3.0_2021_11_30_FINAL.xsd:871-911. *)
Definition x_sicd130_ErrorStatisticsType_Components_PosVelErr : XClass := mkXClass "sicd130.ErrorStatisticsType/Components/PosVelErr"
  (PSequence [
    PElement (tns_sicd130, "Frame") (XSimple (SEnum false ["ECF"; "RIC_ECF"; "RIC_ECI"])) 1 (Some 1);
    PElement (tns_sicd130, "P1") (XSimple SNumber) 1 (Some 1);
    PElement (tns_sicd130, "P2") (XSimple SNumber) 1 (Some 1);
    PElement (tns_sicd130, "P3") (XSimple SNumber) 1 (Some 1);
    PElement (tns_sicd130, "V1") (XSimple SNumber) 1 (Some 1);
    PElement (tns_sicd130, "V2") (XSimple SNumber) 1 (Some 1);
    PElement (tns_sicd130, "V3") (XSimple SNumber) 1 (Some 1);
    PElement (tns_sicd130, "CorrCoefs") (XComplex "sicd130.ErrorStatisticsType/Components/PosVelErr/CorrCoefs") 0 (Some 1);
    PElement (tns_sicd130, "PositionDecorr") (XComplex "sicd130.ErrorDecorrFuncType") 0 (Some 1)])
  None [].

(** schemas/sicd/SICD_schema_V1.3.0_2021_11_30_FINAL.xsd:914-921. *)
Definition x_sicd130_ErrorStatisticsType_Components_RadarSensor : XClass := mkXClass "sicd130.ErrorStatisticsType/Components/RadarSensor"
  (PSequence [
    PElement (tns_sicd130, "RangeBias") (XSimple SNumber) 1 (Some 1);
    PElement (tns_sicd130, "ClockFreqSF") (XSimple SNumber) 0 (Some 1);
    PElement (tns_sicd130, "TransmitFreqSF") (XSimple SNumber) 0 (Some 1);
    PElement (tns_sicd130, "RangeBiasDecorr") (XComplex "sicd130.ErrorDecorrFuncType") 0 (Some 1)])
  None [].

(** schemas/sicd/SICD_schema_V1.3.0_2021_11_30_FINAL.xsd:924-930. *)
Definition x_sicd130_ErrorStatisticsType_Components_TropoError : XClass := mkXClass "sicd130.ErrorStatisticsType/Components/TropoError"
  (PSequence [
    PElement (tns_sicd130, "TropoRangeVertical") (XSimple SNumber) 0 (Some 1);
    PElement (tns_sicd130, "TropoRangeSlant") (XSimple SNumber) 0 (Some 1);
    PElement (tns_sicd130, "TropoRangeDecorr") (XComplex "sicd130.ErrorDecorrFuncType") 0 (Some 1)])
  None [].

(** schemas/sicd/SICD_schema_V1.3.0_2021_11_30_FINAL.xsd:933-940. *)
Definition x_sicd130_ErrorStatisticsType_Components_IonoError : XClass := mkXClass "sicd130.ErrorStatisticsType/Components/IonoError"
  (PSequence [
    PElement (tns_sicd130, "IonoRangeVertical") (XSimple SNumber) 0 (Some 1);
    PElement (tns_sicd130, "IonoRangeRateVertical") (XSimple SNumber) 0 (Some 1);
    PElement (tns_sicd130, "IonoRgRgRateCC") (XSimple SNumber) 1 (Some 1);
    PElement (tns_sicd130, "IonoRangeVertDecorr") (XComplex "sicd130.ErrorDecorrFuncType") 0 (Some 1)])
  None [].

(** schemas/sicd/SICD_schema_V1.3.0_2021_11_30_FINAL.xsd:868-943. *)
Definition x_sicd130_ErrorStatisticsType_Components : XClass := mkXClass "sicd130.ErrorStatisticsType/Components"
  (PSequence [
    PElement (tns_sicd130, "PosVelErr") (XComplex "sicd130.ErrorStatisticsType/Components/PosVelErr") 1 (Some 1);
    PElement (tns_sicd130, "RadarSensor") (XComplex "sicd130.ErrorStatisticsType/Components/RadarSensor") 1 (Some 1);
    PElement (tns_sicd130, "TropoError") (XComplex "sicd130.ErrorStatisticsType/Components/TropoError") 0 (Some 1);
    PElement (tns_sicd130, "IonoError") (XComplex "sicd130.ErrorStatisticsType/Components/IonoError") 0 (Some 1)])
  None [].

(** schemas/sicd/SICD_schema_V1.3.0_2021_11_30_FINAL.xsd:952-957. *)
Definition x_sicd130_ErrorStatisticsType_Unmodeled_UnmodeledDecorr : XClass := mkXClass "sicd130.ErrorStatisticsType/Unmodeled/UnmodeledDecorr"
  (PSequence [
    PElement (tns_sicd130, "Xrow") (XComplex "sicd130.ErrorDecorrFuncType") 1 (Some 1);
    PElement (tns_sicd130, "Ycol") (XComplex "sicd130.ErrorDecorrFuncType") 1 (Some 1)])
  None [].

(** schemas/sicd/SICD_schema_V1.3.0_2021_11_30_FINAL.xsd:946-960. *)
Definition x_sicd130_ErrorStatisticsType_Unmodeled : XClass := mkXClass "sicd130.ErrorStatisticsType/Unmodeled"
  (PSequence [
    PElement (tns_sicd130, "Xrow") (XSimple SNumber) 1 (Some 1);
    PElement (tns_sicd130, "Ycol") (XSimple SNumber) 1 (Some 1);
    PElement (tns_sicd130, "XrowYcol") (XSimple SNumber) 1 (Some 1);
    PElement (tns_sicd130, "UnmodeledDecorr") (XComplex "sicd130.ErrorStatisticsType/Unmodeled/UnmodeledDecorr") 0 (Some 1)])
  None [].

(** schemas/sicd/SICD_schema_V1.3.0_2021_11_30_FINAL.xsd:963-967. *)
Definition x_sicd130_ErrorStatisticsType_AdditionalParms : XClass := mkXClass "sicd130.ErrorStatisticsType/AdditionalParms"
  (PSequence [
    PElement (tns_sicd130, "Parameter") (XComplex "sicd130.ParameterType") 1 None])
  None [].

(** schemas/sicd/SICD_schema_V1.3.0_2021_11_30_FINAL.xsd:856-970. *)
Definition x_sicd130_ErrorStatisticsType : XClass := mkXClass "sicd130.ErrorStatisticsType"
  (PSequence [
    PElement (tns_sicd130, "CompositeSCP") (XComplex "sicd130.ErrorStatisticsType/CompositeSCP") 0 (Some 1);
    PElement (tns_sicd130, "Components") (XComplex "sicd130.ErrorStatisticsType/Components") 0 (Some 1);
    PElement (tns_sicd130, "Unmodeled") (XComplex "sicd130.ErrorStatisticsType/Unmodeled") 0 (Some 1);
    PElement (tns_sicd130, "AdditionalParms") (XComplex "sicd130.ErrorStatisticsType/AdditionalParms") 0 (Some 1)])
  None [].

(** schemas/sicd/SICD_schema_V1.3.0_2021_11_30_FINAL.xsd:982-989. *)
Definition x_sicd130_MatchInfoType_MatchType_MatchCollection : XClass := mkXClass "sicd130.MatchInfoType/MatchType/MatchCollection"
  (PSequence [
    PElement (tns_sicd130, "CoreName") (XSimple SText) 1 (Some 1);
    PElement (tns_sicd130, "MatchIndex") (XSimple SInt32) 0 (Some 1);
    PElement (tns_sicd130, "Parameter") (XComplex "sicd130.ParameterType") 0 None])
  None [
    mkXAttribute ("", "index") SInt32 true].

(** schemas/sicd/SICD_schema_V1.3.0_2021_11_30_FINAL.xsd:976-993. *)
Definition x_sicd130_MatchInfoType_MatchType : XClass := mkXClass "sicd130.MatchInfoType/MatchType"
  (PSequence [
    PElement (tns_sicd130, "TypeID") (XSimple SText) 1 (Some 1);
    PElement (tns_sicd130, "CurrentIndex") (XSimple SInt32) 0 (Some 1);
    PElement (tns_sicd130, "NumMatchCollections") (XSimple SInt32) 1 (Some 1);
    PElement (tns_sicd130, "MatchCollection") (XComplex "sicd130.MatchInfoType/MatchType/MatchCollection") 0 None])
  None [
    mkXAttribute ("", "index") SInt32 true].

(** schemas/sicd/SICD_schema_V1.3.0_2021_11_30_FINAL.xsd:972-996. *)
Definition x_sicd130_MatchInfoType : XClass := mkXClass "sicd130.MatchInfoType"
  (PSequence [
    PElement (tns_sicd130, "NumMatchTypes") (XSimple SInt32) 1 (Some 1);
    PElement (tns_sicd130, "MatchType") (XComplex "sicd130.MatchInfoType/MatchType") 1 None])
  None [].

(** schemas/sicd/SICD_schema_V1.3.0_2021_11_30_FINAL.xsd:998-1003. *)
Definition x_sicd130_RgAzCompType : XClass := mkXClass "sicd130.RgAzCompType"
  (PSequence [
    PElement (tns_sicd130, "AzSF") (XSimple SNumber) 1 (Some 1);
    PElement (tns_sicd130, "KazPoly") (XComplex "sicd130.Poly1DType") 1 (Some 1)])
  None [].

(** schemas/sicd/SICD_schema_V1.3.0_2021_11_30_FINAL.xsd:1017-1022. *)
Definition x_sicd130_PFAType_STDeskew : XClass := mkXClass "sicd130.PFAType/STDeskew"
  (PSequence [
    PElement (tns_sicd130, "Applied") (XSimple (SBoolean None)) 1 (Some 1);
    PElement (tns_sicd130, "STDSPhasePoly") (XComplex "sicd130.Poly2DType") 1 (Some 1)])
  None [].

(** schemas/sicd/SICD_schema_V1.3.0_2021_11_30_FINAL.xsd:1005-1025. *)
Definition x_sicd130_PFAType : XClass := mkXClass "sicd130.PFAType"
  (PSequence [
    PElement (tns_sicd130, "FPN") (XComplex "sicd130.XYZType") 1 (Some 1);
    PElement (tns_sicd130, "IPN") (XComplex "sicd130.XYZType") 1 (Some 1);
    PElement (tns_sicd130, "PolarAngRefTime") (XSimple SNumber) 1 (Some 1);
    PElement (tns_sicd130, "PolarAngPoly") (XComplex "sicd130.Poly1DType") 1 (Some 1);
    PElement (tns_sicd130, "SpatialFreqSFPoly") (XComplex "sicd130.Poly1DType") 1 (Some 1);
    PElement (tns_sicd130, "Krg1") (XSimple SNumber) 1 (Some 1);
    PElement (tns_sicd130, "Krg2") (XSimple SNumber) 1 (Some 1);
    PElement (tns_sicd130, "Kaz1") (XSimple SNumber) 1 (Some 1);
    PElement (tns_sicd130, "Kaz2") (XSimple SNumber) 1 (Some 1);
    PElement (tns_sicd130, "STDeskew") (XComplex "sicd130.PFAType/STDeskew") 0 (Some 1)])
  None [].

(** schemas/sicd/SICD_schema_V1.3.0_2021_11_30_FINAL.xsd:1049-1055. *)
Definition x_sicd130_RMAType_RMAT : XClass := mkXClass "sicd130.RMAType/RMAT"
  (PSequence [
    PElement (tns_sicd130, "PosRef") (XComplex "sicd130.XYZType") 1 (Some 1);
    PElement (tns_sicd130, "VelRef") (XComplex "sicd130.XYZType") 1 (Some 1);
    PElement (tns_sicd130, "DopConeAngRef") (XSimple SNumber) 1 (Some 1)])
  None [].

(** schemas/sicd/SICD_schema_V1.3.0_2021_11_30_FINAL.xsd:1058-1064. *)
Definition x_sicd130_RMAType_RMCR : XClass := mkXClass "sicd130.RMAType/RMCR"
  (PSequence [
    PElement (tns_sicd130, "PosRef") (XComplex "sicd130.XYZType") 1 (Some 1);
    PElement (tns_sicd130, "VelRef") (XComplex "sicd130.XYZType") 1 (Some 1);
    PElement (tns_sicd130, "DopConeAngRef") (XSimple SNumber) 1 (Some 1)])
  None [].

(** schemas/sicd/SICD_schema_V1.3.0_2021_11_30_FINAL.xsd:1067-1076. *)
Definition x_sicd130_RMAType_INCA : XClass := mkXClass "sicd130.RMAType/INCA"
  (PSequence [
    PElement (tns_sicd130, "TimeCAPoly") (XComplex "sicd130.Poly1DType") 1 (Some 1);
    PElement (tns_sicd130, "R_CA_SCP") (XSimple SNumber) 1 (Some 1);
    PElement (tns_sicd130, "FreqZero") (XSimple SNumber) 1 (Some 1);
    PElement (tns_sicd130, "DRateSFPoly") (XComplex "sicd130.Poly2DType") 1 (Some 1);
    PElement (tns_sicd130, "DopCentroidPoly") (XComplex "sicd130.Poly2DType") 0 (Some 1);
    PElement (tns_sicd130, "DopCentroidCOA") (XSimple (SBoolean None)) 0 (Some 1)])
  None [].

(** schemas/sicd/SICD_schema_V1.3.0_2021_11_30_FINAL.xsd:1027-1080. *)
Definition x_sicd130_RMAType : XClass := mkXClass "sicd130.RMAType"
  (PSequence [
    PElement (tns_sicd130, "RMAlgoType") (XSimple (SEnum false ["OMEGA_K"; "CSA"; "RG_DOP"])) 1 (Some 1);
    PElement (tns_sicd130, "ImageType") (XSimple (SEnum false ["RMAT"; "RMCR"; "INCA"])) 1 (Some 1);
    PChoice [
    PElement (tns_sicd130, "RMAT") (XComplex "sicd130.RMAType/RMAT") 1 (Some 1);
    PElement (tns_sicd130, "RMCR") (XComplex "sicd130.RMAType/RMCR") 1 (Some 1);
    PElement (tns_sicd130, "INCA") (XComplex "sicd130.RMAType/INCA") 1 (Some 1)]])
  None [].

(** schemas/sicd/SICD_schema_V1.3.0_2021_11_30_FINAL.xsd:1085-1107. *)
Definition x_sicd130_SICD_ : XClass := mkXClass "sicd130.SICD/"
  (PSequence [
    PElement (tns_sicd130, "CollectionInfo") (XComplex "sicd130.CollectionInfoType") 1 (Some 1);
    PElement (tns_sicd130, "ImageCreation") (XComplex "sicd130.ImageCreationType") 0 (Some 1);
    PElement (tns_sicd130, "ImageData") (XComplex "sicd130.ImageDataType") 1 (Some 1);
    PElement (tns_sicd130, "GeoData") (XComplex "sicd130.GeoDataType") 1 (Some 1);
    PElement (tns_sicd130, "Grid") (XComplex "sicd130.GridType") 1 (Some 1);
    PElement (tns_sicd130, "Timeline") (XComplex "sicd130.TimelineType") 1 (Some 1);
    PElement (tns_sicd130, "Position") (XComplex "sicd130.PositionType") 1 (Some 1);
    PElement (tns_sicd130, "RadarCollection") (XComplex "sicd130.RadarCollectionType") 1 (Some 1);
    PElement (tns_sicd130, "ImageFormation") (XComplex "sicd130.ImageFormationType") 1 (Some 1);
    PElement (tns_sicd130, "SCPCOA") (XComplex "sicd130.SCPCOAType") 1 (Some 1);
    PElement (tns_sicd130, "Radiometric") (XComplex "sicd130.RadiometricType") 0 (Some 1);
    PElement (tns_sicd130, "Antenna") (XComplex "sicd130.AntennaType") 0 (Some 1);
    PElement (tns_sicd130, "ErrorStatistics") (XComplex "sicd130.ErrorStatisticsType") 0 (Some 1);
    PElement (tns_sicd130, "MatchInfo") (XComplex "sicd130.MatchInfoType") 0 (Some 1);
    POptional (PChoice [
    PElement (tns_sicd130, "RgAzComp") (XComplex "sicd130.RgAzCompType") 1 (Some 1);
    PElement (tns_sicd130, "PFA") (XComplex "sicd130.PFAType") 1 (Some 1);
    PElement (tns_sicd130, "RMA") (XComplex "sicd130.RMAType") 1 (Some 1)])])
  None [].

Definition sicd_types : list XClass := [
  x_sicd121_XYZType; x_sicd121_LatLonHAEType; x_sicd121_LatLonType; x_sicd121_LatLonHAERestrictionType; x_sicd121_LatLonRestrictionType;
  x_sicd121_LatLonCornerType; x_sicd121_LatLonCornerStringType; x_sicd121_LatLonHAECornerRestrictType; x_sicd121_LatLonHAECornerStringType;
  x_sicd121_RowColType; x_sicd121_ComplexType; x_sicd121_RowColvertexType; x_sicd121_PolyCoef1DType; x_sicd121_PolyCoef2DType; x_sicd121_Poly1DType;
  x_sicd121_Poly2DType; x_sicd121_XYZPolyType; x_sicd121_XYZPolyAttributeType; x_sicd121_GainPhasePolyType; x_sicd121_LineType_Endpoint;
  x_sicd121_LineType; x_sicd121_PolygonType_Vertex; x_sicd121_PolygonType; x_sicd121_ArrayDouble; x_sicd121_ErrorDecorrFuncType;
  x_sicd121_ParameterType; x_sicd121_CollectionInfoType_RadarMode; x_sicd121_CollectionInfoType; x_sicd121_ImageCreationType;
  x_sicd121_ImageDataType_AmpTable; x_sicd121_ImageDataType_FullImage; x_sicd121_ImageDataType_ValidData; x_sicd121_ImageDataType;
  x_sicd121_GeoInfoType; x_sicd121_GeoDataType_SCP; x_sicd121_GeoDataType_ImageCorners; x_sicd121_GeoDataType; x_sicd121_DirParamType_WgtType;
  x_sicd121_DirParamType_WgtFunct; x_sicd121_DirParamType; x_sicd121_GridType; x_sicd121_TimelineType_IPP_Set; x_sicd121_TimelineType_IPP;
  x_sicd121_TimelineType; x_sicd121_PositionType_RcvAPC; x_sicd121_PositionType; x_sicd121_RadarCollectionType_TxFrequency;
  x_sicd121_RadarCollectionType_Waveform_WFParameters; x_sicd121_RadarCollectionType_Waveform; x_sicd121_RadarCollectionType_TxSequence_TxStep;
  x_sicd121_RadarCollectionType_TxSequence; x_sicd121_RadarCollectionType_RcvChannels_ChanParameters; x_sicd121_RadarCollectionType_RcvChannels;
  x_sicd121_RadarCollectionType_Area_Corner; x_sicd121_RadarCollectionType_Area_Plane_RefPt; x_sicd121_RadarCollectionType_Area_Plane_XDir;
  x_sicd121_RadarCollectionType_Area_Plane_YDir; x_sicd121_RadarCollectionType_Area_Plane_SegmentList_Segment;
  x_sicd121_RadarCollectionType_Area_Plane_SegmentList; x_sicd121_RadarCollectionType_Area_Plane; x_sicd121_RadarCollectionType_Area;
  x_sicd121_RadarCollectionType; x_sicd121_ImageFormationType_RcvChanProc; x_sicd121_ImageFormationType_TxFrequencyProc;
  x_sicd121_ImageFormationType_Processing; x_sicd121_ImageFormationType_PolarizationCalibration_Distortion;
  x_sicd121_ImageFormationType_PolarizationCalibration; x_sicd121_ImageFormationType; x_sicd121_SCPCOAType; x_sicd121_RadiometricType_NoiseLevel;
  x_sicd121_RadiometricType; x_sicd121_AntParamType_EB; x_sicd121_AntParamType; x_sicd121_AntennaType; x_sicd121_ErrorStatisticsType_CompositeSCP;
  x_sicd121_ErrorStatisticsType_Components_PosVelErr_CorrCoefs; x_sicd121_ErrorStatisticsType_Components_PosVelErr;
  x_sicd121_ErrorStatisticsType_Components_RadarSensor; x_sicd121_ErrorStatisticsType_Components_TropoError;
  x_sicd121_ErrorStatisticsType_Components_IonoError; x_sicd121_ErrorStatisticsType_Components; x_sicd121_ErrorStatisticsType_AdditionalParms;
  x_sicd121_ErrorStatisticsType; x_sicd121_MatchInfoType_MatchType_MatchCollection; x_sicd121_MatchInfoType_MatchType; x_sicd121_MatchInfoType;
  x_sicd121_RgAzCompType; x_sicd121_PFAType_STDeskew; x_sicd121_PFAType; x_sicd121_RMAType_RMAT; x_sicd121_RMAType_RMCR; x_sicd121_RMAType_INCA;
  x_sicd121_RMAType; x_sicd121_SICD_; x_sicd130_XYZType; x_sicd130_LatLonHAEType; x_sicd130_LatLonType; x_sicd130_LatLonHAERestrictionType;
  x_sicd130_LatLonRestrictionType; x_sicd130_LatLonCornerType; x_sicd130_LatLonCornerStringType; x_sicd130_LatLonHAECornerRestrictType;
  x_sicd130_LatLonHAECornerStringType; x_sicd130_RowColType; x_sicd130_ComplexType; x_sicd130_RowColvertexType; x_sicd130_PolyCoef1DType;
  x_sicd130_PolyCoef2DType; x_sicd130_Poly1DType; x_sicd130_Poly2DType; x_sicd130_XYZPolyType; x_sicd130_XYZPolyAttributeType;
  x_sicd130_GainPhasePolyType; x_sicd130_LineType_Endpoint; x_sicd130_LineType; x_sicd130_PolygonType_Vertex; x_sicd130_PolygonType;
  x_sicd130_ArrayDouble; x_sicd130_ErrorDecorrFuncType; x_sicd130_ParameterType; x_sicd130_CollectionInfoType_RadarMode;
  x_sicd130_CollectionInfoType; x_sicd130_ImageCreationType; x_sicd130_ImageDataType_AmpTable; x_sicd130_ImageDataType_FullImage;
  x_sicd130_ImageDataType_ValidData; x_sicd130_ImageDataType; x_sicd130_GeoInfoType; x_sicd130_GeoDataType_SCP; x_sicd130_GeoDataType_ImageCorners;
  x_sicd130_GeoDataType; x_sicd130_DirParamType_WgtType; x_sicd130_DirParamType_WgtFunct; x_sicd130_DirParamType; x_sicd130_GridType;
  x_sicd130_TimelineType_IPP_Set; x_sicd130_TimelineType_IPP; x_sicd130_TimelineType; x_sicd130_PositionType_RcvAPC; x_sicd130_PositionType;
  x_sicd130_RadarCollectionType_TxFrequency; x_sicd130_RadarCollectionType_Waveform_WFParameters; x_sicd130_RadarCollectionType_Waveform;
  x_sicd130_RadarCollectionType_TxSequence_TxStep; x_sicd130_RadarCollectionType_TxSequence;
  x_sicd130_RadarCollectionType_RcvChannels_ChanParameters; x_sicd130_RadarCollectionType_RcvChannels; x_sicd130_RadarCollectionType_Area_Corner;
  x_sicd130_RadarCollectionType_Area_Plane_RefPt; x_sicd130_RadarCollectionType_Area_Plane_XDir; x_sicd130_RadarCollectionType_Area_Plane_YDir;
  x_sicd130_RadarCollectionType_Area_Plane_SegmentList_Segment; x_sicd130_RadarCollectionType_Area_Plane_SegmentList;
  x_sicd130_RadarCollectionType_Area_Plane; x_sicd130_RadarCollectionType_Area; x_sicd130_RadarCollectionType;
  x_sicd130_ImageFormationType_RcvChanProc; x_sicd130_ImageFormationType_TxFrequencyProc; x_sicd130_ImageFormationType_Processing;
  x_sicd130_ImageFormationType_PolarizationCalibration_Distortion; x_sicd130_ImageFormationType_PolarizationCalibration;
  x_sicd130_ImageFormationType; x_sicd130_SCPCOAType; x_sicd130_RadiometricType_NoiseLevel; x_sicd130_RadiometricType; x_sicd130_AntParamType_EB;
  x_sicd130_AntParamType; x_sicd130_AntennaType; x_sicd130_ErrorStatisticsType_CompositeSCP;
  x_sicd130_ErrorStatisticsType_Components_PosVelErr_CorrCoefs; x_sicd130_ErrorStatisticsType_Components_PosVelErr;
  x_sicd130_ErrorStatisticsType_Components_RadarSensor; x_sicd130_ErrorStatisticsType_Components_TropoError;
  x_sicd130_ErrorStatisticsType_Components_IonoError; x_sicd130_ErrorStatisticsType_Components;
  x_sicd130_ErrorStatisticsType_Unmodeled_UnmodeledDecorr; x_sicd130_ErrorStatisticsType_Unmodeled; x_sicd130_ErrorStatisticsType_AdditionalParms;
  x_sicd130_ErrorStatisticsType; x_sicd130_MatchInfoType_MatchType_MatchCollection; x_sicd130_MatchInfoType_MatchType; x_sicd130_MatchInfoType;
  x_sicd130_RgAzCompType; x_sicd130_PFAType_STDeskew; x_sicd130_PFAType; x_sicd130_RMAType_RMAT; x_sicd130_RMAType_RMCR; x_sicd130_RMAType_INCA;
  x_sicd130_RMAType; x_sicd130_SICD_].
