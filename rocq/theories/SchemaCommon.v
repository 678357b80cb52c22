(** The dataclasses of src/aws/osml/formats/sidd/models/sicommon_types.py, sicommon_types_v1_0.py, sfa.py and
    external/ism_v13/schema/ism/ic_ism.py; a table made by a script from the Python source.
    Inherited fields come first, as in a dataclass; an element field without "namespace" has the namespace of the Meta class. *)
Require Import ZArith String List.
Require Import Verif.SchemaModel Verif.SchemaEnums.
Import ListNotations.
Local Open Scope string_scope.

(** sicommon_types_v1_0.py:17-38. *)
Definition c_common10_AngleMagnitudeType : Class := mkClass "common10.AngleMagnitudeType" (ns_common10, "AngleMagnitudeType") [
    mkField "angle" Element (ns_common10, "Angle") (TPrim PFloat) One true NoDefault;
    mkField "magnitude" Element (ns_common10, "Magnitude") (TPrim PFloat) One true NoDefault].

(** sicommon_types_v1_0.py:41-62. *)
Definition c_common10_AngleZeroToExclusive360MagnitudeType : Class := mkClass "common10.AngleZeroToExclusive360MagnitudeType" (ns_common10, "AngleZeroToExclusive360MagnitudeType") [
    mkField "angle" Element (ns_common10, "Angle") (TPrim PFloat) One true NoDefault;
    mkField "magnitude" Element (ns_common10, "Magnitude") (TPrim PFloat) One true NoDefault].

(** sicommon_types_v1_0.py:65-79. *)
Definition c_common10_ArrayDoubleType : Class := mkClass "common10.ArrayDoubleType" (ns_common10, "ArrayDoubleType") [
    mkField "value" Content ("", "") (TPrim PFloat) One true NoDefault;
    mkField "index" Attribute ("", "index") (TPrim PInt) One true NoDefault].

(** sicommon_types_v1_0.py:87-106. *)
Definition c_common10_ComplexType : Class := mkClass "common10.ComplexType" (ns_common10, "ComplexType") [
    mkField "real" Element (ns_common10, "Real") (TPrim PFloat) One true NoDefault;
    mkField "imag" Element (ns_common10, "Imag") (TPrim PFloat) One true NoDefault].

(** sicommon_types_v1_0.py:122-155. *)
Definition c_common10_ImageCreationType : Class := mkClass "common10.ImageCreationType" (ns_common10, "ImageCreationType") [
    mkField "application" Element (ns_common10, "Application") (TPrim PStr) One false NoDefault;
    mkField "date_time" Element (ns_common10, "DateTime") (TPrim PDateTime) One false NoDefault;
    mkField "site" Element (ns_common10, "Site") (TPrim PStr) One false NoDefault;
    mkField "profile" Element (ns_common10, "Profile") (TPrim PStr) One false NoDefault].

(** sicommon_types_v1_0.py:158-186. *)
Definition c_common10_LLHType : Class := mkClass "common10.LLHType" (ns_common10, "LLHType") [
    mkField "lat" Element (ns_common10, "Lat") (TPrim PFloat) One true NoDefault;
    mkField "lon" Element (ns_common10, "Lon") (TPrim PFloat) One true NoDefault;
    mkField "hae" Element (ns_common10, "HAE") (TPrim PFloat) One true NoDefault].

(** sicommon_types_v1_0.py:189-217. *)
Definition c_common10_LatLonCornerType : Class := mkClass "common10.LatLonCornerType" (ns_common10, "LatLonCornerType") [
    mkField "lat" Element (ns_common10, "Lat") (TPrim PFloat) One true NoDefault;
    mkField "lon" Element (ns_common10, "Lon") (TPrim PFloat) One true NoDefault;
    mkField "index" Attribute ("", "index") (TPrim PInt) One true NoDefault].

(** sicommon_types_v1_0.py:220-257. *)
Definition c_common10_LatLonHAECornerType : Class := mkClass "common10.LatLonHAECornerType" (ns_common10, "LatLonHAECornerType") [
    mkField "lat" Element (ns_common10, "Lat") (TPrim PFloat) One true NoDefault;
    mkField "lon" Element (ns_common10, "Lon") (TPrim PFloat) One true NoDefault;
    mkField "hae" Element (ns_common10, "HAE") (TPrim PFloat) One true NoDefault;
    mkField "index" Attribute ("", "index") (TPrim PInt) One true NoDefault].

(** sicommon_types_v1_0.py:260-283. *)
Definition c_common10_LatLonRestrictionType : Class := mkClass "common10.LatLonRestrictionType" (ns_common10, "LatLonRestrictionType") [
    mkField "lat" Element (ns_common10, "Lat") (TPrim PFloat) One true NoDefault;
    mkField "lon" Element (ns_common10, "Lon") (TPrim PFloat) One true NoDefault].

(** sicommon_types_v1_0.py:286-305. *)
Definition c_common10_LatLonType : Class := mkClass "common10.LatLonType" (ns_common10, "LatLonType") [
    mkField "lat" Element (ns_common10, "Lat") (TPrim PFloat) One true NoDefault;
    mkField "lon" Element (ns_common10, "Lon") (TPrim PFloat) One true NoDefault].

(** sicommon_types_v1_0.py:308-334. *)
Definition c_common10_LatLonVertexType : Class := mkClass "common10.LatLonVertexType" (ns_common10, "LatLonVertexType") [
    mkField "lat" Element (ns_common10, "Lat") (TPrim PFloat) One true NoDefault;
    mkField "lon" Element (ns_common10, "Lon") (TPrim PFloat) One true NoDefault;
    mkField "index" Attribute ("", "index") (TPrim PInt) One true NoDefault].

(** sicommon_types_v1_0.py:337-382. *)
Definition c_common10_LineType : Class := mkClass "common10.LineType" (ns_common10, "LineType") [
    mkField "endpoint" Element (ns_common10, "Endpoint") (TClass "common10.LineType.Endpoint") Many true NoDefault;
    mkField "size" Attribute ("", "size") (TPrim PInt) One true NoDefault].

(** sicommon_types_v1_0.py:356-382. *)
Definition c_common10_LineType_Endpoint : Class := mkClass "common10.LineType.Endpoint" (ns_common10, "Endpoint") [
    mkField "lat" Element (ns_common10, "Lat") (TPrim PFloat) One true NoDefault;
    mkField "lon" Element (ns_common10, "Lon") (TPrim PFloat) One true NoDefault;
    mkField "index" Attribute ("", "index") (TPrim PInt) One true NoDefault].

(** sicommon_types_v1_0.py:397-411. *)
Definition c_common10_ParameterType : Class := mkClass "common10.ParameterType" (ns_common10, "ParameterType") [
    mkField "value" Content ("", "") (TPrim PStr) One true EmptyString;
    mkField "name" Attribute ("", "name") (TPrim PStr) One true NoDefault].

(** sicommon_types_v1_0.py:428-442. *)
Definition c_common10_PolyCoef1DType : Class := mkClass "common10.PolyCoef1DType" (ns_common10, "PolyCoef1DType") [
    mkField "value" Content ("", "") (TPrim PFloat) One true NoDefault;
    mkField "exponent1" Attribute ("", "exponent1") (TPrim PInt) One true NoDefault].

(** sicommon_types_v1_0.py:445-466. *)
Definition c_common10_PolyCoef2DType : Class := mkClass "common10.PolyCoef2DType" (ns_common10, "PolyCoef2DType") [
    mkField "value" Content ("", "") (TPrim PFloat) One true NoDefault;
    mkField "exponent1" Attribute ("", "exponent1") (TPrim PInt) One true NoDefault;
    mkField "exponent2" Attribute ("", "exponent2") (TPrim PInt) One true NoDefault].

(** sicommon_types_v1_0.py:469-514. *)
Definition c_common10_PolygonType : Class := mkClass "common10.PolygonType" (ns_common10, "PolygonType") [
    mkField "vertex" Element (ns_common10, "Vertex") (TClass "common10.PolygonType.Vertex") Many true NoDefault;
    mkField "size" Attribute ("", "size") (TPrim PInt) One true NoDefault].

(** sicommon_types_v1_0.py:488-514. *)
Definition c_common10_PolygonType_Vertex : Class := mkClass "common10.PolygonType.Vertex" (ns_common10, "Vertex") [
    mkField "lat" Element (ns_common10, "Lat") (TPrim PFloat) One true NoDefault;
    mkField "lon" Element (ns_common10, "Lon") (TPrim PFloat) One true NoDefault;
    mkField "index" Attribute ("", "index") (TPrim PInt) One true NoDefault].

(** sicommon_types_v1_0.py:522-548. *)
Definition c_common10_RangeAzimuthType : Class := mkClass "common10.RangeAzimuthType" (ns_common10, "RangeAzimuthType") [
    mkField "range" Element (ns_common10, "Range") (TPrim PFloat) One true NoDefault;
    mkField "azimuth" Element (ns_common10, "Azimuth") (TPrim PFloat) One true NoDefault].

(** sicommon_types_v1_0.py:551-570. *)
Definition c_common10_RowColDoubleType : Class := mkClass "common10.RowColDoubleType" (ns_common10, "RowColDoubleType") [
    mkField "row" Element (ns_common10, "Row") (TPrim PFloat) One true NoDefault;
    mkField "col" Element (ns_common10, "Col") (TPrim PFloat) One true NoDefault].

(** sicommon_types_v1_0.py:573-592. *)
Definition c_common10_RowColIntType : Class := mkClass "common10.RowColIntType" (ns_common10, "RowColIntType") [
    mkField "row" Element (ns_common10, "Row") (TPrim PInt) One true NoDefault;
    mkField "col" Element (ns_common10, "Col") (TPrim PInt) One true NoDefault].

(** sicommon_types_v1_0.py:595-621. *)
Definition c_common10_RowColVertexType : Class := mkClass "common10.RowColVertexType" (ns_common10, "RowColVertexType") [
    mkField "row" Element (ns_common10, "Row") (TPrim PInt) One true NoDefault;
    mkField "col" Element (ns_common10, "Col") (TPrim PInt) One true NoDefault;
    mkField "index" Attribute ("", "index") (TPrim PInt) One true NoDefault].

(** sicommon_types_v1_0.py:624-652. *)
Definition c_common10_XYZType : Class := mkClass "common10.XYZType" (ns_common10, "XYZType") [
    mkField "x" Element (ns_common10, "X") (TPrim PFloat) One true NoDefault;
    mkField "y" Element (ns_common10, "Y") (TPrim PFloat) One true NoDefault;
    mkField "z" Element (ns_common10, "Z") (TPrim PFloat) One true NoDefault].

(** sicommon_types_v1_0.py:655-1271. *)
Definition c_common10_ErrorStatisticsType : Class := mkClass "common10.ErrorStatisticsType" (ns_common10, "ErrorStatisticsType") [
    mkField "composite_scp" Element (ns_common10, "CompositeSCP") (TClass "common10.ErrorStatisticsType.CompositeSCP") One false NoDefault;
    mkField "components" Element (ns_common10, "Components") (TClass "common10.ErrorStatisticsType.Components") One false NoDefault;
    mkField "unmodeled" Element (ns_common10, "Unmodeled") (TClass "common10.ErrorStatisticsType.Unmodeled") One false NoDefault;
    mkField "additional_parms" Element (ns_common10, "AdditionalParms") (TClass "common10.ErrorStatisticsType.AdditionalParms") One false NoDefault].

(** sicommon_types_v1_0.py:690-718. *)
Definition c_common10_ErrorStatisticsType_CompositeSCP : Class := mkClass "common10.ErrorStatisticsType.CompositeSCP" (ns_common10, "CompositeSCP") [
    mkField "rg" Element (ns_common10, "Rg") (TPrim PFloat) One true NoDefault;
    mkField "az" Element (ns_common10, "Az") (TPrim PFloat) One true NoDefault;
    mkField "rg_az" Element (ns_common10, "RgAz") (TPrim PFloat) One true NoDefault].

(** sicommon_types_v1_0.py:720-1158. *)
Definition c_common10_ErrorStatisticsType_Components : Class := mkClass "common10.ErrorStatisticsType.Components" (ns_common10, "Components") [
    mkField "pos_vel_err" Element (ns_common10, "PosVelErr") (TClass "common10.ErrorStatisticsType.Components.PosVelErr") One true NoDefault;
    mkField "radar_sensor" Element (ns_common10, "RadarSensor") (TClass "common10.ErrorStatisticsType.Components.RadarSensor") One true NoDefault;
    mkField "tropo_error" Element (ns_common10, "TropoError") (TClass "common10.ErrorStatisticsType.Components.TropoError") One false NoDefault;
    mkField "iono_error" Element (ns_common10, "IonoError") (TClass "common10.ErrorStatisticsType.Components.IonoError") One false NoDefault].

(** sicommon_types_v1_0.py:757-996. *)
Definition c_common10_ErrorStatisticsType_Components_PosVelErr : Class := mkClass "common10.ErrorStatisticsType.Components.PosVelErr" (ns_common10, "PosVelErr") [
    mkField "frame" Element (ns_common10, "Frame") (TEnum "common10.ErrorFrameType") One true NoDefault;
    mkField "p1" Element (ns_common10, "P1") (TPrim PFloat) One true NoDefault;
    mkField "p2" Element (ns_common10, "P2") (TPrim PFloat) One true NoDefault;
    mkField "p3" Element (ns_common10, "P3") (TPrim PFloat) One true NoDefault;
    mkField "v1" Element (ns_common10, "V1") (TPrim PFloat) One true NoDefault;
    mkField "v2" Element (ns_common10, "V2") (TPrim PFloat) One true NoDefault;
    mkField "v3" Element (ns_common10, "V3") (TPrim PFloat) One true NoDefault;
    mkField "corr_coefs" Element (ns_common10, "CorrCoefs") (TClass "common10.ErrorStatisticsType.Components.PosVelErr.CorrCoefs") One false NoDefault;
    mkField "position_decorr" Element (ns_common10, "PositionDecorr") (TClass "common10.ErrorStatisticsType.Components.PosVelErr.PositionDecorr") One false NoDefault].

(** sicommon_types_v1_0.py:839-975. *)
Definition c_common10_ErrorStatisticsType_Components_PosVelErr_CorrCoefs : Class := mkClass "common10.ErrorStatisticsType.Components.PosVelErr.CorrCoefs" (ns_common10, "CorrCoefs") [
    mkField "p1_p2" Element (ns_common10, "P1P2") (TPrim PFloat) One true NoDefault;
    mkField "p1_p3" Element (ns_common10, "P1P3") (TPrim PFloat) One true NoDefault;
    mkField "p1_v1" Element (ns_common10, "P1V1") (TPrim PFloat) One true NoDefault;
    mkField "p1_v2" Element (ns_common10, "P1V2") (TPrim PFloat) One true NoDefault;
    mkField "p1_v3" Element (ns_common10, "P1V3") (TPrim PFloat) One true NoDefault;
    mkField "p2_p3" Element (ns_common10, "P2P3") (TPrim PFloat) One true NoDefault;
    mkField "p2_v1" Element (ns_common10, "P2V1") (TPrim PFloat) One true NoDefault;
    mkField "p2_v2" Element (ns_common10, "P2V2") (TPrim PFloat) One true NoDefault;
    mkField "p2_v3" Element (ns_common10, "P2V3") (TPrim PFloat) One true NoDefault;
    mkField "p3_v1" Element (ns_common10, "P3V1") (TPrim PFloat) One true NoDefault;
    mkField "p3_v2" Element (ns_common10, "P3V2") (TPrim PFloat) One true NoDefault;
    mkField "p3_v3" Element (ns_common10, "P3V3") (TPrim PFloat) One true NoDefault;
    mkField "v1_v2" Element (ns_common10, "V1V2") (TPrim PFloat) One true NoDefault;
    mkField "v1_v3" Element (ns_common10, "V1V3") (TPrim PFloat) One true NoDefault;
    mkField "v2_v3" Element (ns_common10, "V2V3") (TPrim PFloat) One true NoDefault].

(** sicommon_types_v1_0.py:977-996. *)
Definition c_common10_ErrorStatisticsType_Components_PosVelErr_PositionDecorr : Class := mkClass "common10.ErrorStatisticsType.Components.PosVelErr.PositionDecorr" (ns_common10, "PositionDecorr") [
    mkField "corr_coef_zero" Element (ns_common10, "CorrCoefZero") (TPrim PFloat) One true NoDefault;
    mkField "decorr_rate" Element (ns_common10, "DecorrRate") (TPrim PFloat) One true NoDefault].

(** sicommon_types_v1_0.py:998-1053. *)
Definition c_common10_ErrorStatisticsType_Components_RadarSensor : Class := mkClass "common10.ErrorStatisticsType.Components.RadarSensor" (ns_common10, "RadarSensor") [
    mkField "range_bias" Element (ns_common10, "RangeBias") (TPrim PFloat) One true NoDefault;
    mkField "clock_freq_sf" Element (ns_common10, "ClockFreqSF") (TPrim PFloat) One false NoDefault;
    mkField "transmit_freq_sf" Element (ns_common10, "TransmitFreqSF") (TPrim PFloat) One false NoDefault;
    mkField "range_bias_decorr" Element (ns_common10, "RangeBiasDecorr") (TClass "common10.ErrorStatisticsType.Components.RadarSensor.RangeBiasDecorr") One false NoDefault].

(** sicommon_types_v1_0.py:1034-1053. *)
Definition c_common10_ErrorStatisticsType_Components_RadarSensor_RangeBiasDecorr : Class := mkClass "common10.ErrorStatisticsType.Components.RadarSensor.RangeBiasDecorr" (ns_common10, "RangeBiasDecorr") [
    mkField "corr_coef_zero" Element (ns_common10, "CorrCoefZero") (TPrim PFloat) One true NoDefault;
    mkField "decorr_rate" Element (ns_common10, "DecorrRate") (TPrim PFloat) One true NoDefault].

(** sicommon_types_v1_0.py:1055-1101. *)
Definition c_common10_ErrorStatisticsType_Components_TropoError : Class := mkClass "common10.ErrorStatisticsType.Components.TropoError" (ns_common10, "TropoError") [
    mkField "tropo_range_vertical" Element (ns_common10, "TropoRangeVertical") (TPrim PFloat) One false NoDefault;
    mkField "tropo_range_slant" Element (ns_common10, "TropoRangeSlant") (TPrim PFloat) One false NoDefault;
    mkField "tropo_range_decorr" Element (ns_common10, "TropoRangeDecorr") (TClass "common10.ErrorStatisticsType.Components.TropoError.TropoRangeDecorr") One false NoDefault].

(** sicommon_types_v1_0.py:1082-1101. *)
Definition c_common10_ErrorStatisticsType_Components_TropoError_TropoRangeDecorr : Class := mkClass "common10.ErrorStatisticsType.Components.TropoError.TropoRangeDecorr" (ns_common10, "TropoRangeDecorr") [
    mkField "corr_coef_zero" Element (ns_common10, "CorrCoefZero") (TPrim PFloat) One true NoDefault;
    mkField "decorr_rate" Element (ns_common10, "DecorrRate") (TPrim PFloat) One true NoDefault].

(** sicommon_types_v1_0.py:1103-1158. *)
Definition c_common10_ErrorStatisticsType_Components_IonoError : Class := mkClass "common10.ErrorStatisticsType.Components.IonoError" (ns_common10, "IonoError") [
    mkField "iono_range_vertical" Element (ns_common10, "IonoRangeVertical") (TPrim PFloat) One false NoDefault;
    mkField "iono_range_rate_vertical" Element (ns_common10, "IonoRangeRateVertical") (TPrim PFloat) One false NoDefault;
    mkField "iono_rg_rg_rate_cc" Element (ns_common10, "IonoRgRgRateCC") (TPrim PFloat) One true NoDefault;
    mkField "iono_range_vert_decorr" Element (ns_common10, "IonoRangeVertDecorr") (TClass "common10.ErrorStatisticsType.Components.IonoError.IonoRangeVertDecorr") One false NoDefault].

(** sicommon_types_v1_0.py:1139-1158. *)
Definition c_common10_ErrorStatisticsType_Components_IonoError_IonoRangeVertDecorr : Class := mkClass "common10.ErrorStatisticsType.Components.IonoError.IonoRangeVertDecorr" (ns_common10, "IonoRangeVertDecorr") [
    mkField "corr_coef_zero" Element (ns_common10, "CorrCoefZero") (TPrim PFloat) One true NoDefault;
    mkField "decorr_rate" Element (ns_common10, "DecorrRate") (TPrim PFloat) One true NoDefault].

(** sicommon_types_v1_0.py:1160-1259. *)
Definition c_common10_ErrorStatisticsType_Unmodeled : Class := mkClass "common10.ErrorStatisticsType.Unmodeled" (ns_common10, "Unmodeled") [
    mkField "xrow" Element (ns_common10, "Xrow") (TPrim PFloat) One true NoDefault;
    mkField "ycol" Element (ns_common10, "Ycol") (TPrim PFloat) One true NoDefault;
    mkField "xrow_ycol" Element (ns_common10, "XrowYcol") (TPrim PFloat) One true NoDefault;
    mkField "unmodeled_decorr" Element (ns_common10, "UnmodeledDecorr") (TClass "common10.ErrorStatisticsType.Unmodeled.UnmodeledDecorr") One false NoDefault].

(** sicommon_types_v1_0.py:1198-1259. *)
Definition c_common10_ErrorStatisticsType_Unmodeled_UnmodeledDecorr : Class := mkClass "common10.ErrorStatisticsType.Unmodeled.UnmodeledDecorr" (ns_common10, "UnmodeledDecorr") [
    mkField "xrow" Element (ns_common10, "Xrow") (TClass "common10.ErrorStatisticsType.Unmodeled.UnmodeledDecorr.Xrow") One true NoDefault;
    mkField "ycol" Element (ns_common10, "Ycol") (TClass "common10.ErrorStatisticsType.Unmodeled.UnmodeledDecorr.Ycol") One true NoDefault].

(** sicommon_types_v1_0.py:1219-1238. *)
Definition c_common10_ErrorStatisticsType_Unmodeled_UnmodeledDecorr_Xrow : Class := mkClass "common10.ErrorStatisticsType.Unmodeled.UnmodeledDecorr.Xrow" (ns_common10, "Xrow") [
    mkField "corr_coef_zero" Element (ns_common10, "CorrCoefZero") (TPrim PFloat) One true NoDefault;
    mkField "decorr_rate" Element (ns_common10, "DecorrRate") (TPrim PFloat) One true NoDefault].

(** sicommon_types_v1_0.py:1240-1259. *)
Definition c_common10_ErrorStatisticsType_Unmodeled_UnmodeledDecorr_Ycol : Class := mkClass "common10.ErrorStatisticsType.Unmodeled.UnmodeledDecorr.Ycol" (ns_common10, "Ycol") [
    mkField "corr_coef_zero" Element (ns_common10, "CorrCoefZero") (TPrim PFloat) One true NoDefault;
    mkField "decorr_rate" Element (ns_common10, "DecorrRate") (TPrim PFloat) One true NoDefault].

(** sicommon_types_v1_0.py:1261-1271. *)
Definition c_common10_ErrorStatisticsType_AdditionalParms : Class := mkClass "common10.ErrorStatisticsType.AdditionalParms" (ns_common10, "AdditionalParms") [
    mkField "parameter" Element (ns_common10, "Parameter") (TClass "common10.ParameterType") Many true NoDefault].

(** sicommon_types_v1_0.py:1274-1322. *)
Definition c_common10_GeoInfoType : Class := mkClass "common10.GeoInfoType" (ns_common10, "GeoInfoType") [
    mkField "desc" Element (ns_common10, "Desc") (TClass "common10.ParameterType") Many false NoDefault;
    mkField "point" Element (ns_common10, "Point") (TClass "common10.LatLonRestrictionType") One false NoDefault;
    mkField "line" Element (ns_common10, "Line") (TClass "common10.LineType") One false NoDefault;
    mkField "polygon" Element (ns_common10, "Polygon") (TClass "common10.PolygonType") One false NoDefault;
    mkField "geo_info" Element (ns_common10, "GeoInfo") (TClass "common10.GeoInfoType") Many false NoDefault;
    mkField "name" Attribute ("", "name") (TPrim PStr) One true NoDefault].

(** sicommon_types_v1_0.py:1325-1360. *)
Definition c_common10_LLHCornerStringType : Class := mkClass "common10.LLHCornerStringType" (ns_common10, "LLHCornerStringType") [
    mkField "lat" Element (ns_common10, "Lat") (TPrim PFloat) One true NoDefault;
    mkField "lon" Element (ns_common10, "Lon") (TPrim PFloat) One true NoDefault;
    mkField "hae" Element (ns_common10, "HAE") (TPrim PFloat) One true NoDefault;
    mkField "index" Attribute ("", "index") (TEnum "common10.CornerStringType") One true NoDefault].

(** sicommon_types_v1_0.py:1363-1389. *)
Definition c_common10_LatLonCornerStringType : Class := mkClass "common10.LatLonCornerStringType" (ns_common10, "LatLonCornerStringType") [
    mkField "lat" Element (ns_common10, "Lat") (TPrim PFloat) One true NoDefault;
    mkField "lon" Element (ns_common10, "Lon") (TPrim PFloat) One true NoDefault;
    mkField "index" Attribute ("", "index") (TEnum "common10.CornerStringType") One true NoDefault].

(** sicommon_types_v1_0.py:1392-1490. *)
Definition c_common10_MatchInfoType : Class := mkClass "common10.MatchInfoType" (ns_common10, "MatchInfoType") [
    mkField "num_match_types" Element (ns_common10, "NumMatchTypes") (TPrim PInt) One true NoDefault;
    mkField "match_type" Element (ns_common10, "MatchType") (TClass "common10.MatchInfoType.MatchType") Many true NoDefault].

(** sicommon_types_v1_0.py:1413-1490. *)
Definition c_common10_MatchInfoType_MatchType : Class := mkClass "common10.MatchInfoType.MatchType" (ns_common10, "MatchType") [
    mkField "type_id" Element (ns_common10, "TypeID") (TPrim PStr) One true NoDefault;
    mkField "current_index" Element (ns_common10, "CurrentIndex") (TPrim PInt) One false NoDefault;
    mkField "num_match_collections" Element (ns_common10, "NumMatchCollections") (TPrim PInt) One true NoDefault;
    mkField "match_collection" Element (ns_common10, "MatchCollection") (TClass "common10.MatchInfoType.MatchType.MatchCollection") Many false NoDefault;
    mkField "index" Attribute ("", "index") (TPrim PInt) One true NoDefault].

(** sicommon_types_v1_0.py:1457-1490. *)
Definition c_common10_MatchInfoType_MatchType_MatchCollection : Class := mkClass "common10.MatchInfoType.MatchType.MatchCollection" (ns_common10, "MatchCollection") [
    mkField "core_name" Element (ns_common10, "CoreName") (TPrim PStr) One true NoDefault;
    mkField "match_index" Element (ns_common10, "MatchIndex") (TPrim PInt) One false NoDefault;
    mkField "parameter" Element (ns_common10, "Parameter") (TClass "common10.ParameterType") Many false NoDefault;
    mkField "index" Attribute ("", "index") (TPrim PInt) One true NoDefault].

(** sicommon_types_v1_0.py:1493-1510. *)
Definition c_common10_Poly1DType : Class := mkClass "common10.Poly1DType" (ns_common10, "Poly1DType") [
    mkField "coef" Element (ns_common10, "Coef") (TClass "common10.PolyCoef1DType") Many true NoDefault;
    mkField "order1" Attribute ("", "order1") (TPrim PInt) One true NoDefault].

(** sicommon_types_v1_0.py:1513-1537. *)
Definition c_common10_Poly2DType : Class := mkClass "common10.Poly2DType" (ns_common10, "Poly2DType") [
    mkField "coef" Element (ns_common10, "Coef") (TClass "common10.PolyCoef2DType") Many true NoDefault;
    mkField "order1" Attribute ("", "order1") (TPrim PInt) One true NoDefault;
    mkField "order2" Attribute ("", "order2") (TPrim PInt) One true NoDefault].

(** sicommon_types_v1_0.py:1540-1558. *)
Definition c_common10_RadarModeType : Class := mkClass "common10.RadarModeType" (ns_common10, "RadarModeType") [
    mkField "mode_type" Element (ns_common10, "ModeType") (TEnum "common10.ModeIdentifierType") One true NoDefault;
    mkField "mode_id" Element (ns_common10, "ModeID") (TPrim PStr) One false NoDefault].

(** sicommon_types_v1_0.py:1561-1594. *)
Definition c_common10_ReferencePointType : Class := mkClass "common10.ReferencePointType" (ns_common10, "ReferencePointType") [
    mkField "ecef" Element (ns_common10, "ECEF") (TClass "common10.XYZType") One true NoDefault;
    mkField "point" Element (ns_common10, "Point") (TClass "common10.RowColDoubleType") One true NoDefault;
    mkField "name" Attribute ("", "name") (TPrim PStr) One false NoDefault].

(** sicommon_types_v1_0.py:1597-1614. *)
Definition c_common10_ValidDataType : Class := mkClass "common10.ValidDataType" (ns_common10, "ValidDataType") [
    mkField "vertex" Element (ns_common10, "Vertex") (TClass "common10.RowColVertexType") Many true NoDefault;
    mkField "size" Attribute ("", "size") (TPrim PInt) One true NoDefault].

(** sicommon_types_v1_0.py:1617-1624. *)
Definition c_common10_XYZAttributeType : Class := mkClass "common10.XYZAttributeType" (ns_common10, "XYZAttributeType") [
    mkField "x" Element (ns_common10, "X") (TPrim PFloat) One true NoDefault;
    mkField "y" Element (ns_common10, "Y") (TPrim PFloat) One true NoDefault;
    mkField "z" Element (ns_common10, "Z") (TPrim PFloat) One true NoDefault;
    mkField "name" Attribute ("", "name") (TPrim PStr) One false NoDefault].

(** sicommon_types_v1_0.py:1627-1696. *)
Definition c_common10_CollectionInfoType : Class := mkClass "common10.CollectionInfoType" (ns_common10, "CollectionInfoType") [
    mkField "collector_name" Element (ns_common10, "CollectorName") (TPrim PStr) One true NoDefault;
    mkField "illuminator_name" Element (ns_common10, "IlluminatorName") (TPrim PStr) One false NoDefault;
    mkField "core_name" Element (ns_common10, "CoreName") (TPrim PStr) One true NoDefault;
    mkField "collect_type" Element (ns_common10, "CollectType") (TEnum "common10.CollectIdentifierType") One false NoDefault;
    mkField "radar_mode" Element (ns_common10, "RadarMode") (TClass "common10.RadarModeType") One true NoDefault;
    mkField "classification" Element (ns_common10, "Classification") (TPrim PStr) One true NoDefault;
    mkField "country_code" Element (ns_common10, "CountryCode") (TPrim PStr) Many false NoDefault;
    mkField "parameter" Element (ns_common10, "Parameter") (TClass "common10.ParameterType") Many false NoDefault].

(** sicommon_types_v1_0.py:1699-1702. *)
Definition c_common10_GeoInfo : Class := mkClass "common10.GeoInfo" (ns_common10, "GeoInfo") [
    mkField "desc" Element (ns_common10, "Desc") (TClass "common10.ParameterType") Many false NoDefault;
    mkField "point" Element (ns_common10, "Point") (TClass "common10.LatLonRestrictionType") One false NoDefault;
    mkField "line" Element (ns_common10, "Line") (TClass "common10.LineType") One false NoDefault;
    mkField "polygon" Element (ns_common10, "Polygon") (TClass "common10.PolygonType") One false NoDefault;
    mkField "geo_info" Element (ns_common10, "GeoInfo") (TClass "common10.GeoInfoType") Many false NoDefault;
    mkField "name" Attribute ("", "name") (TPrim PStr) One true NoDefault].

(** sicommon_types_v1_0.py:1705-1783. *)
Definition c_common10_RadiometricType : Class := mkClass "common10.RadiometricType" (ns_common10, "RadiometricType") [
    mkField "noise_level" Element (ns_common10, "NoiseLevel") (TClass "common10.RadiometricType.NoiseLevel") One false NoDefault;
    mkField "noise_poly" Element (ns_common10, "NoisePoly") (TClass "common10.Poly2DType") One false NoDefault;
    mkField "rcssfpoly" Element (ns_common10, "RCSSFPoly") (TClass "common10.Poly2DType") One false NoDefault;
    mkField "sigma_zero_sfpoly" Element (ns_common10, "SigmaZeroSFPoly") (TClass "common10.Poly2DType") One false NoDefault;
    mkField "beta_zero_sfpoly" Element (ns_common10, "BetaZeroSFPoly") (TClass "common10.Poly2DType") One false NoDefault;
    mkField "sigma_zero_sfincidence_map" Element (ns_common10, "SigmaZeroSFIncidenceMap") (TEnum "common10.RadiometricTypeSigmaZeroSFIncidenceMap") One false NoDefault;
    mkField "gamma_zero_sfpoly" Element (ns_common10, "GammaZeroSFPoly") (TClass "common10.Poly2DType") One false NoDefault].

(** sicommon_types_v1_0.py:1764-1783. *)
Definition c_common10_RadiometricType_NoiseLevel : Class := mkClass "common10.RadiometricType.NoiseLevel" (ns_common10, "NoiseLevel") [
    mkField "noise_level_type" Element (ns_common10, "NoiseLevelType") (TEnum "common10.NoiseLevelNoiseLevelType") One true NoDefault;
    mkField "noise_poly" Element (ns_common10, "NoisePoly") (TClass "common10.Poly2DType") One true NoDefault].

(** sicommon_types_v1_0.py:1786-1814. *)
Definition c_common10_XYZPolyType : Class := mkClass "common10.XYZPolyType" (ns_common10, "XYZPolyType") [
    mkField "x" Element (ns_common10, "X") (TClass "common10.Poly1DType") One true NoDefault;
    mkField "y" Element (ns_common10, "Y") (TClass "common10.Poly1DType") One true NoDefault;
    mkField "z" Element (ns_common10, "Z") (TClass "common10.Poly1DType") One true NoDefault].

(** sicommon_types_v1_0.py:1817-1825. *)
Definition c_common10_XYZPolyAttributeType : Class := mkClass "common10.XYZPolyAttributeType" (ns_common10, "XYZPolyAttributeType") [
    mkField "x" Element (ns_common10, "X") (TClass "common10.Poly1DType") One true NoDefault;
    mkField "y" Element (ns_common10, "Y") (TClass "common10.Poly1DType") One true NoDefault;
    mkField "z" Element (ns_common10, "Z") (TClass "common10.Poly1DType") One true NoDefault;
    mkField "index" Attribute ("", "index") (TPrim PInt) One true NoDefault].

(** sicommon_types.py:17-38. *)
Definition c_common01_AngleMagnitudeType : Class := mkClass "common01.AngleMagnitudeType" (ns_common01, "AngleMagnitudeType") [
    mkField "angle" Element (ns_common01, "Angle") (TPrim PFloat) One true NoDefault;
    mkField "magnitude" Element (ns_common01, "Magnitude") (TPrim PFloat) One true NoDefault].

(** sicommon_types.py:41-55. *)
Definition c_common01_ArrayDoubleType : Class := mkClass "common01.ArrayDoubleType" (ns_common01, "ArrayDoubleType") [
    mkField "value" Content ("", "") (TPrim PFloat) One true NoDefault;
    mkField "index" Attribute ("", "index") (TPrim PInt) One true NoDefault].

(** sicommon_types.py:63-82. *)
Definition c_common01_ComplexType : Class := mkClass "common01.ComplexType" (ns_common01, "ComplexType") [
    mkField "real" Element (ns_common01, "Real") (TPrim PFloat) One true NoDefault;
    mkField "imag" Element (ns_common01, "Imag") (TPrim PFloat) One true NoDefault].

(** sicommon_types.py:103-136. *)
Definition c_common01_ImageCreationType : Class := mkClass "common01.ImageCreationType" (ns_common01, "ImageCreationType") [
    mkField "application" Element (ns_common01, "Application") (TPrim PStr) One false NoDefault;
    mkField "date_time" Element (ns_common01, "DateTime") (TPrim PDateTime) One false NoDefault;
    mkField "site" Element (ns_common01, "Site") (TPrim PStr) One false NoDefault;
    mkField "profile" Element (ns_common01, "Profile") (TPrim PStr) One false NoDefault].

(** sicommon_types.py:139-167. *)
Definition c_common01_LLHType : Class := mkClass "common01.LLHType" (ns_common01, "LLHType") [
    mkField "lat" Element (ns_common01, "Lat") (TPrim PFloat) One true NoDefault;
    mkField "lon" Element (ns_common01, "Lon") (TPrim PFloat) One true NoDefault;
    mkField "hae" Element (ns_common01, "HAE") (TPrim PFloat) One true NoDefault].

(** sicommon_types.py:170-198. *)
Definition c_common01_LatLonCornerType : Class := mkClass "common01.LatLonCornerType" (ns_common01, "LatLonCornerType") [
    mkField "lat" Element (ns_common01, "Lat") (TPrim PFloat) One true NoDefault;
    mkField "lon" Element (ns_common01, "Lon") (TPrim PFloat) One true NoDefault;
    mkField "index" Attribute ("", "index") (TPrim PInt) One true NoDefault].

(** sicommon_types.py:201-238. *)
Definition c_common01_LatLonHAECornerType : Class := mkClass "common01.LatLonHAECornerType" (ns_common01, "LatLonHAECornerType") [
    mkField "lat" Element (ns_common01, "Lat") (TPrim PFloat) One true NoDefault;
    mkField "lon" Element (ns_common01, "Lon") (TPrim PFloat) One true NoDefault;
    mkField "hae" Element (ns_common01, "HAE") (TPrim PFloat) One true NoDefault;
    mkField "index" Attribute ("", "index") (TPrim PInt) One true NoDefault].

(** sicommon_types.py:241-260. *)
Definition c_common01_LatLonType : Class := mkClass "common01.LatLonType" (ns_common01, "LatLonType") [
    mkField "lat" Element (ns_common01, "Lat") (TPrim PFloat) One true NoDefault;
    mkField "lon" Element (ns_common01, "Lon") (TPrim PFloat) One true NoDefault].

(** sicommon_types.py:263-289. *)
Definition c_common01_LatLonVertexType : Class := mkClass "common01.LatLonVertexType" (ns_common01, "LatLonVertexType") [
    mkField "lat" Element (ns_common01, "Lat") (TPrim PFloat) One true NoDefault;
    mkField "lon" Element (ns_common01, "Lon") (TPrim PFloat) One true NoDefault;
    mkField "index" Attribute ("", "index") (TPrim PInt) One true NoDefault].

(** sicommon_types.py:292-337. *)
Definition c_common01_LineType : Class := mkClass "common01.LineType" (ns_common01, "LineType") [
    mkField "endpoint" Element (ns_common01, "Endpoint") (TClass "common01.LineType.Endpoint") Many true NoDefault;
    mkField "size" Attribute ("", "size") (TPrim PInt) One true NoDefault].

(** sicommon_types.py:311-337. *)
Definition c_common01_LineType_Endpoint : Class := mkClass "common01.LineType.Endpoint" (ns_common01, "Endpoint") [
    mkField "lat" Element (ns_common01, "Lat") (TPrim PFloat) One true NoDefault;
    mkField "lon" Element (ns_common01, "Lon") (TPrim PFloat) One true NoDefault;
    mkField "index" Attribute ("", "index") (TPrim PInt) One true NoDefault].

(** sicommon_types.py:347-361. *)
Definition c_common01_ParameterType : Class := mkClass "common01.ParameterType" (ns_common01, "ParameterType") [
    mkField "value" Content ("", "") (TPrim PStr) One true EmptyString;
    mkField "name" Attribute ("", "name") (TPrim PStr) One true NoDefault].

(** sicommon_types.py:372-386. *)
Definition c_common01_PolyCoef1DType : Class := mkClass "common01.PolyCoef1DType" (ns_common01, "PolyCoef1DType") [
    mkField "value" Content ("", "") (TPrim PFloat) One true NoDefault;
    mkField "exponent1" Attribute ("", "exponent1") (TPrim PInt) One true NoDefault].

(** sicommon_types.py:389-410. *)
Definition c_common01_PolyCoef2DType : Class := mkClass "common01.PolyCoef2DType" (ns_common01, "PolyCoef2DType") [
    mkField "value" Content ("", "") (TPrim PFloat) One true NoDefault;
    mkField "exponent1" Attribute ("", "exponent1") (TPrim PInt) One true NoDefault;
    mkField "exponent2" Attribute ("", "exponent2") (TPrim PInt) One true NoDefault].

(** sicommon_types.py:413-458. *)
Definition c_common01_PolygonType : Class := mkClass "common01.PolygonType" (ns_common01, "PolygonType") [
    mkField "vertex" Element (ns_common01, "Vertex") (TClass "common01.PolygonType.Vertex") Many true NoDefault;
    mkField "size" Attribute ("", "size") (TPrim PInt) One true NoDefault].

(** sicommon_types.py:432-458. *)
Definition c_common01_PolygonType_Vertex : Class := mkClass "common01.PolygonType.Vertex" (ns_common01, "Vertex") [
    mkField "lat" Element (ns_common01, "Lat") (TPrim PFloat) One true NoDefault;
    mkField "lon" Element (ns_common01, "Lon") (TPrim PFloat) One true NoDefault;
    mkField "index" Attribute ("", "index") (TPrim PInt) One true NoDefault].

(** sicommon_types.py:461-487. *)
Definition c_common01_RangeAzimuthType : Class := mkClass "common01.RangeAzimuthType" (ns_common01, "RangeAzimuthType") [
    mkField "range" Element (ns_common01, "Range") (TPrim PFloat) One true NoDefault;
    mkField "azimuth" Element (ns_common01, "Azimuth") (TPrim PFloat) One true NoDefault].

(** sicommon_types.py:490-509. *)
Definition c_common01_RowColDoubleType : Class := mkClass "common01.RowColDoubleType" (ns_common01, "RowColDoubleType") [
    mkField "row" Element (ns_common01, "Row") (TPrim PFloat) One true NoDefault;
    mkField "col" Element (ns_common01, "Col") (TPrim PFloat) One true NoDefault].

(** sicommon_types.py:512-531. *)
Definition c_common01_RowColIntType : Class := mkClass "common01.RowColIntType" (ns_common01, "RowColIntType") [
    mkField "row" Element (ns_common01, "Row") (TPrim PInt) One true NoDefault;
    mkField "col" Element (ns_common01, "Col") (TPrim PInt) One true NoDefault].

(** sicommon_types.py:534-560. *)
Definition c_common01_RowColVertexType : Class := mkClass "common01.RowColVertexType" (ns_common01, "RowColVertexType") [
    mkField "row" Element (ns_common01, "Row") (TPrim PInt) One true NoDefault;
    mkField "col" Element (ns_common01, "Col") (TPrim PInt) One true NoDefault;
    mkField "index" Attribute ("", "index") (TPrim PInt) One true NoDefault].

(** sicommon_types.py:568-596. *)
Definition c_common01_XYZType : Class := mkClass "common01.XYZType" (ns_common01, "XYZType") [
    mkField "x" Element (ns_common01, "X") (TPrim PFloat) One true NoDefault;
    mkField "y" Element (ns_common01, "Y") (TPrim PFloat) One true NoDefault;
    mkField "z" Element (ns_common01, "Z") (TPrim PFloat) One true NoDefault].

(** sicommon_types.py:599-1153. *)
Definition c_common01_ErrorStatisticsType : Class := mkClass "common01.ErrorStatisticsType" (ns_common01, "ErrorStatisticsType") [
    mkField "composite_scp" Element (ns_common01, "CompositeSCP") (TClass "common01.ErrorStatisticsType.CompositeSCP") One false NoDefault;
    mkField "components" Element (ns_common01, "Components") (TClass "common01.ErrorStatisticsType.Components") One false NoDefault;
    mkField "additional_parms" Element (ns_common01, "AdditionalParms") (TClass "common01.ErrorStatisticsType.AdditionalParms") One false NoDefault].

(** sicommon_types.py:626-703. *)
Definition c_common01_ErrorStatisticsType_CompositeSCP : Class := mkClass "common01.ErrorStatisticsType.CompositeSCP" (ns_common01, "CompositeSCP") [
    mkField "rg_az_err" Element (ns_common01, "RgAzErr") (TClass "common01.ErrorStatisticsType.CompositeSCP.RgAzErr") One false NoDefault;
    mkField "row_col_err" Element (ns_common01, "RowColErr") (TClass "common01.ErrorStatisticsType.CompositeSCP.RowColErr") One false NoDefault].

(** sicommon_types.py:645-673. *)
Definition c_common01_ErrorStatisticsType_CompositeSCP_RgAzErr : Class := mkClass "common01.ErrorStatisticsType.CompositeSCP.RgAzErr" (ns_common01, "RgAzErr") [
    mkField "rg" Element (ns_common01, "Rg") (TPrim PFloat) One true NoDefault;
    mkField "az" Element (ns_common01, "Az") (TPrim PFloat) One true NoDefault;
    mkField "rg_az" Element (ns_common01, "RgAz") (TPrim PFloat) One true NoDefault].

(** sicommon_types.py:675-703. *)
Definition c_common01_ErrorStatisticsType_CompositeSCP_RowColErr : Class := mkClass "common01.ErrorStatisticsType.CompositeSCP.RowColErr" (ns_common01, "RowColErr") [
    mkField "row" Element (ns_common01, "Row") (TPrim PFloat) One true NoDefault;
    mkField "col" Element (ns_common01, "Col") (TPrim PFloat) One true NoDefault;
    mkField "row_col" Element (ns_common01, "RowCol") (TPrim PFloat) One true NoDefault].

(** sicommon_types.py:705-1141. *)
Definition c_common01_ErrorStatisticsType_Components : Class := mkClass "common01.ErrorStatisticsType.Components" (ns_common01, "Components") [
    mkField "pos_vel_err" Element (ns_common01, "PosVelErr") (TClass "common01.ErrorStatisticsType.Components.PosVelErr") One false NoDefault;
    mkField "radar_sensor" Element (ns_common01, "RadarSensor") (TClass "common01.ErrorStatisticsType.Components.RadarSensor") One false NoDefault;
    mkField "tropo_error" Element (ns_common01, "TropoError") (TClass "common01.ErrorStatisticsType.Components.TropoError") One false NoDefault;
    mkField "iono_error" Element (ns_common01, "IonoError") (TClass "common01.ErrorStatisticsType.Components.IonoError") One false NoDefault].

(** sicommon_types.py:740-979. *)
Definition c_common01_ErrorStatisticsType_Components_PosVelErr : Class := mkClass "common01.ErrorStatisticsType.Components.PosVelErr" (ns_common01, "PosVelErr") [
    mkField "frame" Element (ns_common01, "Frame") (TEnum "common01.ErrorFrameType") One true NoDefault;
    mkField "p1" Element (ns_common01, "P1") (TPrim PFloat) One true NoDefault;
    mkField "p2" Element (ns_common01, "P2") (TPrim PFloat) One true NoDefault;
    mkField "p3" Element (ns_common01, "P3") (TPrim PFloat) One true NoDefault;
    mkField "v1" Element (ns_common01, "V1") (TPrim PFloat) One true NoDefault;
    mkField "v2" Element (ns_common01, "V2") (TPrim PFloat) One true NoDefault;
    mkField "v3" Element (ns_common01, "V3") (TPrim PFloat) One true NoDefault;
    mkField "corr_coefs" Element (ns_common01, "CorrCoefs") (TClass "common01.ErrorStatisticsType.Components.PosVelErr.CorrCoefs") One false NoDefault;
    mkField "position_decorr" Element (ns_common01, "PositionDecorr") (TClass "common01.ErrorStatisticsType.Components.PosVelErr.PositionDecorr") One false NoDefault].

(** sicommon_types.py:822-958. *)
Definition c_common01_ErrorStatisticsType_Components_PosVelErr_CorrCoefs : Class := mkClass "common01.ErrorStatisticsType.Components.PosVelErr.CorrCoefs" (ns_common01, "CorrCoefs") [
    mkField "p1_p2" Element (ns_common01, "P1P2") (TPrim PFloat) One true NoDefault;
    mkField "p1_p3" Element (ns_common01, "P1P3") (TPrim PFloat) One true NoDefault;
    mkField "p1_v1" Element (ns_common01, "P1V1") (TPrim PFloat) One true NoDefault;
    mkField "p1_v2" Element (ns_common01, "P1V2") (TPrim PFloat) One true NoDefault;
    mkField "p1_v3" Element (ns_common01, "P1V3") (TPrim PFloat) One true NoDefault;
    mkField "p2_p3" Element (ns_common01, "P2P3") (TPrim PFloat) One true NoDefault;
    mkField "p2_v1" Element (ns_common01, "P2V1") (TPrim PFloat) One true NoDefault;
    mkField "p2_v2" Element (ns_common01, "P2V2") (TPrim PFloat) One true NoDefault;
    mkField "p2_v3" Element (ns_common01, "P2V3") (TPrim PFloat) One true NoDefault;
    mkField "p3_v1" Element (ns_common01, "P3V1") (TPrim PFloat) One true NoDefault;
    mkField "p3_v2" Element (ns_common01, "P3V2") (TPrim PFloat) One true NoDefault;
    mkField "p3_v3" Element (ns_common01, "P3V3") (TPrim PFloat) One true NoDefault;
    mkField "v1_v2" Element (ns_common01, "V1V2") (TPrim PFloat) One true NoDefault;
    mkField "v1_v3" Element (ns_common01, "V1V3") (TPrim PFloat) One true NoDefault;
    mkField "v2_v3" Element (ns_common01, "V2V3") (TPrim PFloat) One true NoDefault].

(** sicommon_types.py:960-979. *)
Definition c_common01_ErrorStatisticsType_Components_PosVelErr_PositionDecorr : Class := mkClass "common01.ErrorStatisticsType.Components.PosVelErr.PositionDecorr" (ns_common01, "PositionDecorr") [
    mkField "corr_coef_zero" Element (ns_common01, "CorrCoefZero") (TPrim PFloat) One true NoDefault;
    mkField "decorr_rate" Element (ns_common01, "DecorrRate") (TPrim PFloat) One true NoDefault].

(** sicommon_types.py:981-1036. *)
Definition c_common01_ErrorStatisticsType_Components_RadarSensor : Class := mkClass "common01.ErrorStatisticsType.Components.RadarSensor" (ns_common01, "RadarSensor") [
    mkField "range_bias" Element (ns_common01, "RangeBias") (TPrim PFloat) One true NoDefault;
    mkField "clock_freq_sf" Element (ns_common01, "ClockFreqSF") (TPrim PFloat) One false NoDefault;
    mkField "transmit_freq_sf" Element (ns_common01, "TransmitFreqSF") (TPrim PFloat) One false NoDefault;
    mkField "range_bias_decorr" Element (ns_common01, "RangeBiasDecorr") (TClass "common01.ErrorStatisticsType.Components.RadarSensor.RangeBiasDecorr") One false NoDefault].

(** sicommon_types.py:1017-1036. *)
Definition c_common01_ErrorStatisticsType_Components_RadarSensor_RangeBiasDecorr : Class := mkClass "common01.ErrorStatisticsType.Components.RadarSensor.RangeBiasDecorr" (ns_common01, "RangeBiasDecorr") [
    mkField "corr_coef_zero" Element (ns_common01, "CorrCoefZero") (TPrim PFloat) One true NoDefault;
    mkField "decorr_rate" Element (ns_common01, "DecorrRate") (TPrim PFloat) One true NoDefault].

(** sicommon_types.py:1038-1084. *)
Definition c_common01_ErrorStatisticsType_Components_TropoError : Class := mkClass "common01.ErrorStatisticsType.Components.TropoError" (ns_common01, "TropoError") [
    mkField "tropo_range_vertical" Element (ns_common01, "TropoRangeVertical") (TPrim PFloat) One false NoDefault;
    mkField "tropo_range_slant" Element (ns_common01, "TropoRangeSlant") (TPrim PFloat) One false NoDefault;
    mkField "tropo_range_decorr" Element (ns_common01, "TropoRangeDecorr") (TClass "common01.ErrorStatisticsType.Components.TropoError.TropoRangeDecorr") One false NoDefault].

(** sicommon_types.py:1065-1084. *)
Definition c_common01_ErrorStatisticsType_Components_TropoError_TropoRangeDecorr : Class := mkClass "common01.ErrorStatisticsType.Components.TropoError.TropoRangeDecorr" (ns_common01, "TropoRangeDecorr") [
    mkField "corr_coef_zero" Element (ns_common01, "CorrCoefZero") (TPrim PFloat) One true NoDefault;
    mkField "decorr_rate" Element (ns_common01, "DecorrRate") (TPrim PFloat) One true NoDefault].

(** sicommon_types.py:1086-1141. *)
Definition c_common01_ErrorStatisticsType_Components_IonoError : Class := mkClass "common01.ErrorStatisticsType.Components.IonoError" (ns_common01, "IonoError") [
    mkField "iono_range_vertical" Element (ns_common01, "IonoRangeVertical") (TPrim PFloat) One false NoDefault;
    mkField "iono_range_rate_vertical" Element (ns_common01, "IonoRangeRateVertical") (TPrim PFloat) One false NoDefault;
    mkField "iono_rg_rg_rate_cc" Element (ns_common01, "IonoRgRgRateCC") (TPrim PFloat) One true NoDefault;
    mkField "iono_range_vert_decorr" Element (ns_common01, "IonoRangeVertDecorr") (TClass "common01.ErrorStatisticsType.Components.IonoError.IonoRangeVertDecorr") One false NoDefault].

(** sicommon_types.py:1122-1141. *)
Definition c_common01_ErrorStatisticsType_Components_IonoError_IonoRangeVertDecorr : Class := mkClass "common01.ErrorStatisticsType.Components.IonoError.IonoRangeVertDecorr" (ns_common01, "IonoRangeVertDecorr") [
    mkField "corr_coef_zero" Element (ns_common01, "CorrCoefZero") (TPrim PFloat) One true NoDefault;
    mkField "decorr_rate" Element (ns_common01, "DecorrRate") (TPrim PFloat) One true NoDefault].

(** sicommon_types.py:1143-1153. *)
Definition c_common01_ErrorStatisticsType_AdditionalParms : Class := mkClass "common01.ErrorStatisticsType.AdditionalParms" (ns_common01, "AdditionalParms") [
    mkField "parameter" Element (ns_common01, "Parameter") (TClass "common01.ParameterType") Many true NoDefault].

(** sicommon_types.py:1156-1191. *)
Definition c_common01_LLHCornerStringType : Class := mkClass "common01.LLHCornerStringType" (ns_common01, "LLHCornerStringType") [
    mkField "lat" Element (ns_common01, "Lat") (TPrim PFloat) One true NoDefault;
    mkField "lon" Element (ns_common01, "Lon") (TPrim PFloat) One true NoDefault;
    mkField "hae" Element (ns_common01, "HAE") (TPrim PFloat) One true NoDefault;
    mkField "index" Attribute ("", "index") (TEnum "common01.CornerStringType") One true NoDefault].

(** sicommon_types.py:1194-1220. *)
Definition c_common01_LatLonCornerStringType : Class := mkClass "common01.LatLonCornerStringType" (ns_common01, "LatLonCornerStringType") [
    mkField "lat" Element (ns_common01, "Lat") (TPrim PFloat) One true NoDefault;
    mkField "lon" Element (ns_common01, "Lon") (TPrim PFloat) One true NoDefault;
    mkField "index" Attribute ("", "index") (TEnum "common01.CornerStringType") One true NoDefault].

(** sicommon_types.py:1223-1240. *)
Definition c_common01_Poly1DType : Class := mkClass "common01.Poly1DType" (ns_common01, "Poly1DType") [
    mkField "coef" Element (ns_common01, "Coef") (TClass "common01.PolyCoef1DType") Many true NoDefault;
    mkField "order1" Attribute ("", "order1") (TPrim PInt) One true NoDefault].

(** sicommon_types.py:1243-1267. *)
Definition c_common01_Poly2DType : Class := mkClass "common01.Poly2DType" (ns_common01, "Poly2DType") [
    mkField "coef" Element (ns_common01, "Coef") (TClass "common01.PolyCoef2DType") Many true NoDefault;
    mkField "order1" Attribute ("", "order1") (TPrim PInt) One true NoDefault;
    mkField "order2" Attribute ("", "order2") (TPrim PInt) One true NoDefault].

(** sicommon_types.py:1270-1288. *)
Definition c_common01_RadarModeType : Class := mkClass "common01.RadarModeType" (ns_common01, "RadarModeType") [
    mkField "mode_type" Element (ns_common01, "ModeType") (TEnum "common01.ModeIdentifierType") One true NoDefault;
    mkField "mode_id" Element (ns_common01, "ModeID") (TPrim PStr) One false NoDefault].

(** sicommon_types.py:1291-1324. *)
Definition c_common01_ReferencePointType : Class := mkClass "common01.ReferencePointType" (ns_common01, "ReferencePointType") [
    mkField "ecef" Element (ns_common01, "ECEF") (TClass "common01.XYZType") One true NoDefault;
    mkField "point" Element (ns_common01, "Point") (TClass "common01.RowColDoubleType") One true NoDefault;
    mkField "name" Attribute ("", "name") (TPrim PStr) One false NoDefault].

(** sicommon_types.py:1327-1344. *)
Definition c_common01_ValidDataType : Class := mkClass "common01.ValidDataType" (ns_common01, "ValidDataType") [
    mkField "vertex" Element (ns_common01, "Vertex") (TClass "common01.RowColVertexType") Many true NoDefault;
    mkField "size" Attribute ("", "size") (TPrim PInt) One true NoDefault].

(** sicommon_types.py:1347-1354. *)
Definition c_common01_XYZAttributeType : Class := mkClass "common01.XYZAttributeType" (ns_common01, "XYZAttributeType") [
    mkField "x" Element (ns_common01, "X") (TPrim PFloat) One true NoDefault;
    mkField "y" Element (ns_common01, "Y") (TPrim PFloat) One true NoDefault;
    mkField "z" Element (ns_common01, "Z") (TPrim PFloat) One true NoDefault;
    mkField "name" Attribute ("", "name") (TPrim PStr) One false NoDefault].

(** sicommon_types.py:1357-1426. *)
Definition c_common01_CollectionInfoType : Class := mkClass "common01.CollectionInfoType" (ns_common01, "CollectionInfoType") [
    mkField "collector_name" Element (ns_common01, "CollectorName") (TPrim PStr) One true NoDefault;
    mkField "illuminator_name" Element (ns_common01, "IlluminatorName") (TPrim PStr) One false NoDefault;
    mkField "core_name" Element (ns_common01, "CoreName") (TPrim PStr) One true NoDefault;
    mkField "collect_type" Element (ns_common01, "CollectType") (TEnum "common01.CollectIdentifierType") One false NoDefault;
    mkField "radar_mode" Element (ns_common01, "RadarMode") (TClass "common01.RadarModeType") One true NoDefault;
    mkField "classification" Element (ns_common01, "Classification") (TPrim PStr) One true NoDefault;
    mkField "country_code" Element (ns_common01, "CountryCode") (TPrim PStr) Many false NoDefault;
    mkField "parameter" Element (ns_common01, "Parameter") (TClass "common01.ParameterType") Many false NoDefault].

(** sicommon_types.py:1429-1486. *)
Definition c_common01_RadiometricType : Class := mkClass "common01.RadiometricType" (ns_common01, "RadiometricType") [
    mkField "noise_poly" Element (ns_common01, "NoisePoly") (TClass "common01.Poly2DType") One false NoDefault;
    mkField "rcssfpoly" Element (ns_common01, "RCSSFPoly") (TClass "common01.Poly2DType") One false NoDefault;
    mkField "beta_zero_sfpoly" Element (ns_common01, "BetaZeroSFPoly") (TClass "common01.Poly2DType") One false NoDefault;
    mkField "sigma_zero_sfpoly" Element (ns_common01, "SigmaZeroSFPoly") (TClass "common01.Poly2DType") One false NoDefault;
    mkField "sigma_zero_sfincidence_map" Element (ns_common01, "SigmaZeroSFIncidenceMap") (TEnum "common01.SigmaZeroSFIncidenceMapType") One false NoDefault;
    mkField "gamma_zero_sfpoly" Element (ns_common01, "GammaZeroSFPoly") (TClass "common01.Poly2DType") One false NoDefault;
    mkField "gamma_zero_sfincidence_map" Element (ns_common01, "GammaZeroSFIncidenceMap") (TEnum "common01.GammaZeroSFIncidenceMapType") One false NoDefault].

(** sicommon_types.py:1489-1517. *)
Definition c_common01_XYZPolyType : Class := mkClass "common01.XYZPolyType" (ns_common01, "XYZPolyType") [
    mkField "x" Element (ns_common01, "X") (TClass "common01.Poly1DType") One true NoDefault;
    mkField "y" Element (ns_common01, "Y") (TClass "common01.Poly1DType") One true NoDefault;
    mkField "z" Element (ns_common01, "Z") (TClass "common01.Poly1DType") One true NoDefault].

(** sicommon_types.py:1520-1528. *)
Definition c_common01_XYZPolyAttributeType : Class := mkClass "common01.XYZPolyAttributeType" (ns_common01, "XYZPolyAttributeType") [
    mkField "x" Element (ns_common01, "X") (TClass "common01.Poly1DType") One true NoDefault;
    mkField "y" Element (ns_common01, "Y") (TClass "common01.Poly1DType") One true NoDefault;
    mkField "z" Element (ns_common01, "Z") (TClass "common01.Poly1DType") One true NoDefault;
    mkField "index" Attribute ("", "index") (TPrim PInt) One true NoDefault].

(** sfa.py:14-16. *)
Definition c_sfa_GeometryType : Class := mkClass "sfa.GeometryType" (ns_sfa, "GeometryType") [].

(** sfa.py:19-38. *)
Definition c_sfa_ParameterType : Class := mkClass "sfa.ParameterType" (ns_sfa, "ParameterType") [
    mkField "parameter_name" Element (ns_sfa, "ParameterName") (TPrim PStr) One true NoDefault;
    mkField "value" Element (ns_sfa, "Value") (TPrim PFloat) One true NoDefault].

(** sfa.py:41-60. *)
Definition c_sfa_PrimeMeridianType : Class := mkClass "sfa.PrimeMeridianType" (ns_sfa, "PrimeMeridianType") [
    mkField "name" Element (ns_sfa, "Name") (TPrim PStr) One true NoDefault;
    mkField "longitude" Element (ns_sfa, "Longitude") (TPrim PFloat) One true NoDefault].

(** sfa.py:63-73. *)
Definition c_sfa_ProjectionType : Class := mkClass "sfa.ProjectionType" (ns_sfa, "ProjectionType") [
    mkField "projection_name" Element (ns_sfa, "ProjectionName") (TPrim PStr) One true NoDefault].

(** sfa.py:76-104. *)
Definition c_sfa_SpheriodType : Class := mkClass "sfa.SpheriodType" (ns_sfa, "SpheriodType") [
    mkField "spheriod_name" Element (ns_sfa, "SpheriodName") (TPrim PStr) One true NoDefault;
    mkField "semi_major_axis" Element (ns_sfa, "SemiMajorAxis") (TPrim PFloat) One true NoDefault;
    mkField "inverse_flattening" Element (ns_sfa, "InverseFlattening") (TPrim PFloat) One true NoDefault].

(** sfa.py:107-126. *)
Definition c_sfa_UNITType : Class := mkClass "sfa.UNITType" (ns_sfa, "UNITType") [
    mkField "unit_name" Element (ns_sfa, "UnitName") (TPrim PStr) One true NoDefault;
    mkField "conversion_factor" Element (ns_sfa, "ConversionFactor") (TPrim PFloat) One true NoDefault].

(** sfa.py:129-131. *)
Definition c_sfa_CurveType : Class := mkClass "sfa.CurveType" (ns_sfa, "CurveType") [].

(** sfa.py:134-144. *)
Definition c_sfa_DatumType : Class := mkClass "sfa.DatumType" (ns_sfa, "DatumType") [
    mkField "spheroid" Element (ns_sfa, "Spheroid") (TClass "sfa.SpheriodType") One true NoDefault].

(** sfa.py:147-149. *)
Definition c_sfa_GeometryCollectionType : Class := mkClass "sfa.GeometryCollectionType" (ns_sfa, "GeometryCollectionType") [].

(** sfa.py:152-187. *)
Definition c_sfa_PointType : Class := mkClass "sfa.PointType" (ns_sfa, "PointType") [
    mkField "x" Element (ns_sfa, "X") (TPrim PFloat) One true NoDefault;
    mkField "y" Element (ns_sfa, "Y") (TPrim PFloat) One true NoDefault;
    mkField "z" Element (ns_sfa, "Z") (TPrim PFloat) One false NoDefault;
    mkField "m" Element (ns_sfa, "M") (TPrim PFloat) One false NoDefault].

(** sfa.py:190-192. *)
Definition c_sfa_SurfaceType : Class := mkClass "sfa.SurfaceType" (ns_sfa, "SurfaceType") [].

(** sfa.py:195-232. *)
Definition c_sfa_GeocentricCoordinateSystemType : Class := mkClass "sfa.GeocentricCoordinateSystemType" (ns_sfa, "GeocentricCoordinateSystemType") [
    mkField "csname" Element (ns_sfa, "Csname") (TPrim PStr) One true NoDefault;
    mkField "datum" Element (ns_sfa, "Datum") (TClass "sfa.DatumType") One true NoDefault;
    mkField "prime_meridian" Element (ns_sfa, "PrimeMeridian") (TClass "sfa.PrimeMeridianType") One true NoDefault;
    mkField "linear_unit" Element (ns_sfa, "LinearUnit") (TPrim PStr) One true NoDefault].

(** sfa.py:235-280. *)
Definition c_sfa_GeographicCoordinateSystemType : Class := mkClass "sfa.GeographicCoordinateSystemType" (ns_sfa, "GeographicCoordinateSystemType") [
    mkField "csname" Element (ns_sfa, "Csname") (TPrim PStr) One true NoDefault;
    mkField "datum" Element (ns_sfa, "Datum") (TClass "sfa.DatumType") One true NoDefault;
    mkField "prime_meridian" Element (ns_sfa, "PrimeMeridian") (TClass "sfa.PrimeMeridianType") One true NoDefault;
    mkField "angular_unit" Element (ns_sfa, "AngularUnit") (TPrim PStr) One true NoDefault;
    mkField "linear_unit" Element (ns_sfa, "LinearUnit") (TPrim PStr) One false NoDefault].

(** sfa.py:283-293. *)
Definition c_sfa_LineStringType : Class := mkClass "sfa.LineStringType" (ns_sfa, "LineStringType") [
    mkField "vertex" Element (ns_sfa, "Vertex") (TClass "sfa.PointType") Many true NoDefault].

(** sfa.py:296-298. *)
Definition c_sfa_MultiCurveType : Class := mkClass "sfa.MultiCurveType" (ns_sfa, "MultiCurveType") [].

(** sfa.py:301-311. *)
Definition c_sfa_MultiPointType : Class := mkClass "sfa.MultiPointType" (ns_sfa, "MultiPointType") [
    mkField "vertex" Element (ns_sfa, "Vertex") (TClass "sfa.PointType") Many true NoDefault].

(** sfa.py:314-316. *)
Definition c_sfa_MultiSurfaceType : Class := mkClass "sfa.MultiSurfaceType" (ns_sfa, "MultiSurfaceType") [].

(** sfa.py:319-321. *)
Definition c_sfa_LineType : Class := mkClass "sfa.LineType" (ns_sfa, "LineType") [
    mkField "vertex" Element (ns_sfa, "Vertex") (TClass "sfa.PointType") Many true NoDefault].

(** sfa.py:324-326. *)
Definition c_sfa_LinearRingType : Class := mkClass "sfa.LinearRingType" (ns_sfa, "LinearRingType") [
    mkField "vertex" Element (ns_sfa, "Vertex") (TClass "sfa.PointType") Many true NoDefault].

(** sfa.py:329-374. *)
Definition c_sfa_ProjectedCoordinateSystemType : Class := mkClass "sfa.ProjectedCoordinateSystemType" (ns_sfa, "ProjectedCoordinateSystemType") [
    mkField "csname" Element (ns_sfa, "Csname") (TPrim PStr) One true NoDefault;
    mkField "geographic_coordinate_system" Element (ns_sfa, "GeographicCoordinateSystem") (TClass "sfa.GeographicCoordinateSystemType") One true NoDefault;
    mkField "projection" Element (ns_sfa, "Projection") (TClass "sfa.ProjectionType") One true NoDefault;
    mkField "parameter" Element (ns_sfa, "Parameter") (TClass "sfa.ParameterType") One false NoDefault;
    mkField "linear_unit" Element (ns_sfa, "LinearUnit") (TPrim PStr) One true NoDefault].

(** sfa.py:377-402. *)
Definition c_sfa_AbstractReferenceSystemType : Class := mkClass "sfa.AbstractReferenceSystemType" (ns_sfa, "AbstractReferenceSystemType") [
    mkField "projected_coordinate_system" Element (ns_sfa, "ProjectedCoordinateSystem") (TClass "sfa.ProjectedCoordinateSystemType") One false NoDefault;
    mkField "geographic_coordinate_system" Element (ns_sfa, "GeographicCoordinateSystem") (TClass "sfa.GeographicCoordinateSystemType") One false NoDefault;
    mkField "geocentric_coordinate_system" Element (ns_sfa, "GeocentricCoordinateSystem") (TClass "sfa.GeocentricCoordinateSystemType") One false NoDefault].

(** sfa.py:405-414. *)
Definition c_sfa_MultiLineStringType : Class := mkClass "sfa.MultiLineStringType" (ns_sfa, "MultiLineStringType") [
    mkField "element" Element (ns_sfa, "Element") (TClass "sfa.LineType") Many false NoDefault].

(** sfa.py:417-427. *)
Definition c_sfa_PolygonType : Class := mkClass "sfa.PolygonType" (ns_sfa, "PolygonType") [
    mkField "ring" Element (ns_sfa, "Ring") (TClass "sfa.LinearRingType") Many true NoDefault].

(** sfa.py:430-439. *)
Definition c_sfa_MultiPolygonType : Class := mkClass "sfa.MultiPolygonType" (ns_sfa, "MultiPolygonType") [
    mkField "element" Element (ns_sfa, "Element") (TClass "sfa.PolygonType") Many false NoDefault].

(** sfa.py:442-452. *)
Definition c_sfa_PolyhedralSurfaceType : Class := mkClass "sfa.PolyhedralSurfaceType" (ns_sfa, "PolyhedralSurfaceType") [
    mkField "patch" Element (ns_sfa, "Patch") (TClass "sfa.PolygonType") Many true NoDefault].

(** sfa.py:455-465. *)
Definition c_sfa_ReferenceSystemType : Class := mkClass "sfa.ReferenceSystemType" (ns_sfa, "ReferenceSystemType") [
    mkField "projected_coordinate_system" Element (ns_sfa, "ProjectedCoordinateSystem") (TClass "sfa.ProjectedCoordinateSystemType") One false NoDefault;
    mkField "geographic_coordinate_system" Element (ns_sfa, "GeographicCoordinateSystem") (TClass "sfa.GeographicCoordinateSystemType") One false NoDefault;
    mkField "geocentric_coordinate_system" Element (ns_sfa, "GeocentricCoordinateSystem") (TClass "sfa.GeocentricCoordinateSystemType") One false NoDefault;
    mkField "axis_name" Element (ns_sfa, "AxisName") (TPrim PStr) Many true NoDefault].

(** sfa.py:468-470. *)
Definition c_sfa_TriangleType : Class := mkClass "sfa.TriangleType" (ns_sfa, "TriangleType") [
    mkField "ring" Element (ns_sfa, "Ring") (TClass "sfa.LinearRingType") Many true NoDefault].

(** sfa.py:473-483. *)
Definition c_sfa_TriangulatedIrregularNetworkType : Class := mkClass "sfa.TriangulatedIrregularNetworkType" (ns_sfa, "TriangulatedIrregularNetworkType") [
    mkField "patch" Element (ns_sfa, "Patch") (TClass "sfa.PolygonType") Many true NoDefault;
    mkField "triangular_patch" Element (ns_sfa, "TriangularPatch") (TClass "sfa.TriangleType") Many true NoDefault].

(** ic_ism.py:30-232. *)
Definition c_ism13_LongStringWithSecurityType : Class := mkClass "ism13.LongStringWithSecurityType" (ns_ism13, "LongStringWithSecurityType") [
    mkField "value" Content ("", "") (TPrim PStr) One true EmptyString;
    mkField "classification" Attribute (ns_ism13, "classification") (TEnum "ism13.CVEnumISMClassificationAll") One true NoDefault;
    mkField "owner_producer" Attribute (ns_ism13, "ownerProducer") (TEnumOrStr "ism13.CVEnumISMCATOwnerProducerValuesvalue") Tokens true NoDefault;
    mkField "joint" Attribute (ns_ism13, "joint") (TPrim PBool) One false NoDefault;
    mkField "scicontrols" Attribute (ns_ism13, "SCIcontrols") (TEnumOrStr "ism13.CVEnumISMSCIControlsValuesvalue") Tokens false NoDefault;
    mkField "saridentifier" Attribute (ns_ism13, "SARIdentifier") (TPrim PStr) Tokens false NoDefault;
    mkField "atomic_energy_markings" Attribute (ns_ism13, "atomicEnergyMarkings") (TEnumOrStr "ism13.CVEnumISMatomicEnergyMarkingsValuesvalue") Tokens false NoDefault;
    mkField "dissemination_controls" Attribute (ns_ism13, "disseminationControls") (TEnum "ism13.CVEnumISMDissemValues") Tokens false NoDefault;
    mkField "display_only_to" Attribute (ns_ism13, "displayOnlyTo") (TEnumOrStr "ism13.CVEnumISMCATRelToValuesvalue") Tokens false NoDefault;
    mkField "fgisource_open" Attribute (ns_ism13, "FGIsourceOpen") (TEnumOrStr "ism13.CVEnumISMCATFGIOpenValuesvalue") Tokens false NoDefault;
    mkField "fgisource_protected" Attribute (ns_ism13, "FGIsourceProtected") (TEnumOrStr "ism13.CVEnumISMCATFGIProtectedValuesvalue") Tokens false NoDefault;
    mkField "releasable_to" Attribute (ns_ism13, "releasableTo") (TEnumOrStr "ism13.CVEnumISMCATRelToValuesvalue") Tokens false NoDefault;
    mkField "non_icmarkings" Attribute (ns_ism13, "nonICmarkings") (TEnumOrStr "ism13.CVEnumISMNonICValuesvalue") Tokens false NoDefault;
    mkField "classified_by" Attribute (ns_ism13, "classifiedBy") (TPrim PStr) One false NoDefault;
    mkField "compilation_reason" Attribute (ns_ism13, "compilationReason") (TPrim PStr) One false NoDefault;
    mkField "derivatively_classified_by" Attribute (ns_ism13, "derivativelyClassifiedBy") (TPrim PStr) One false NoDefault;
    mkField "classification_reason" Attribute (ns_ism13, "classificationReason") (TPrim PStr) One false NoDefault;
    mkField "non_uscontrols" Attribute (ns_ism13, "nonUSControls") (TEnum "ism13.CVEnumISMNonUSControlsValues") Tokens false NoDefault;
    mkField "derived_from" Attribute (ns_ism13, "derivedFrom") (TPrim PStr) One false NoDefault;
    mkField "declass_date" Attribute (ns_ism13, "declassDate") (TPrim PDate) One false NoDefault;
    mkField "declass_event" Attribute (ns_ism13, "declassEvent") (TPrim PStr) One false NoDefault;
    mkField "declass_exception" Attribute (ns_ism13, "declassException") (TEnum "ism13.CVEnumISM25X") One false NoDefault].

(** ic_ism.py:235-437. *)
Definition c_ism13_ShortStringWithSecurityType : Class := mkClass "ism13.ShortStringWithSecurityType" (ns_ism13, "ShortStringWithSecurityType") [
    mkField "value" Content ("", "") (TPrim PStr) One true EmptyString;
    mkField "classification" Attribute (ns_ism13, "classification") (TEnum "ism13.CVEnumISMClassificationAll") One true NoDefault;
    mkField "owner_producer" Attribute (ns_ism13, "ownerProducer") (TEnumOrStr "ism13.CVEnumISMCATOwnerProducerValuesvalue") Tokens true NoDefault;
    mkField "joint" Attribute (ns_ism13, "joint") (TPrim PBool) One false NoDefault;
    mkField "scicontrols" Attribute (ns_ism13, "SCIcontrols") (TEnumOrStr "ism13.CVEnumISMSCIControlsValuesvalue") Tokens false NoDefault;
    mkField "saridentifier" Attribute (ns_ism13, "SARIdentifier") (TPrim PStr) Tokens false NoDefault;
    mkField "atomic_energy_markings" Attribute (ns_ism13, "atomicEnergyMarkings") (TEnumOrStr "ism13.CVEnumISMatomicEnergyMarkingsValuesvalue") Tokens false NoDefault;
    mkField "dissemination_controls" Attribute (ns_ism13, "disseminationControls") (TEnum "ism13.CVEnumISMDissemValues") Tokens false NoDefault;
    mkField "display_only_to" Attribute (ns_ism13, "displayOnlyTo") (TEnumOrStr "ism13.CVEnumISMCATRelToValuesvalue") Tokens false NoDefault;
    mkField "fgisource_open" Attribute (ns_ism13, "FGIsourceOpen") (TEnumOrStr "ism13.CVEnumISMCATFGIOpenValuesvalue") Tokens false NoDefault;
    mkField "fgisource_protected" Attribute (ns_ism13, "FGIsourceProtected") (TEnumOrStr "ism13.CVEnumISMCATFGIProtectedValuesvalue") Tokens false NoDefault;
    mkField "releasable_to" Attribute (ns_ism13, "releasableTo") (TEnumOrStr "ism13.CVEnumISMCATRelToValuesvalue") Tokens false NoDefault;
    mkField "non_icmarkings" Attribute (ns_ism13, "nonICmarkings") (TEnumOrStr "ism13.CVEnumISMNonICValuesvalue") Tokens false NoDefault;
    mkField "classified_by" Attribute (ns_ism13, "classifiedBy") (TPrim PStr) One false NoDefault;
    mkField "compilation_reason" Attribute (ns_ism13, "compilationReason") (TPrim PStr) One false NoDefault;
    mkField "derivatively_classified_by" Attribute (ns_ism13, "derivativelyClassifiedBy") (TPrim PStr) One false NoDefault;
    mkField "classification_reason" Attribute (ns_ism13, "classificationReason") (TPrim PStr) One false NoDefault;
    mkField "non_uscontrols" Attribute (ns_ism13, "nonUSControls") (TEnum "ism13.CVEnumISMNonUSControlsValues") Tokens false NoDefault;
    mkField "derived_from" Attribute (ns_ism13, "derivedFrom") (TPrim PStr) One false NoDefault;
    mkField "declass_date" Attribute (ns_ism13, "declassDate") (TPrim PDate) One false NoDefault;
    mkField "declass_event" Attribute (ns_ism13, "declassEvent") (TPrim PStr) One false NoDefault;
    mkField "declass_exception" Attribute (ns_ism13, "declassException") (TEnum "ism13.CVEnumISM25X") One false NoDefault].

(** ic_ism.py:440-458. *)
Definition c_ism13_NoticeText : Class := mkClass "ism13.NoticeText" (ns_ism13, "NoticeText") [
    mkField "value" Content ("", "") (TPrim PStr) One true EmptyString;
    mkField "classification" Attribute (ns_ism13, "classification") (TEnum "ism13.CVEnumISMClassificationAll") One true NoDefault;
    mkField "owner_producer" Attribute (ns_ism13, "ownerProducer") (TEnumOrStr "ism13.CVEnumISMCATOwnerProducerValuesvalue") Tokens true NoDefault;
    mkField "joint" Attribute (ns_ism13, "joint") (TPrim PBool) One false NoDefault;
    mkField "scicontrols" Attribute (ns_ism13, "SCIcontrols") (TEnumOrStr "ism13.CVEnumISMSCIControlsValuesvalue") Tokens false NoDefault;
    mkField "saridentifier" Attribute (ns_ism13, "SARIdentifier") (TPrim PStr) Tokens false NoDefault;
    mkField "atomic_energy_markings" Attribute (ns_ism13, "atomicEnergyMarkings") (TEnumOrStr "ism13.CVEnumISMatomicEnergyMarkingsValuesvalue") Tokens false NoDefault;
    mkField "dissemination_controls" Attribute (ns_ism13, "disseminationControls") (TEnum "ism13.CVEnumISMDissemValues") Tokens false NoDefault;
    mkField "display_only_to" Attribute (ns_ism13, "displayOnlyTo") (TEnumOrStr "ism13.CVEnumISMCATRelToValuesvalue") Tokens false NoDefault;
    mkField "fgisource_open" Attribute (ns_ism13, "FGIsourceOpen") (TEnumOrStr "ism13.CVEnumISMCATFGIOpenValuesvalue") Tokens false NoDefault;
    mkField "fgisource_protected" Attribute (ns_ism13, "FGIsourceProtected") (TEnumOrStr "ism13.CVEnumISMCATFGIProtectedValuesvalue") Tokens false NoDefault;
    mkField "releasable_to" Attribute (ns_ism13, "releasableTo") (TEnumOrStr "ism13.CVEnumISMCATRelToValuesvalue") Tokens false NoDefault;
    mkField "non_icmarkings" Attribute (ns_ism13, "nonICmarkings") (TEnumOrStr "ism13.CVEnumISMNonICValuesvalue") Tokens false NoDefault;
    mkField "classified_by" Attribute (ns_ism13, "classifiedBy") (TPrim PStr) One false NoDefault;
    mkField "compilation_reason" Attribute (ns_ism13, "compilationReason") (TPrim PStr) One false NoDefault;
    mkField "derivatively_classified_by" Attribute (ns_ism13, "derivativelyClassifiedBy") (TPrim PStr) One false NoDefault;
    mkField "classification_reason" Attribute (ns_ism13, "classificationReason") (TPrim PStr) One false NoDefault;
    mkField "non_uscontrols" Attribute (ns_ism13, "nonUSControls") (TEnum "ism13.CVEnumISMNonUSControlsValues") Tokens false NoDefault;
    mkField "derived_from" Attribute (ns_ism13, "derivedFrom") (TPrim PStr) One false NoDefault;
    mkField "declass_date" Attribute (ns_ism13, "declassDate") (TPrim PDate) One false NoDefault;
    mkField "declass_event" Attribute (ns_ism13, "declassEvent") (TPrim PStr) One false NoDefault;
    mkField "declass_exception" Attribute (ns_ism13, "declassException") (TEnum "ism13.CVEnumISM25X") One false NoDefault;
    mkField "poc_type" Attribute (ns_ism13, "pocType") (TEnum "ism13.CVEnumISMPocTypeValues") Tokens false NoDefault].

(** ic_ism.py:461-477. *)
Definition c_ism13_NoticeBaseType : Class := mkClass "ism13.NoticeBaseType" (ns_ism13, "NoticeBaseType") [
    mkField "notice_text" Element (ns_ism13, "NoticeText") (TClass "ism13.NoticeText") Many true NoDefault].

(** ic_ism.py:480-724. *)
Definition c_ism13_NoticeExternalType : Class := mkClass "ism13.NoticeExternalType" (ns_ism13, "NoticeExternalType") [
    mkField "notice_text" Element (ns_ism13, "NoticeText") (TClass "ism13.NoticeText") Many true NoDefault;
    mkField "notice_type" Attribute (ns_ism13, "noticeType") (TEnum "ism13.CVEnumISMNoticeValues") Tokens false NoDefault;
    mkField "notice_reason" Attribute (ns_ism13, "noticeReason") (TPrim PStr) One false NoDefault;
    mkField "notice_date" Attribute (ns_ism13, "noticeDate") (TPrim PDate) One false NoDefault;
    mkField "unregistered_notice_type" Attribute (ns_ism13, "unregisteredNoticeType") (TPrim PStr) One false NoDefault;
    mkField "external_notice" Attribute (ns_ism13, "externalNotice") (TPrim PBool) One true (FixedBool true);
    mkField "classification" Attribute (ns_ism13, "classification") (TEnum "ism13.CVEnumISMClassificationAll") One false NoDefault;
    mkField "owner_producer" Attribute (ns_ism13, "ownerProducer") (TEnumOrStr "ism13.CVEnumISMCATOwnerProducerValuesvalue") Tokens false NoDefault;
    mkField "joint" Attribute (ns_ism13, "joint") (TPrim PBool) One false NoDefault;
    mkField "scicontrols" Attribute (ns_ism13, "SCIcontrols") (TEnumOrStr "ism13.CVEnumISMSCIControlsValuesvalue") Tokens false NoDefault;
    mkField "saridentifier" Attribute (ns_ism13, "SARIdentifier") (TPrim PStr) Tokens false NoDefault;
    mkField "atomic_energy_markings" Attribute (ns_ism13, "atomicEnergyMarkings") (TEnumOrStr "ism13.CVEnumISMatomicEnergyMarkingsValuesvalue") Tokens false NoDefault;
    mkField "dissemination_controls" Attribute (ns_ism13, "disseminationControls") (TEnum "ism13.CVEnumISMDissemValues") Tokens false NoDefault;
    mkField "display_only_to" Attribute (ns_ism13, "displayOnlyTo") (TEnumOrStr "ism13.CVEnumISMCATRelToValuesvalue") Tokens false NoDefault;
    mkField "fgisource_open" Attribute (ns_ism13, "FGIsourceOpen") (TEnumOrStr "ism13.CVEnumISMCATFGIOpenValuesvalue") Tokens false NoDefault;
    mkField "fgisource_protected" Attribute (ns_ism13, "FGIsourceProtected") (TEnumOrStr "ism13.CVEnumISMCATFGIProtectedValuesvalue") Tokens false NoDefault;
    mkField "releasable_to" Attribute (ns_ism13, "releasableTo") (TEnumOrStr "ism13.CVEnumISMCATRelToValuesvalue") Tokens false NoDefault;
    mkField "non_icmarkings" Attribute (ns_ism13, "nonICmarkings") (TEnumOrStr "ism13.CVEnumISMNonICValuesvalue") Tokens false NoDefault;
    mkField "classified_by" Attribute (ns_ism13, "classifiedBy") (TPrim PStr) One false NoDefault;
    mkField "compilation_reason" Attribute (ns_ism13, "compilationReason") (TPrim PStr) One false NoDefault;
    mkField "derivatively_classified_by" Attribute (ns_ism13, "derivativelyClassifiedBy") (TPrim PStr) One false NoDefault;
    mkField "classification_reason" Attribute (ns_ism13, "classificationReason") (TPrim PStr) One false NoDefault;
    mkField "non_uscontrols" Attribute (ns_ism13, "nonUSControls") (TEnum "ism13.CVEnumISMNonUSControlsValues") Tokens false NoDefault;
    mkField "derived_from" Attribute (ns_ism13, "derivedFrom") (TPrim PStr) One false NoDefault;
    mkField "declass_date" Attribute (ns_ism13, "declassDate") (TPrim PDate) One false NoDefault;
    mkField "declass_event" Attribute (ns_ism13, "declassEvent") (TPrim PStr) One false NoDefault;
    mkField "declass_exception" Attribute (ns_ism13, "declassException") (TEnum "ism13.CVEnumISM25X") One false NoDefault].

(** ic_ism.py:727-969. *)
Definition c_ism13_NoticeType : Class := mkClass "ism13.NoticeType" (ns_ism13, "NoticeType") [
    mkField "notice_text" Element (ns_ism13, "NoticeText") (TClass "ism13.NoticeText") Many true NoDefault;
    mkField "notice_type" Attribute (ns_ism13, "noticeType") (TEnum "ism13.CVEnumISMNoticeValues") Tokens false NoDefault;
    mkField "notice_reason" Attribute (ns_ism13, "noticeReason") (TPrim PStr) One false NoDefault;
    mkField "notice_date" Attribute (ns_ism13, "noticeDate") (TPrim PDate) One false NoDefault;
    mkField "unregistered_notice_type" Attribute (ns_ism13, "unregisteredNoticeType") (TPrim PStr) One false NoDefault;
    mkField "external_notice" Attribute (ns_ism13, "externalNotice") (TPrim PBool) One false NoDefault;
    mkField "classification" Attribute (ns_ism13, "classification") (TEnum "ism13.CVEnumISMClassificationAll") One false NoDefault;
    mkField "owner_producer" Attribute (ns_ism13, "ownerProducer") (TEnumOrStr "ism13.CVEnumISMCATOwnerProducerValuesvalue") Tokens false NoDefault;
    mkField "joint" Attribute (ns_ism13, "joint") (TPrim PBool) One false NoDefault;
    mkField "scicontrols" Attribute (ns_ism13, "SCIcontrols") (TEnumOrStr "ism13.CVEnumISMSCIControlsValuesvalue") Tokens false NoDefault;
    mkField "saridentifier" Attribute (ns_ism13, "SARIdentifier") (TPrim PStr) Tokens false NoDefault;
    mkField "atomic_energy_markings" Attribute (ns_ism13, "atomicEnergyMarkings") (TEnumOrStr "ism13.CVEnumISMatomicEnergyMarkingsValuesvalue") Tokens false NoDefault;
    mkField "dissemination_controls" Attribute (ns_ism13, "disseminationControls") (TEnum "ism13.CVEnumISMDissemValues") Tokens false NoDefault;
    mkField "display_only_to" Attribute (ns_ism13, "displayOnlyTo") (TEnumOrStr "ism13.CVEnumISMCATRelToValuesvalue") Tokens false NoDefault;
    mkField "fgisource_open" Attribute (ns_ism13, "FGIsourceOpen") (TEnumOrStr "ism13.CVEnumISMCATFGIOpenValuesvalue") Tokens false NoDefault;
    mkField "fgisource_protected" Attribute (ns_ism13, "FGIsourceProtected") (TEnumOrStr "ism13.CVEnumISMCATFGIProtectedValuesvalue") Tokens false NoDefault;
    mkField "releasable_to" Attribute (ns_ism13, "releasableTo") (TEnumOrStr "ism13.CVEnumISMCATRelToValuesvalue") Tokens false NoDefault;
    mkField "non_icmarkings" Attribute (ns_ism13, "nonICmarkings") (TEnumOrStr "ism13.CVEnumISMNonICValuesvalue") Tokens false NoDefault;
    mkField "classified_by" Attribute (ns_ism13, "classifiedBy") (TPrim PStr) One false NoDefault;
    mkField "compilation_reason" Attribute (ns_ism13, "compilationReason") (TPrim PStr) One false NoDefault;
    mkField "derivatively_classified_by" Attribute (ns_ism13, "derivativelyClassifiedBy") (TPrim PStr) One false NoDefault;
    mkField "classification_reason" Attribute (ns_ism13, "classificationReason") (TPrim PStr) One false NoDefault;
    mkField "non_uscontrols" Attribute (ns_ism13, "nonUSControls") (TEnum "ism13.CVEnumISMNonUSControlsValues") Tokens false NoDefault;
    mkField "derived_from" Attribute (ns_ism13, "derivedFrom") (TPrim PStr) One false NoDefault;
    mkField "declass_date" Attribute (ns_ism13, "declassDate") (TPrim PDate) One false NoDefault;
    mkField "declass_event" Attribute (ns_ism13, "declassEvent") (TPrim PStr) One false NoDefault;
    mkField "declass_exception" Attribute (ns_ism13, "declassException") (TEnum "ism13.CVEnumISM25X") One false NoDefault].

(** ic_ism.py:972-981. *)
Definition c_ism13_Notice : Class := mkClass "ism13.Notice" (ns_ism13, "Notice") [
    mkField "notice_text" Element (ns_ism13, "NoticeText") (TClass "ism13.NoticeText") Many true NoDefault;
    mkField "notice_type" Attribute (ns_ism13, "noticeType") (TEnum "ism13.CVEnumISMNoticeValues") Tokens false NoDefault;
    mkField "notice_reason" Attribute (ns_ism13, "noticeReason") (TPrim PStr) One false NoDefault;
    mkField "notice_date" Attribute (ns_ism13, "noticeDate") (TPrim PDate) One false NoDefault;
    mkField "unregistered_notice_type" Attribute (ns_ism13, "unregisteredNoticeType") (TPrim PStr) One false NoDefault;
    mkField "external_notice" Attribute (ns_ism13, "externalNotice") (TPrim PBool) One false NoDefault;
    mkField "classification" Attribute (ns_ism13, "classification") (TEnum "ism13.CVEnumISMClassificationAll") One false NoDefault;
    mkField "owner_producer" Attribute (ns_ism13, "ownerProducer") (TEnumOrStr "ism13.CVEnumISMCATOwnerProducerValuesvalue") Tokens false NoDefault;
    mkField "joint" Attribute (ns_ism13, "joint") (TPrim PBool) One false NoDefault;
    mkField "scicontrols" Attribute (ns_ism13, "SCIcontrols") (TEnumOrStr "ism13.CVEnumISMSCIControlsValuesvalue") Tokens false NoDefault;
    mkField "saridentifier" Attribute (ns_ism13, "SARIdentifier") (TPrim PStr) Tokens false NoDefault;
    mkField "atomic_energy_markings" Attribute (ns_ism13, "atomicEnergyMarkings") (TEnumOrStr "ism13.CVEnumISMatomicEnergyMarkingsValuesvalue") Tokens false NoDefault;
    mkField "dissemination_controls" Attribute (ns_ism13, "disseminationControls") (TEnum "ism13.CVEnumISMDissemValues") Tokens false NoDefault;
    mkField "display_only_to" Attribute (ns_ism13, "displayOnlyTo") (TEnumOrStr "ism13.CVEnumISMCATRelToValuesvalue") Tokens false NoDefault;
    mkField "fgisource_open" Attribute (ns_ism13, "FGIsourceOpen") (TEnumOrStr "ism13.CVEnumISMCATFGIOpenValuesvalue") Tokens false NoDefault;
    mkField "fgisource_protected" Attribute (ns_ism13, "FGIsourceProtected") (TEnumOrStr "ism13.CVEnumISMCATFGIProtectedValuesvalue") Tokens false NoDefault;
    mkField "releasable_to" Attribute (ns_ism13, "releasableTo") (TEnumOrStr "ism13.CVEnumISMCATRelToValuesvalue") Tokens false NoDefault;
    mkField "non_icmarkings" Attribute (ns_ism13, "nonICmarkings") (TEnumOrStr "ism13.CVEnumISMNonICValuesvalue") Tokens false NoDefault;
    mkField "classified_by" Attribute (ns_ism13, "classifiedBy") (TPrim PStr) One false NoDefault;
    mkField "compilation_reason" Attribute (ns_ism13, "compilationReason") (TPrim PStr) One false NoDefault;
    mkField "derivatively_classified_by" Attribute (ns_ism13, "derivativelyClassifiedBy") (TPrim PStr) One false NoDefault;
    mkField "classification_reason" Attribute (ns_ism13, "classificationReason") (TPrim PStr) One false NoDefault;
    mkField "non_uscontrols" Attribute (ns_ism13, "nonUSControls") (TEnum "ism13.CVEnumISMNonUSControlsValues") Tokens false NoDefault;
    mkField "derived_from" Attribute (ns_ism13, "derivedFrom") (TPrim PStr) One false NoDefault;
    mkField "declass_date" Attribute (ns_ism13, "declassDate") (TPrim PDate) One false NoDefault;
    mkField "declass_event" Attribute (ns_ism13, "declassEvent") (TPrim PStr) One false NoDefault;
    mkField "declass_exception" Attribute (ns_ism13, "declassException") (TEnum "ism13.CVEnumISM25X") One false NoDefault].

(** ic_ism.py:984-993. *)
Definition c_ism13_NoticeExternal : Class := mkClass "ism13.NoticeExternal" (ns_ism13, "NoticeExternal") [
    mkField "notice_text" Element (ns_ism13, "NoticeText") (TClass "ism13.NoticeText") Many true NoDefault;
    mkField "notice_type" Attribute (ns_ism13, "noticeType") (TEnum "ism13.CVEnumISMNoticeValues") Tokens false NoDefault;
    mkField "notice_reason" Attribute (ns_ism13, "noticeReason") (TPrim PStr) One false NoDefault;
    mkField "notice_date" Attribute (ns_ism13, "noticeDate") (TPrim PDate) One false NoDefault;
    mkField "unregistered_notice_type" Attribute (ns_ism13, "unregisteredNoticeType") (TPrim PStr) One false NoDefault;
    mkField "external_notice" Attribute (ns_ism13, "externalNotice") (TPrim PBool) One true (FixedBool true);
    mkField "classification" Attribute (ns_ism13, "classification") (TEnum "ism13.CVEnumISMClassificationAll") One false NoDefault;
    mkField "owner_producer" Attribute (ns_ism13, "ownerProducer") (TEnumOrStr "ism13.CVEnumISMCATOwnerProducerValuesvalue") Tokens false NoDefault;
    mkField "joint" Attribute (ns_ism13, "joint") (TPrim PBool) One false NoDefault;
    mkField "scicontrols" Attribute (ns_ism13, "SCIcontrols") (TEnumOrStr "ism13.CVEnumISMSCIControlsValuesvalue") Tokens false NoDefault;
    mkField "saridentifier" Attribute (ns_ism13, "SARIdentifier") (TPrim PStr) Tokens false NoDefault;
    mkField "atomic_energy_markings" Attribute (ns_ism13, "atomicEnergyMarkings") (TEnumOrStr "ism13.CVEnumISMatomicEnergyMarkingsValuesvalue") Tokens false NoDefault;
    mkField "dissemination_controls" Attribute (ns_ism13, "disseminationControls") (TEnum "ism13.CVEnumISMDissemValues") Tokens false NoDefault;
    mkField "display_only_to" Attribute (ns_ism13, "displayOnlyTo") (TEnumOrStr "ism13.CVEnumISMCATRelToValuesvalue") Tokens false NoDefault;
    mkField "fgisource_open" Attribute (ns_ism13, "FGIsourceOpen") (TEnumOrStr "ism13.CVEnumISMCATFGIOpenValuesvalue") Tokens false NoDefault;
    mkField "fgisource_protected" Attribute (ns_ism13, "FGIsourceProtected") (TEnumOrStr "ism13.CVEnumISMCATFGIProtectedValuesvalue") Tokens false NoDefault;
    mkField "releasable_to" Attribute (ns_ism13, "releasableTo") (TEnumOrStr "ism13.CVEnumISMCATRelToValuesvalue") Tokens false NoDefault;
    mkField "non_icmarkings" Attribute (ns_ism13, "nonICmarkings") (TEnumOrStr "ism13.CVEnumISMNonICValuesvalue") Tokens false NoDefault;
    mkField "classified_by" Attribute (ns_ism13, "classifiedBy") (TPrim PStr) One false NoDefault;
    mkField "compilation_reason" Attribute (ns_ism13, "compilationReason") (TPrim PStr) One false NoDefault;
    mkField "derivatively_classified_by" Attribute (ns_ism13, "derivativelyClassifiedBy") (TPrim PStr) One false NoDefault;
    mkField "classification_reason" Attribute (ns_ism13, "classificationReason") (TPrim PStr) One false NoDefault;
    mkField "non_uscontrols" Attribute (ns_ism13, "nonUSControls") (TEnum "ism13.CVEnumISMNonUSControlsValues") Tokens false NoDefault;
    mkField "derived_from" Attribute (ns_ism13, "derivedFrom") (TPrim PStr) One false NoDefault;
    mkField "declass_date" Attribute (ns_ism13, "declassDate") (TPrim PDate) One false NoDefault;
    mkField "declass_event" Attribute (ns_ism13, "declassEvent") (TPrim PStr) One false NoDefault;
    mkField "declass_exception" Attribute (ns_ism13, "declassException") (TEnum "ism13.CVEnumISM25X") One false NoDefault].

(** ic_ism.py:996-1205. *)
Definition c_ism13_NoticeExternalListType : Class := mkClass "ism13.NoticeExternalListType" (ns_ism13, "NoticeExternalListType") [
    mkField "notice_external" Element (ns_ism13, "NoticeExternal") (TClass "ism13.NoticeExternal") Many true NoDefault;
    mkField "classification" Attribute (ns_ism13, "classification") (TEnum "ism13.CVEnumISMClassificationAll") One true NoDefault;
    mkField "owner_producer" Attribute (ns_ism13, "ownerProducer") (TEnumOrStr "ism13.CVEnumISMCATOwnerProducerValuesvalue") Tokens true NoDefault;
    mkField "joint" Attribute (ns_ism13, "joint") (TPrim PBool) One false NoDefault;
    mkField "scicontrols" Attribute (ns_ism13, "SCIcontrols") (TEnumOrStr "ism13.CVEnumISMSCIControlsValuesvalue") Tokens false NoDefault;
    mkField "saridentifier" Attribute (ns_ism13, "SARIdentifier") (TPrim PStr) Tokens false NoDefault;
    mkField "atomic_energy_markings" Attribute (ns_ism13, "atomicEnergyMarkings") (TEnumOrStr "ism13.CVEnumISMatomicEnergyMarkingsValuesvalue") Tokens false NoDefault;
    mkField "dissemination_controls" Attribute (ns_ism13, "disseminationControls") (TEnum "ism13.CVEnumISMDissemValues") Tokens false NoDefault;
    mkField "display_only_to" Attribute (ns_ism13, "displayOnlyTo") (TEnumOrStr "ism13.CVEnumISMCATRelToValuesvalue") Tokens false NoDefault;
    mkField "fgisource_open" Attribute (ns_ism13, "FGIsourceOpen") (TEnumOrStr "ism13.CVEnumISMCATFGIOpenValuesvalue") Tokens false NoDefault;
    mkField "fgisource_protected" Attribute (ns_ism13, "FGIsourceProtected") (TEnumOrStr "ism13.CVEnumISMCATFGIProtectedValuesvalue") Tokens false NoDefault;
    mkField "releasable_to" Attribute (ns_ism13, "releasableTo") (TEnumOrStr "ism13.CVEnumISMCATRelToValuesvalue") Tokens false NoDefault;
    mkField "non_icmarkings" Attribute (ns_ism13, "nonICmarkings") (TEnumOrStr "ism13.CVEnumISMNonICValuesvalue") Tokens false NoDefault;
    mkField "classified_by" Attribute (ns_ism13, "classifiedBy") (TPrim PStr) One false NoDefault;
    mkField "compilation_reason" Attribute (ns_ism13, "compilationReason") (TPrim PStr) One false NoDefault;
    mkField "derivatively_classified_by" Attribute (ns_ism13, "derivativelyClassifiedBy") (TPrim PStr) One false NoDefault;
    mkField "classification_reason" Attribute (ns_ism13, "classificationReason") (TPrim PStr) One false NoDefault;
    mkField "non_uscontrols" Attribute (ns_ism13, "nonUSControls") (TEnum "ism13.CVEnumISMNonUSControlsValues") Tokens false NoDefault;
    mkField "derived_from" Attribute (ns_ism13, "derivedFrom") (TPrim PStr) One false NoDefault;
    mkField "declass_date" Attribute (ns_ism13, "declassDate") (TPrim PDate) One false NoDefault;
    mkField "declass_event" Attribute (ns_ism13, "declassEvent") (TPrim PStr) One false NoDefault;
    mkField "declass_exception" Attribute (ns_ism13, "declassException") (TEnum "ism13.CVEnumISM25X") One false NoDefault].

(** ic_ism.py:1208-1417. *)
Definition c_ism13_NoticeListType : Class := mkClass "ism13.NoticeListType" (ns_ism13, "NoticeListType") [
    mkField "notice" Element (ns_ism13, "Notice") (TClass "ism13.Notice") Many true NoDefault;
    mkField "classification" Attribute (ns_ism13, "classification") (TEnum "ism13.CVEnumISMClassificationAll") One true NoDefault;
    mkField "owner_producer" Attribute (ns_ism13, "ownerProducer") (TEnumOrStr "ism13.CVEnumISMCATOwnerProducerValuesvalue") Tokens true NoDefault;
    mkField "joint" Attribute (ns_ism13, "joint") (TPrim PBool) One false NoDefault;
    mkField "scicontrols" Attribute (ns_ism13, "SCIcontrols") (TEnumOrStr "ism13.CVEnumISMSCIControlsValuesvalue") Tokens false NoDefault;
    mkField "saridentifier" Attribute (ns_ism13, "SARIdentifier") (TPrim PStr) Tokens false NoDefault;
    mkField "atomic_energy_markings" Attribute (ns_ism13, "atomicEnergyMarkings") (TEnumOrStr "ism13.CVEnumISMatomicEnergyMarkingsValuesvalue") Tokens false NoDefault;
    mkField "dissemination_controls" Attribute (ns_ism13, "disseminationControls") (TEnum "ism13.CVEnumISMDissemValues") Tokens false NoDefault;
    mkField "display_only_to" Attribute (ns_ism13, "displayOnlyTo") (TEnumOrStr "ism13.CVEnumISMCATRelToValuesvalue") Tokens false NoDefault;
    mkField "fgisource_open" Attribute (ns_ism13, "FGIsourceOpen") (TEnumOrStr "ism13.CVEnumISMCATFGIOpenValuesvalue") Tokens false NoDefault;
    mkField "fgisource_protected" Attribute (ns_ism13, "FGIsourceProtected") (TEnumOrStr "ism13.CVEnumISMCATFGIProtectedValuesvalue") Tokens false NoDefault;
    mkField "releasable_to" Attribute (ns_ism13, "releasableTo") (TEnumOrStr "ism13.CVEnumISMCATRelToValuesvalue") Tokens false NoDefault;
    mkField "non_icmarkings" Attribute (ns_ism13, "nonICmarkings") (TEnumOrStr "ism13.CVEnumISMNonICValuesvalue") Tokens false NoDefault;
    mkField "classified_by" Attribute (ns_ism13, "classifiedBy") (TPrim PStr) One false NoDefault;
    mkField "compilation_reason" Attribute (ns_ism13, "compilationReason") (TPrim PStr) One false NoDefault;
    mkField "derivatively_classified_by" Attribute (ns_ism13, "derivativelyClassifiedBy") (TPrim PStr) One false NoDefault;
    mkField "classification_reason" Attribute (ns_ism13, "classificationReason") (TPrim PStr) One false NoDefault;
    mkField "non_uscontrols" Attribute (ns_ism13, "nonUSControls") (TEnum "ism13.CVEnumISMNonUSControlsValues") Tokens false NoDefault;
    mkField "derived_from" Attribute (ns_ism13, "derivedFrom") (TPrim PStr) One false NoDefault;
    mkField "declass_date" Attribute (ns_ism13, "declassDate") (TPrim PDate) One false NoDefault;
    mkField "declass_event" Attribute (ns_ism13, "declassEvent") (TPrim PStr) One false NoDefault;
    mkField "declass_exception" Attribute (ns_ism13, "declassException") (TEnum "ism13.CVEnumISM25X") One false NoDefault].

(** ic_ism.py:1420-1423. *)
Definition c_ism13_NoticeExternalList : Class := mkClass "ism13.NoticeExternalList" (ns_ism13, "NoticeExternalList") [
    mkField "notice_external" Element (ns_ism13, "NoticeExternal") (TClass "ism13.NoticeExternal") Many true NoDefault;
    mkField "classification" Attribute (ns_ism13, "classification") (TEnum "ism13.CVEnumISMClassificationAll") One true NoDefault;
    mkField "owner_producer" Attribute (ns_ism13, "ownerProducer") (TEnumOrStr "ism13.CVEnumISMCATOwnerProducerValuesvalue") Tokens true NoDefault;
    mkField "joint" Attribute (ns_ism13, "joint") (TPrim PBool) One false NoDefault;
    mkField "scicontrols" Attribute (ns_ism13, "SCIcontrols") (TEnumOrStr "ism13.CVEnumISMSCIControlsValuesvalue") Tokens false NoDefault;
    mkField "saridentifier" Attribute (ns_ism13, "SARIdentifier") (TPrim PStr) Tokens false NoDefault;
    mkField "atomic_energy_markings" Attribute (ns_ism13, "atomicEnergyMarkings") (TEnumOrStr "ism13.CVEnumISMatomicEnergyMarkingsValuesvalue") Tokens false NoDefault;
    mkField "dissemination_controls" Attribute (ns_ism13, "disseminationControls") (TEnum "ism13.CVEnumISMDissemValues") Tokens false NoDefault;
    mkField "display_only_to" Attribute (ns_ism13, "displayOnlyTo") (TEnumOrStr "ism13.CVEnumISMCATRelToValuesvalue") Tokens false NoDefault;
    mkField "fgisource_open" Attribute (ns_ism13, "FGIsourceOpen") (TEnumOrStr "ism13.CVEnumISMCATFGIOpenValuesvalue") Tokens false NoDefault;
    mkField "fgisource_protected" Attribute (ns_ism13, "FGIsourceProtected") (TEnumOrStr "ism13.CVEnumISMCATFGIProtectedValuesvalue") Tokens false NoDefault;
    mkField "releasable_to" Attribute (ns_ism13, "releasableTo") (TEnumOrStr "ism13.CVEnumISMCATRelToValuesvalue") Tokens false NoDefault;
    mkField "non_icmarkings" Attribute (ns_ism13, "nonICmarkings") (TEnumOrStr "ism13.CVEnumISMNonICValuesvalue") Tokens false NoDefault;
    mkField "classified_by" Attribute (ns_ism13, "classifiedBy") (TPrim PStr) One false NoDefault;
    mkField "compilation_reason" Attribute (ns_ism13, "compilationReason") (TPrim PStr) One false NoDefault;
    mkField "derivatively_classified_by" Attribute (ns_ism13, "derivativelyClassifiedBy") (TPrim PStr) One false NoDefault;
    mkField "classification_reason" Attribute (ns_ism13, "classificationReason") (TPrim PStr) One false NoDefault;
    mkField "non_uscontrols" Attribute (ns_ism13, "nonUSControls") (TEnum "ism13.CVEnumISMNonUSControlsValues") Tokens false NoDefault;
    mkField "derived_from" Attribute (ns_ism13, "derivedFrom") (TPrim PStr) One false NoDefault;
    mkField "declass_date" Attribute (ns_ism13, "declassDate") (TPrim PDate) One false NoDefault;
    mkField "declass_event" Attribute (ns_ism13, "declassEvent") (TPrim PStr) One false NoDefault;
    mkField "declass_exception" Attribute (ns_ism13, "declassException") (TEnum "ism13.CVEnumISM25X") One false NoDefault].

(** ic_ism.py:1426-1429. *)
Definition c_ism13_NoticeList : Class := mkClass "ism13.NoticeList" (ns_ism13, "NoticeList") [
    mkField "notice" Element (ns_ism13, "Notice") (TClass "ism13.Notice") Many true NoDefault;
    mkField "classification" Attribute (ns_ism13, "classification") (TEnum "ism13.CVEnumISMClassificationAll") One true NoDefault;
    mkField "owner_producer" Attribute (ns_ism13, "ownerProducer") (TEnumOrStr "ism13.CVEnumISMCATOwnerProducerValuesvalue") Tokens true NoDefault;
    mkField "joint" Attribute (ns_ism13, "joint") (TPrim PBool) One false NoDefault;
    mkField "scicontrols" Attribute (ns_ism13, "SCIcontrols") (TEnumOrStr "ism13.CVEnumISMSCIControlsValuesvalue") Tokens false NoDefault;
    mkField "saridentifier" Attribute (ns_ism13, "SARIdentifier") (TPrim PStr) Tokens false NoDefault;
    mkField "atomic_energy_markings" Attribute (ns_ism13, "atomicEnergyMarkings") (TEnumOrStr "ism13.CVEnumISMatomicEnergyMarkingsValuesvalue") Tokens false NoDefault;
    mkField "dissemination_controls" Attribute (ns_ism13, "disseminationControls") (TEnum "ism13.CVEnumISMDissemValues") Tokens false NoDefault;
    mkField "display_only_to" Attribute (ns_ism13, "displayOnlyTo") (TEnumOrStr "ism13.CVEnumISMCATRelToValuesvalue") Tokens false NoDefault;
    mkField "fgisource_open" Attribute (ns_ism13, "FGIsourceOpen") (TEnumOrStr "ism13.CVEnumISMCATFGIOpenValuesvalue") Tokens false NoDefault;
    mkField "fgisource_protected" Attribute (ns_ism13, "FGIsourceProtected") (TEnumOrStr "ism13.CVEnumISMCATFGIProtectedValuesvalue") Tokens false NoDefault;
    mkField "releasable_to" Attribute (ns_ism13, "releasableTo") (TEnumOrStr "ism13.CVEnumISMCATRelToValuesvalue") Tokens false NoDefault;
    mkField "non_icmarkings" Attribute (ns_ism13, "nonICmarkings") (TEnumOrStr "ism13.CVEnumISMNonICValuesvalue") Tokens false NoDefault;
    mkField "classified_by" Attribute (ns_ism13, "classifiedBy") (TPrim PStr) One false NoDefault;
    mkField "compilation_reason" Attribute (ns_ism13, "compilationReason") (TPrim PStr) One false NoDefault;
    mkField "derivatively_classified_by" Attribute (ns_ism13, "derivativelyClassifiedBy") (TPrim PStr) One false NoDefault;
    mkField "classification_reason" Attribute (ns_ism13, "classificationReason") (TPrim PStr) One false NoDefault;
    mkField "non_uscontrols" Attribute (ns_ism13, "nonUSControls") (TEnum "ism13.CVEnumISMNonUSControlsValues") Tokens false NoDefault;
    mkField "derived_from" Attribute (ns_ism13, "derivedFrom") (TPrim PStr) One false NoDefault;
    mkField "declass_date" Attribute (ns_ism13, "declassDate") (TPrim PDate) One false NoDefault;
    mkField "declass_event" Attribute (ns_ism13, "declassEvent") (TPrim PStr) One false NoDefault;
    mkField "declass_exception" Attribute (ns_ism13, "declassException") (TEnum "ism13.CVEnumISM25X") One false NoDefault].

Definition common_classes : list Class := [
  c_common10_AngleMagnitudeType;
  c_common10_AngleZeroToExclusive360MagnitudeType;
  c_common10_ArrayDoubleType;
  c_common10_ComplexType;
  c_common10_ImageCreationType;
  c_common10_LLHType;
  c_common10_LatLonCornerType;
  c_common10_LatLonHAECornerType;
  c_common10_LatLonRestrictionType;
  c_common10_LatLonType;
  c_common10_LatLonVertexType;
  c_common10_LineType;
  c_common10_LineType_Endpoint;
  c_common10_ParameterType;
  c_common10_PolyCoef1DType;
  c_common10_PolyCoef2DType;
  c_common10_PolygonType;
  c_common10_PolygonType_Vertex;
  c_common10_RangeAzimuthType;
  c_common10_RowColDoubleType;
  c_common10_RowColIntType;
  c_common10_RowColVertexType;
  c_common10_XYZType;
  c_common10_ErrorStatisticsType;
  c_common10_ErrorStatisticsType_CompositeSCP;
  c_common10_ErrorStatisticsType_Components;
  c_common10_ErrorStatisticsType_Components_PosVelErr;
  c_common10_ErrorStatisticsType_Components_PosVelErr_CorrCoefs;
  c_common10_ErrorStatisticsType_Components_PosVelErr_PositionDecorr;
  c_common10_ErrorStatisticsType_Components_RadarSensor;
  c_common10_ErrorStatisticsType_Components_RadarSensor_RangeBiasDecorr;
  c_common10_ErrorStatisticsType_Components_TropoError;
  c_common10_ErrorStatisticsType_Components_TropoError_TropoRangeDecorr;
  c_common10_ErrorStatisticsType_Components_IonoError;
  c_common10_ErrorStatisticsType_Components_IonoError_IonoRangeVertDecorr;
  c_common10_ErrorStatisticsType_Unmodeled;
  c_common10_ErrorStatisticsType_Unmodeled_UnmodeledDecorr;
  c_common10_ErrorStatisticsType_Unmodeled_UnmodeledDecorr_Xrow;
  c_common10_ErrorStatisticsType_Unmodeled_UnmodeledDecorr_Ycol;
  c_common10_ErrorStatisticsType_AdditionalParms;
  c_common10_GeoInfoType;
  c_common10_LLHCornerStringType;
  c_common10_LatLonCornerStringType;
  c_common10_MatchInfoType;
  c_common10_MatchInfoType_MatchType;
  c_common10_MatchInfoType_MatchType_MatchCollection;
  c_common10_Poly1DType;
  c_common10_Poly2DType;
  c_common10_RadarModeType;
  c_common10_ReferencePointType;
  c_common10_ValidDataType;
  c_common10_XYZAttributeType;
  c_common10_CollectionInfoType;
  c_common10_GeoInfo;
  c_common10_RadiometricType;
  c_common10_RadiometricType_NoiseLevel;
  c_common10_XYZPolyType;
  c_common10_XYZPolyAttributeType;
  c_common01_AngleMagnitudeType;
  c_common01_ArrayDoubleType;
  c_common01_ComplexType;
  c_common01_ImageCreationType;
  c_common01_LLHType;
  c_common01_LatLonCornerType;
  c_common01_LatLonHAECornerType;
  c_common01_LatLonType;
  c_common01_LatLonVertexType;
  c_common01_LineType;
  c_common01_LineType_Endpoint;
  c_common01_ParameterType;
  c_common01_PolyCoef1DType;
  c_common01_PolyCoef2DType;
  c_common01_PolygonType;
  c_common01_PolygonType_Vertex;
  c_common01_RangeAzimuthType;
  c_common01_RowColDoubleType;
  c_common01_RowColIntType;
  c_common01_RowColVertexType;
  c_common01_XYZType;
  c_common01_ErrorStatisticsType;
  c_common01_ErrorStatisticsType_CompositeSCP;
  c_common01_ErrorStatisticsType_CompositeSCP_RgAzErr;
  c_common01_ErrorStatisticsType_CompositeSCP_RowColErr;
  c_common01_ErrorStatisticsType_Components;
  c_common01_ErrorStatisticsType_Components_PosVelErr;
  c_common01_ErrorStatisticsType_Components_PosVelErr_CorrCoefs;
  c_common01_ErrorStatisticsType_Components_PosVelErr_PositionDecorr;
  c_common01_ErrorStatisticsType_Components_RadarSensor;
  c_common01_ErrorStatisticsType_Components_RadarSensor_RangeBiasDecorr;
  c_common01_ErrorStatisticsType_Components_TropoError;
  c_common01_ErrorStatisticsType_Components_TropoError_TropoRangeDecorr;
  c_common01_ErrorStatisticsType_Components_IonoError;
  c_common01_ErrorStatisticsType_Components_IonoError_IonoRangeVertDecorr;
  c_common01_ErrorStatisticsType_AdditionalParms;
  c_common01_LLHCornerStringType;
  c_common01_LatLonCornerStringType;
  c_common01_Poly1DType;
  c_common01_Poly2DType;
  c_common01_RadarModeType;
  c_common01_ReferencePointType;
  c_common01_ValidDataType;
  c_common01_XYZAttributeType;
  c_common01_CollectionInfoType;
  c_common01_RadiometricType;
  c_common01_XYZPolyType;
  c_common01_XYZPolyAttributeType;
  c_sfa_GeometryType;
  c_sfa_ParameterType;
  c_sfa_PrimeMeridianType;
  c_sfa_ProjectionType;
  c_sfa_SpheriodType;
  c_sfa_UNITType;
  c_sfa_CurveType;
  c_sfa_DatumType;
  c_sfa_GeometryCollectionType;
  c_sfa_PointType;
  c_sfa_SurfaceType;
  c_sfa_GeocentricCoordinateSystemType;
  c_sfa_GeographicCoordinateSystemType;
  c_sfa_LineStringType;
  c_sfa_MultiCurveType;
  c_sfa_MultiPointType;
  c_sfa_MultiSurfaceType;
  c_sfa_LineType;
  c_sfa_LinearRingType;
  c_sfa_ProjectedCoordinateSystemType;
  c_sfa_AbstractReferenceSystemType;
  c_sfa_MultiLineStringType;
  c_sfa_PolygonType;
  c_sfa_MultiPolygonType;
  c_sfa_PolyhedralSurfaceType;
  c_sfa_ReferenceSystemType;
  c_sfa_TriangleType;
  c_sfa_TriangulatedIrregularNetworkType;
  c_ism13_LongStringWithSecurityType;
  c_ism13_ShortStringWithSecurityType;
  c_ism13_NoticeText;
  c_ism13_NoticeBaseType;
  c_ism13_NoticeExternalType;
  c_ism13_NoticeType;
  c_ism13_Notice;
  c_ism13_NoticeExternal;
  c_ism13_NoticeExternalListType;
  c_ism13_NoticeListType;
  c_ism13_NoticeExternalList;
  c_ism13_NoticeList].
