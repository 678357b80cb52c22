(** The dataclasses of src/aws/osml/formats/sicd/models/sicd_v1_2_1.py and sicd_v1_3_0.py; a table made by a script from the Python source.
    Inherited fields come first, as in a dataclass; an element field without "namespace" has the namespace of the Meta class. *)
Require Import ZArith String List.
Require Import Verif.SchemaModel Verif.SchemaEnums.
Import ListNotations.
Local Open Scope string_scope.

(** sicd_v1_2_1.py:17-31. *)
Definition c_sicd121_ArrayDouble : Class := mkClass "sicd121.ArrayDouble" (ns_sicd121, "ArrayDouble") [
    mkField "value" Content ("", "") (TPrim PFloat) One true NoDefault;
    mkField "index" Attribute ("", "index") (TPrim PInt) One true NoDefault].

(** sicd_v1_2_1.py:39-58. *)
Definition c_sicd121_ComplexType : Class := mkClass "sicd121.ComplexType" (ns_sicd121, "ComplexType") [
    mkField "real" Element (ns_sicd121, "Real") (TPrim PFloat) One true NoDefault;
    mkField "imag" Element (ns_sicd121, "Imag") (TPrim PFloat) One true NoDefault].

(** sicd_v1_2_1.py:94-113. *)
Definition c_sicd121_ErrorDecorrFuncType : Class := mkClass "sicd121.ErrorDecorrFuncType" (ns_sicd121, "ErrorDecorrFuncType") [
    mkField "corr_coef_zero" Element (ns_sicd121, "CorrCoefZero") (TPrim PFloat) One true NoDefault;
    mkField "decorr_rate" Element (ns_sicd121, "DecorrRate") (TPrim PFloat) One true NoDefault].

(** sicd_v1_2_1.py:134-167. *)
Definition c_sicd121_ImageCreationType : Class := mkClass "sicd121.ImageCreationType" (ns_sicd121, "ImageCreationType") [
    mkField "application" Element (ns_sicd121, "Application") (TPrim PStr) One false NoDefault;
    mkField "date_time" Element (ns_sicd121, "DateTime") (TPrim PDateTime) One false NoDefault;
    mkField "site" Element (ns_sicd121, "Site") (TPrim PStr) One false NoDefault;
    mkField "profile" Element (ns_sicd121, "Profile") (TPrim PStr) One false NoDefault].

(** sicd_v1_2_1.py:206-238. *)
Definition c_sicd121_LatLonHAERestrictionType : Class := mkClass "sicd121.LatLonHAERestrictionType" (ns_sicd121, "LatLonHAERestrictionType") [
    mkField "lat" Element (ns_sicd121, "Lat") (TPrim PFloat) One true NoDefault;
    mkField "lon" Element (ns_sicd121, "Lon") (TPrim PFloat) One true NoDefault;
    mkField "hae" Element (ns_sicd121, "HAE") (TPrim PFloat) One true NoDefault].

(** sicd_v1_2_1.py:241-269. *)
Definition c_sicd121_LatLonHAEType : Class := mkClass "sicd121.LatLonHAEType" (ns_sicd121, "LatLonHAEType") [
    mkField "lat" Element (ns_sicd121, "Lat") (TPrim PFloat) One true NoDefault;
    mkField "lon" Element (ns_sicd121, "Lon") (TPrim PFloat) One true NoDefault;
    mkField "hae" Element (ns_sicd121, "HAE") (TPrim PFloat) One true NoDefault].

(** sicd_v1_2_1.py:272-295. *)
Definition c_sicd121_LatLonRestrictionType : Class := mkClass "sicd121.LatLonRestrictionType" (ns_sicd121, "LatLonRestrictionType") [
    mkField "lat" Element (ns_sicd121, "Lat") (TPrim PFloat) One true NoDefault;
    mkField "lon" Element (ns_sicd121, "Lon") (TPrim PFloat) One true NoDefault].

(** sicd_v1_2_1.py:298-317. *)
Definition c_sicd121_LatLonType : Class := mkClass "sicd121.LatLonType" (ns_sicd121, "LatLonType") [
    mkField "lat" Element (ns_sicd121, "Lat") (TPrim PFloat) One true NoDefault;
    mkField "lon" Element (ns_sicd121, "Lon") (TPrim PFloat) One true NoDefault].

(** sicd_v1_2_1.py:333-347. *)
Definition c_sicd121_ParameterType : Class := mkClass "sicd121.ParameterType" (ns_sicd121, "ParameterType") [
    mkField "value" Content ("", "") (TPrim PStr) One true EmptyString;
    mkField "name" Attribute ("", "name") (TPrim PStr) One true NoDefault].

(** sicd_v1_2_1.py:368-382. *)
Definition c_sicd121_PolyCoef1DType : Class := mkClass "sicd121.PolyCoef1DType" (ns_sicd121, "PolyCoef1DType") [
    mkField "value" Content ("", "") (TPrim PFloat) One true NoDefault;
    mkField "exponent1" Attribute ("", "exponent1") (TPrim PInt) One true NoDefault].

(** sicd_v1_2_1.py:385-406. *)
Definition c_sicd121_PolyCoef2DType : Class := mkClass "sicd121.PolyCoef2DType" (ns_sicd121, "PolyCoef2DType") [
    mkField "value" Content ("", "") (TPrim PFloat) One true NoDefault;
    mkField "exponent1" Attribute ("", "exponent1") (TPrim PInt) One true NoDefault;
    mkField "exponent2" Attribute ("", "exponent2") (TPrim PInt) One true NoDefault].

(** sicd_v1_2_1.py:433-452. *)
Definition c_sicd121_RowColType : Class := mkClass "sicd121.RowColType" (ns_sicd121, "RowColType") [
    mkField "row" Element (ns_sicd121, "Row") (TPrim PInt) One true NoDefault;
    mkField "col" Element (ns_sicd121, "Col") (TPrim PInt) One true NoDefault].

(** sicd_v1_2_1.py:465-493. *)
Definition c_sicd121_XYZType : Class := mkClass "sicd121.XYZType" (ns_sicd121, "XYZType") [
    mkField "x" Element (ns_sicd121, "X") (TPrim PFloat) One true NoDefault;
    mkField "y" Element (ns_sicd121, "Y") (TPrim PFloat) One true NoDefault;
    mkField "z" Element (ns_sicd121, "Z") (TPrim PFloat) One true NoDefault].

(** sicd_v1_2_1.py:496-585. *)
Definition c_sicd121_CollectionInfoType : Class := mkClass "sicd121.CollectionInfoType" (ns_sicd121, "CollectionInfoType") [
    mkField "collector_name" Element (ns_sicd121, "CollectorName") (TPrim PStr) One true NoDefault;
    mkField "illuminator_name" Element (ns_sicd121, "IlluminatorName") (TPrim PStr) One false NoDefault;
    mkField "core_name" Element (ns_sicd121, "CoreName") (TPrim PStr) One true NoDefault;
    mkField "collect_type" Element (ns_sicd121, "CollectType") (TEnum "sicd121.CollectType") One false NoDefault;
    mkField "radar_mode" Element (ns_sicd121, "RadarMode") (TClass "sicd121.CollectionInfoType.RadarMode") One true NoDefault;
    mkField "classification" Element (ns_sicd121, "Classification") (TPrim PStr) One true NoDefault;
    mkField "country_code" Element (ns_sicd121, "CountryCode") (TPrim PStr) Many false NoDefault;
    mkField "parameter" Element (ns_sicd121, "Parameter") (TClass "sicd121.ParameterType") Many false NoDefault].

(** sicd_v1_2_1.py:567-585. *)
Definition c_sicd121_CollectionInfoType_RadarMode : Class := mkClass "sicd121.CollectionInfoType.RadarMode" (ns_sicd121, "RadarMode") [
    mkField "mode_type" Element (ns_sicd121, "ModeType") (TEnum "sicd121.RadarModeType") One true NoDefault;
    mkField "mode_id" Element (ns_sicd121, "ModeID") (TPrim PStr) One false NoDefault].

(** sicd_v1_2_1.py:588-1011. *)
Definition c_sicd121_ErrorStatisticsType : Class := mkClass "sicd121.ErrorStatisticsType" (ns_sicd121, "ErrorStatisticsType") [
    mkField "composite_scp" Element (ns_sicd121, "CompositeSCP") (TClass "sicd121.ErrorStatisticsType.CompositeSCP") One false NoDefault;
    mkField "components" Element (ns_sicd121, "Components") (TClass "sicd121.ErrorStatisticsType.Components") One false NoDefault;
    mkField "additional_parms" Element (ns_sicd121, "AdditionalParms") (TClass "sicd121.ErrorStatisticsType.AdditionalParms") One false NoDefault].

(** sicd_v1_2_1.py:615-643. *)
Definition c_sicd121_ErrorStatisticsType_CompositeSCP : Class := mkClass "sicd121.ErrorStatisticsType.CompositeSCP" (ns_sicd121, "CompositeSCP") [
    mkField "rg" Element (ns_sicd121, "Rg") (TPrim PFloat) One true NoDefault;
    mkField "az" Element (ns_sicd121, "Az") (TPrim PFloat) One true NoDefault;
    mkField "rg_az" Element (ns_sicd121, "RgAz") (TPrim PFloat) One true NoDefault].

(** sicd_v1_2_1.py:645-999. *)
Definition c_sicd121_ErrorStatisticsType_Components : Class := mkClass "sicd121.ErrorStatisticsType.Components" (ns_sicd121, "Components") [
    mkField "pos_vel_err" Element (ns_sicd121, "PosVelErr") (TClass "sicd121.ErrorStatisticsType.Components.PosVelErr") One true NoDefault;
    mkField "radar_sensor" Element (ns_sicd121, "RadarSensor") (TClass "sicd121.ErrorStatisticsType.Components.RadarSensor") One true NoDefault;
    mkField "tropo_error" Element (ns_sicd121, "TropoError") (TClass "sicd121.ErrorStatisticsType.Components.TropoError") One false NoDefault;
    mkField "iono_error" Element (ns_sicd121, "IonoError") (TClass "sicd121.ErrorStatisticsType.Components.IonoError") One false NoDefault].

(** sicd_v1_2_1.py:682-900. *)
Definition c_sicd121_ErrorStatisticsType_Components_PosVelErr : Class := mkClass "sicd121.ErrorStatisticsType.Components.PosVelErr" (ns_sicd121, "PosVelErr") [
    mkField "frame" Element (ns_sicd121, "Frame") (TEnum "sicd121.PosVelErrFrame") One true NoDefault;
    mkField "p1" Element (ns_sicd121, "P1") (TPrim PFloat) One true NoDefault;
    mkField "p2" Element (ns_sicd121, "P2") (TPrim PFloat) One true NoDefault;
    mkField "p3" Element (ns_sicd121, "P3") (TPrim PFloat) One true NoDefault;
    mkField "v1" Element (ns_sicd121, "V1") (TPrim PFloat) One true NoDefault;
    mkField "v2" Element (ns_sicd121, "V2") (TPrim PFloat) One true NoDefault;
    mkField "v3" Element (ns_sicd121, "V3") (TPrim PFloat) One true NoDefault;
    mkField "corr_coefs" Element (ns_sicd121, "CorrCoefs") (TClass "sicd121.ErrorStatisticsType.Components.PosVelErr.CorrCoefs") One false NoDefault;
    mkField "position_decorr" Element (ns_sicd121, "PositionDecorr") (TClass "sicd121.ErrorDecorrFuncType") One false NoDefault].

(** sicd_v1_2_1.py:764-900. *)
Definition c_sicd121_ErrorStatisticsType_Components_PosVelErr_CorrCoefs : Class := mkClass "sicd121.ErrorStatisticsType.Components.PosVelErr.CorrCoefs" (ns_sicd121, "CorrCoefs") [
    mkField "p1_p2" Element (ns_sicd121, "P1P2") (TPrim PFloat) One true NoDefault;
    mkField "p1_p3" Element (ns_sicd121, "P1P3") (TPrim PFloat) One true NoDefault;
    mkField "p1_v1" Element (ns_sicd121, "P1V1") (TPrim PFloat) One true NoDefault;
    mkField "p1_v2" Element (ns_sicd121, "P1V2") (TPrim PFloat) One true NoDefault;
    mkField "p1_v3" Element (ns_sicd121, "P1V3") (TPrim PFloat) One true NoDefault;
    mkField "p2_p3" Element (ns_sicd121, "P2P3") (TPrim PFloat) One true NoDefault;
    mkField "p2_v1" Element (ns_sicd121, "P2V1") (TPrim PFloat) One true NoDefault;
    mkField "p2_v2" Element (ns_sicd121, "P2V2") (TPrim PFloat) One true NoDefault;
    mkField "p2_v3" Element (ns_sicd121, "P2V3") (TPrim PFloat) One true NoDefault;
    mkField "p3_v1" Element (ns_sicd121, "P3V1") (TPrim PFloat) One true NoDefault;
    mkField "p3_v2" Element (ns_sicd121, "P3V2") (TPrim PFloat) One true NoDefault;
    mkField "p3_v3" Element (ns_sicd121, "P3V3") (TPrim PFloat) One true NoDefault;
    mkField "v1_v2" Element (ns_sicd121, "V1V2") (TPrim PFloat) One true NoDefault;
    mkField "v1_v3" Element (ns_sicd121, "V1V3") (TPrim PFloat) One true NoDefault;
    mkField "v2_v3" Element (ns_sicd121, "V2V3") (TPrim PFloat) One true NoDefault].

(** sicd_v1_2_1.py:902-936. *)
Definition c_sicd121_ErrorStatisticsType_Components_RadarSensor : Class := mkClass "sicd121.ErrorStatisticsType.Components.RadarSensor" (ns_sicd121, "RadarSensor") [
    mkField "range_bias" Element (ns_sicd121, "RangeBias") (TPrim PFloat) One true NoDefault;
    mkField "clock_freq_sf" Element (ns_sicd121, "ClockFreqSF") (TPrim PFloat) One false NoDefault;
    mkField "transmit_freq_sf" Element (ns_sicd121, "TransmitFreqSF") (TPrim PFloat) One false NoDefault;
    mkField "range_bias_decorr" Element (ns_sicd121, "RangeBiasDecorr") (TClass "sicd121.ErrorDecorrFuncType") One false NoDefault].

(** sicd_v1_2_1.py:938-963. *)
Definition c_sicd121_ErrorStatisticsType_Components_TropoError : Class := mkClass "sicd121.ErrorStatisticsType.Components.TropoError" (ns_sicd121, "TropoError") [
    mkField "tropo_range_vertical" Element (ns_sicd121, "TropoRangeVertical") (TPrim PFloat) One false NoDefault;
    mkField "tropo_range_slant" Element (ns_sicd121, "TropoRangeSlant") (TPrim PFloat) One false NoDefault;
    mkField "tropo_range_decorr" Element (ns_sicd121, "TropoRangeDecorr") (TClass "sicd121.ErrorDecorrFuncType") One false NoDefault].

(** sicd_v1_2_1.py:965-999. *)
Definition c_sicd121_ErrorStatisticsType_Components_IonoError : Class := mkClass "sicd121.ErrorStatisticsType.Components.IonoError" (ns_sicd121, "IonoError") [
    mkField "iono_range_vertical" Element (ns_sicd121, "IonoRangeVertical") (TPrim PFloat) One false NoDefault;
    mkField "iono_range_rate_vertical" Element (ns_sicd121, "IonoRangeRateVertical") (TPrim PFloat) One false NoDefault;
    mkField "iono_rg_rg_rate_cc" Element (ns_sicd121, "IonoRgRgRateCC") (TPrim PFloat) One true NoDefault;
    mkField "iono_range_vert_decorr" Element (ns_sicd121, "IonoRangeVertDecorr") (TClass "sicd121.ErrorDecorrFuncType") One false NoDefault].

(** sicd_v1_2_1.py:1001-1011. *)
Definition c_sicd121_ErrorStatisticsType_AdditionalParms : Class := mkClass "sicd121.ErrorStatisticsType.AdditionalParms" (ns_sicd121, "AdditionalParms") [
    mkField "parameter" Element (ns_sicd121, "Parameter") (TClass "sicd121.ParameterType") Many true NoDefault].

(** sicd_v1_2_1.py:1014-1343. *)
Definition c_sicd121_ImageFormationType : Class := mkClass "sicd121.ImageFormationType" (ns_sicd121, "ImageFormationType") [
    mkField "rcv_chan_proc" Element (ns_sicd121, "RcvChanProc") (TClass "sicd121.ImageFormationType.RcvChanProc") One true NoDefault;
    mkField "tx_rcv_polarization_proc" Element (ns_sicd121, "TxRcvPolarizationProc") (TEnum "sicd121.DualPolarizationType") One true NoDefault;
    mkField "tstart_proc" Element (ns_sicd121, "TStartProc") (TPrim PFloat) One true NoDefault;
    mkField "tend_proc" Element (ns_sicd121, "TEndProc") (TPrim PFloat) One true NoDefault;
    mkField "tx_frequency_proc" Element (ns_sicd121, "TxFrequencyProc") (TClass "sicd121.ImageFormationType.TxFrequencyProc") One true NoDefault;
    mkField "segment_identifier" Element (ns_sicd121, "SegmentIdentifier") (TPrim PStr) One false NoDefault;
    mkField "image_form_algo" Element (ns_sicd121, "ImageFormAlgo") (TEnum "sicd121.ImageFormAlgo") One true NoDefault;
    mkField "stbeam_comp" Element (ns_sicd121, "STBeamComp") (TEnum "sicd121.STBeamComp") One true NoDefault;
    mkField "image_beam_comp" Element (ns_sicd121, "ImageBeamComp") (TEnum "sicd121.ImageBeamComp") One true NoDefault;
    mkField "az_autofocus" Element (ns_sicd121, "AzAutofocus") (TEnum "sicd121.AzAutofocus") One true NoDefault;
    mkField "rg_autofocus" Element (ns_sicd121, "RgAutofocus") (TEnum "sicd121.RgAutofocus") One true NoDefault;
    mkField "processing" Element (ns_sicd121, "Processing") (TClass "sicd121.ImageFormationType.Processing") Many false NoDefault;
    mkField "polarization_calibration" Element (ns_sicd121, "PolarizationCalibration") (TClass "sicd121.ImageFormationType.PolarizationCalibration") One false NoDefault].

(** sicd_v1_2_1.py:1131-1158. *)
Definition c_sicd121_ImageFormationType_RcvChanProc : Class := mkClass "sicd121.ImageFormationType.RcvChanProc" (ns_sicd121, "RcvChanProc") [
    mkField "num_chan_proc" Element (ns_sicd121, "NumChanProc") (TPrim PInt) One true NoDefault;
    mkField "prfscale_factor" Element (ns_sicd121, "PRFScaleFactor") (TPrim PFloat) One false NoDefault;
    mkField "chan_index" Element (ns_sicd121, "ChanIndex") (TPrim PInt) Many true NoDefault].

(** sicd_v1_2_1.py:1160-1179. *)
Definition c_sicd121_ImageFormationType_TxFrequencyProc : Class := mkClass "sicd121.ImageFormationType.TxFrequencyProc" (ns_sicd121, "TxFrequencyProc") [
    mkField "min_proc" Element (ns_sicd121, "MinProc") (TPrim PFloat) One true NoDefault;
    mkField "max_proc" Element (ns_sicd121, "MaxProc") (TPrim PFloat) One true NoDefault].

(** sicd_v1_2_1.py:1181-1208. *)
Definition c_sicd121_ImageFormationType_Processing : Class := mkClass "sicd121.ImageFormationType.Processing" (ns_sicd121, "Processing") [
    mkField "type_value" Element (ns_sicd121, "Type") (TPrim PStr) One true NoDefault;
    mkField "applied" Element (ns_sicd121, "Applied") (TPrim PBool) One true NoDefault;
    mkField "parameter" Element (ns_sicd121, "Parameter") (TClass "sicd121.ParameterType") Many false NoDefault].

(** sicd_v1_2_1.py:1210-1343. *)
Definition c_sicd121_ImageFormationType_PolarizationCalibration : Class := mkClass "sicd121.ImageFormationType.PolarizationCalibration" (ns_sicd121, "PolarizationCalibration") [
    mkField "distort_correction_applied" Element (ns_sicd121, "DistortCorrectionApplied") (TPrim PBool) One true NoDefault;
    mkField "distortion" Element (ns_sicd121, "Distortion") (TClass "sicd121.ImageFormationType.PolarizationCalibration.Distortion") One true NoDefault].

(** sicd_v1_2_1.py:1231-1343. *)
Definition c_sicd121_ImageFormationType_PolarizationCalibration_Distortion : Class := mkClass "sicd121.ImageFormationType.PolarizationCalibration.Distortion" (ns_sicd121, "Distortion") [
    mkField "calibration_date" Element (ns_sicd121, "CalibrationDate") (TPrim PDateTime) One false NoDefault;
    mkField "a" Element (ns_sicd121, "A") (TPrim PFloat) One true NoDefault;
    mkField "f1" Element (ns_sicd121, "F1") (TClass "sicd121.ComplexType") One true NoDefault;
    mkField "q1" Element (ns_sicd121, "Q1") (TClass "sicd121.ComplexType") One true NoDefault;
    mkField "q2" Element (ns_sicd121, "Q2") (TClass "sicd121.ComplexType") One true NoDefault;
    mkField "f2" Element (ns_sicd121, "F2") (TClass "sicd121.ComplexType") One true NoDefault;
    mkField "q3" Element (ns_sicd121, "Q3") (TClass "sicd121.ComplexType") One true NoDefault;
    mkField "q4" Element (ns_sicd121, "Q4") (TClass "sicd121.ComplexType") One true NoDefault;
    mkField "gain_error_a" Element (ns_sicd121, "GainErrorA") (TPrim PFloat) One false NoDefault;
    mkField "gain_error_f1" Element (ns_sicd121, "GainErrorF1") (TPrim PFloat) One false NoDefault;
    mkField "gain_error_f2" Element (ns_sicd121, "GainErrorF2") (TPrim PFloat) One false NoDefault;
    mkField "phase_error_f1" Element (ns_sicd121, "PhaseErrorF1") (TPrim PFloat) One false NoDefault;
    mkField "phase_error_f2" Element (ns_sicd121, "PhaseErrorF2") (TPrim PFloat) One false NoDefault].

(** sicd_v1_2_1.py:1346-1354. *)
Definition c_sicd121_LatLonCornerStringType : Class := mkClass "sicd121.LatLonCornerStringType" (ns_sicd121, "LatLonCornerStringType") [
    mkField "lat" Element (ns_sicd121, "Lat") (TPrim PFloat) One true NoDefault;
    mkField "lon" Element (ns_sicd121, "Lon") (TPrim PFloat) One true NoDefault;
    mkField "index" Attribute ("", "index") (TEnum "sicd121.CornerStringType") One true NoDefault].

(** sicd_v1_2_1.py:1357-1367. *)
Definition c_sicd121_LatLonCornerType : Class := mkClass "sicd121.LatLonCornerType" (ns_sicd121, "LatLonCornerType") [
    mkField "lat" Element (ns_sicd121, "Lat") (TPrim PFloat) One true NoDefault;
    mkField "lon" Element (ns_sicd121, "Lon") (TPrim PFloat) One true NoDefault;
    mkField "index" Attribute ("", "index") (TPrim PInt) One true NoDefault].

(** sicd_v1_2_1.py:1370-1380. *)
Definition c_sicd121_LatLonHAECornerRestrictType : Class := mkClass "sicd121.LatLonHAECornerRestrictType" (ns_sicd121, "LatLonHAECornerRestrictType") [
    mkField "lat" Element (ns_sicd121, "Lat") (TPrim PFloat) One true NoDefault;
    mkField "lon" Element (ns_sicd121, "Lon") (TPrim PFloat) One true NoDefault;
    mkField "hae" Element (ns_sicd121, "HAE") (TPrim PFloat) One true NoDefault;
    mkField "index" Attribute ("", "index") (TPrim PInt) One true NoDefault].

(** sicd_v1_2_1.py:1383-1391. *)
Definition c_sicd121_LatLonHAECornerStringType : Class := mkClass "sicd121.LatLonHAECornerStringType" (ns_sicd121, "LatLonHAECornerStringType") [
    mkField "lat" Element (ns_sicd121, "Lat") (TPrim PFloat) One true NoDefault;
    mkField "lon" Element (ns_sicd121, "Lon") (TPrim PFloat) One true NoDefault;
    mkField "hae" Element (ns_sicd121, "HAE") (TPrim PFloat) One true NoDefault;
    mkField "index" Attribute ("", "index") (TEnum "sicd121.CornerStringType") One true NoDefault].

(** sicd_v1_2_1.py:1394-1421. *)
Definition c_sicd121_LineType : Class := mkClass "sicd121.LineType" (ns_sicd121, "LineType") [
    mkField "endpoint" Element (ns_sicd121, "Endpoint") (TClass "sicd121.LineType.Endpoint") Many true NoDefault;
    mkField "size" Attribute ("", "size") (TPrim PInt) One true NoDefault].

(** sicd_v1_2_1.py:1413-1421. *)
Definition c_sicd121_LineType_Endpoint : Class := mkClass "sicd121.LineType.Endpoint" (ns_sicd121, "Endpoint") [
    mkField "lat" Element (ns_sicd121, "Lat") (TPrim PFloat) One true NoDefault;
    mkField "lon" Element (ns_sicd121, "Lon") (TPrim PFloat) One true NoDefault;
    mkField "index" Attribute ("", "index") (TPrim PInt) One true NoDefault].

(** sicd_v1_2_1.py:1424-1522. *)
Definition c_sicd121_MatchInfoType : Class := mkClass "sicd121.MatchInfoType" (ns_sicd121, "MatchInfoType") [
    mkField "num_match_types" Element (ns_sicd121, "NumMatchTypes") (TPrim PInt) One true NoDefault;
    mkField "match_type" Element (ns_sicd121, "MatchType") (TClass "sicd121.MatchInfoType.MatchType") Many true NoDefault].

(** sicd_v1_2_1.py:1445-1522. *)
Definition c_sicd121_MatchInfoType_MatchType : Class := mkClass "sicd121.MatchInfoType.MatchType" (ns_sicd121, "MatchType") [
    mkField "type_id" Element (ns_sicd121, "TypeID") (TPrim PStr) One true NoDefault;
    mkField "current_index" Element (ns_sicd121, "CurrentIndex") (TPrim PInt) One false NoDefault;
    mkField "num_match_collections" Element (ns_sicd121, "NumMatchCollections") (TPrim PInt) One true NoDefault;
    mkField "match_collection" Element (ns_sicd121, "MatchCollection") (TClass "sicd121.MatchInfoType.MatchType.MatchCollection") Many false NoDefault;
    mkField "index" Attribute ("", "index") (TPrim PInt) One true NoDefault].

(** sicd_v1_2_1.py:1489-1522. *)
Definition c_sicd121_MatchInfoType_MatchType_MatchCollection : Class := mkClass "sicd121.MatchInfoType.MatchType.MatchCollection" (ns_sicd121, "MatchCollection") [
    mkField "core_name" Element (ns_sicd121, "CoreName") (TPrim PStr) One true NoDefault;
    mkField "match_index" Element (ns_sicd121, "MatchIndex") (TPrim PInt) One false NoDefault;
    mkField "parameter" Element (ns_sicd121, "Parameter") (TClass "sicd121.ParameterType") Many false NoDefault;
    mkField "index" Attribute ("", "index") (TPrim PInt) One true NoDefault].

(** sicd_v1_2_1.py:1525-1542. *)
Definition c_sicd121_Poly1DType : Class := mkClass "sicd121.Poly1DType" (ns_sicd121, "Poly1DType") [
    mkField "coef" Element (ns_sicd121, "Coef") (TClass "sicd121.PolyCoef1DType") Many true NoDefault;
    mkField "order1" Attribute ("", "order1") (TPrim PInt) One true NoDefault].

(** sicd_v1_2_1.py:1545-1569. *)
Definition c_sicd121_Poly2DType : Class := mkClass "sicd121.Poly2DType" (ns_sicd121, "Poly2DType") [
    mkField "coef" Element (ns_sicd121, "Coef") (TClass "sicd121.PolyCoef2DType") Many true NoDefault;
    mkField "order1" Attribute ("", "order1") (TPrim PInt) One true NoDefault;
    mkField "order2" Attribute ("", "order2") (TPrim PInt) One true NoDefault].

(** sicd_v1_2_1.py:1572-1599. *)
Definition c_sicd121_PolygonType : Class := mkClass "sicd121.PolygonType" (ns_sicd121, "PolygonType") [
    mkField "vertex" Element (ns_sicd121, "Vertex") (TClass "sicd121.PolygonType.Vertex") Many true NoDefault;
    mkField "size" Attribute ("", "size") (TPrim PInt) One true NoDefault].

(** sicd_v1_2_1.py:1591-1599. *)
Definition c_sicd121_PolygonType_Vertex : Class := mkClass "sicd121.PolygonType.Vertex" (ns_sicd121, "Vertex") [
    mkField "lat" Element (ns_sicd121, "Lat") (TPrim PFloat) One true NoDefault;
    mkField "lon" Element (ns_sicd121, "Lon") (TPrim PFloat) One true NoDefault;
    mkField "index" Attribute ("", "index") (TPrim PInt) One true NoDefault].

(** sicd_v1_2_1.py:1602-1610. *)
Definition c_sicd121_RowColvertexType : Class := mkClass "sicd121.RowColvertexType" (ns_sicd121, "RowColvertexType") [
    mkField "row" Element (ns_sicd121, "Row") (TPrim PInt) One true NoDefault;
    mkField "col" Element (ns_sicd121, "Col") (TPrim PInt) One true NoDefault;
    mkField "index" Attribute ("", "index") (TPrim PInt) One true NoDefault].

(** sicd_v1_2_1.py:1613-1752. *)
Definition c_sicd121_SCPCOAType : Class := mkClass "sicd121.SCPCOAType" (ns_sicd121, "SCPCOAType") [
    mkField "scptime" Element (ns_sicd121, "SCPTime") (TPrim PFloat) One true NoDefault;
    mkField "arppos" Element (ns_sicd121, "ARPPos") (TClass "sicd121.XYZType") One true NoDefault;
    mkField "arpvel" Element (ns_sicd121, "ARPVel") (TClass "sicd121.XYZType") One true NoDefault;
    mkField "arpacc" Element (ns_sicd121, "ARPAcc") (TClass "sicd121.XYZType") One true NoDefault;
    mkField "side_of_track" Element (ns_sicd121, "SideOfTrack") (TEnum "sicd121.SideOfTrack") One true NoDefault;
    mkField "slant_range" Element (ns_sicd121, "SlantRange") (TPrim PFloat) One true NoDefault;
    mkField "ground_range" Element (ns_sicd121, "GroundRange") (TPrim PFloat) One true NoDefault;
    mkField "doppler_cone_ang" Element (ns_sicd121, "DopplerConeAng") (TPrim PFloat) One true NoDefault;
    mkField "graze_ang" Element (ns_sicd121, "GrazeAng") (TPrim PFloat) One true NoDefault;
    mkField "incidence_ang" Element (ns_sicd121, "IncidenceAng") (TPrim PFloat) One true NoDefault;
    mkField "twist_ang" Element (ns_sicd121, "TwistAng") (TPrim PFloat) One true NoDefault;
    mkField "slope_ang" Element (ns_sicd121, "SlopeAng") (TPrim PFloat) One true NoDefault;
    mkField "azim_ang" Element (ns_sicd121, "AzimAng") (TPrim PFloat) One true NoDefault;
    mkField "layover_ang" Element (ns_sicd121, "LayoverAng") (TPrim PFloat) One true NoDefault].

(** sicd_v1_2_1.py:1755-1891. *)
Definition c_sicd121_DirParamType : Class := mkClass "sicd121.DirParamType" (ns_sicd121, "DirParamType") [
    mkField "uvect_ecf" Element (ns_sicd121, "UVectECF") (TClass "sicd121.XYZType") One true NoDefault;
    mkField "ss" Element (ns_sicd121, "SS") (TPrim PFloat) One true NoDefault;
    mkField "imp_resp_wid" Element (ns_sicd121, "ImpRespWid") (TPrim PFloat) One true NoDefault;
    mkField "sgn" Element (ns_sicd121, "Sgn") (TEnum "sicd121.DirParamTypeSgn") One true NoDefault;
    mkField "imp_resp_bw" Element (ns_sicd121, "ImpRespBW") (TPrim PFloat) One true NoDefault;
    mkField "kctr" Element (ns_sicd121, "KCtr") (TPrim PFloat) One true NoDefault;
    mkField "delta_k1" Element (ns_sicd121, "DeltaK1") (TPrim PFloat) One true NoDefault;
    mkField "delta_k2" Element (ns_sicd121, "DeltaK2") (TPrim PFloat) One true NoDefault;
    mkField "delta_kcoapoly" Element (ns_sicd121, "DeltaKCOAPoly") (TClass "sicd121.Poly2DType") One false NoDefault;
    mkField "wgt_type" Element (ns_sicd121, "WgtType") (TClass "sicd121.DirParamType.WgtType") One false NoDefault;
    mkField "wgt_funct" Element (ns_sicd121, "WgtFunct") (TClass "sicd121.DirParamType.WgtFunct") One false NoDefault].

(** sicd_v1_2_1.py:1854-1872. *)
Definition c_sicd121_DirParamType_WgtType : Class := mkClass "sicd121.DirParamType.WgtType" (ns_sicd121, "WgtType") [
    mkField "window_name" Element (ns_sicd121, "WindowName") (TPrim PStr) One true NoDefault;
    mkField "parameter" Element (ns_sicd121, "Parameter") (TClass "sicd121.ParameterType") Many false NoDefault].

(** sicd_v1_2_1.py:1874-1891. *)
Definition c_sicd121_DirParamType_WgtFunct : Class := mkClass "sicd121.DirParamType.WgtFunct" (ns_sicd121, "WgtFunct") [
    mkField "wgt" Element (ns_sicd121, "Wgt") (TClass "sicd121.ArrayDouble") Many true NoDefault;
    mkField "size" Attribute ("", "size") (TPrim PInt) One true NoDefault].

(** sicd_v1_2_1.py:1894-1913. *)
Definition c_sicd121_GainPhasePolyType : Class := mkClass "sicd121.GainPhasePolyType" (ns_sicd121, "GainPhasePolyType") [
    mkField "gain_poly" Element (ns_sicd121, "GainPoly") (TClass "sicd121.Poly2DType") One true NoDefault;
    mkField "phase_poly" Element (ns_sicd121, "PhasePoly") (TClass "sicd121.Poly2DType") One true NoDefault].

(** sicd_v1_2_1.py:1916-1964. *)
Definition c_sicd121_GeoInfoType : Class := mkClass "sicd121.GeoInfoType" (ns_sicd121, "GeoInfoType") [
    mkField "desc" Element (ns_sicd121, "Desc") (TClass "sicd121.ParameterType") Many false NoDefault;
    mkField "point" Element (ns_sicd121, "Point") (TClass "sicd121.LatLonRestrictionType") One false NoDefault;
    mkField "line" Element (ns_sicd121, "Line") (TClass "sicd121.LineType") One false NoDefault;
    mkField "polygon" Element (ns_sicd121, "Polygon") (TClass "sicd121.PolygonType") One false NoDefault;
    mkField "geo_info" Element (ns_sicd121, "GeoInfo") (TClass "sicd121.GeoInfoType") Many false NoDefault;
    mkField "name" Attribute ("", "name") (TPrim PStr) One true NoDefault].

(** sicd_v1_2_1.py:1967-2107. *)
Definition c_sicd121_ImageDataType : Class := mkClass "sicd121.ImageDataType" (ns_sicd121, "ImageDataType") [
    mkField "pixel_type" Element (ns_sicd121, "PixelType") (TEnum "sicd121.ImagePixelType") One true NoDefault;
    mkField "amp_table" Element (ns_sicd121, "AmpTable") (TClass "sicd121.ImageDataType.AmpTable") One false NoDefault;
    mkField "num_rows" Element (ns_sicd121, "NumRows") (TPrim PInt) One true NoDefault;
    mkField "num_cols" Element (ns_sicd121, "NumCols") (TPrim PInt) One true NoDefault;
    mkField "first_row" Element (ns_sicd121, "FirstRow") (TPrim PInt) One true NoDefault;
    mkField "first_col" Element (ns_sicd121, "FirstCol") (TPrim PInt) One true NoDefault;
    mkField "full_image" Element (ns_sicd121, "FullImage") (TClass "sicd121.ImageDataType.FullImage") One true NoDefault;
    mkField "scppixel" Element (ns_sicd121, "SCPPixel") (TClass "sicd121.RowColType") One true NoDefault;
    mkField "valid_data" Element (ns_sicd121, "ValidData") (TClass "sicd121.ImageDataType.ValidData") One false NoDefault].

(** sicd_v1_2_1.py:2049-2067. *)
Definition c_sicd121_ImageDataType_AmpTable : Class := mkClass "sicd121.ImageDataType.AmpTable" (ns_sicd121, "AmpTable") [
    mkField "amplitude" Element (ns_sicd121, "Amplitude") (TClass "sicd121.ArrayDouble") Many true NoDefault;
    mkField "size" Attribute ("", "size") (TPrim PInt) One true NoDefault].

(** sicd_v1_2_1.py:2069-2088. *)
Definition c_sicd121_ImageDataType_FullImage : Class := mkClass "sicd121.ImageDataType.FullImage" (ns_sicd121, "FullImage") [
    mkField "num_rows" Element (ns_sicd121, "NumRows") (TPrim PInt) One true NoDefault;
    mkField "num_cols" Element (ns_sicd121, "NumCols") (TPrim PInt) One true NoDefault].

(** sicd_v1_2_1.py:2090-2107. *)
Definition c_sicd121_ImageDataType_ValidData : Class := mkClass "sicd121.ImageDataType.ValidData" (ns_sicd121, "ValidData") [
    mkField "vertex" Element (ns_sicd121, "Vertex") (TClass "sicd121.RowColvertexType") Many true NoDefault;
    mkField "size" Attribute ("", "size") (TPrim PInt) One true NoDefault].

(** sicd_v1_2_1.py:2110-2221. *)
Definition c_sicd121_PFAType : Class := mkClass "sicd121.PFAType" (ns_sicd121, "PFAType") [
    mkField "fpn" Element (ns_sicd121, "FPN") (TClass "sicd121.XYZType") One true NoDefault;
    mkField "ipn" Element (ns_sicd121, "IPN") (TClass "sicd121.XYZType") One true NoDefault;
    mkField "polar_ang_ref_time" Element (ns_sicd121, "PolarAngRefTime") (TPrim PFloat) One true NoDefault;
    mkField "polar_ang_poly" Element (ns_sicd121, "PolarAngPoly") (TClass "sicd121.Poly1DType") One true NoDefault;
    mkField "spatial_freq_sfpoly" Element (ns_sicd121, "SpatialFreqSFPoly") (TClass "sicd121.Poly1DType") One true NoDefault;
    mkField "krg1" Element (ns_sicd121, "Krg1") (TPrim PFloat) One true NoDefault;
    mkField "krg2" Element (ns_sicd121, "Krg2") (TPrim PFloat) One true NoDefault;
    mkField "kaz1" Element (ns_sicd121, "Kaz1") (TPrim PFloat) One true NoDefault;
    mkField "kaz2" Element (ns_sicd121, "Kaz2") (TPrim PFloat) One true NoDefault;
    mkField "stdeskew" Element (ns_sicd121, "STDeskew") (TClass "sicd121.PFAType.STDeskew") One false NoDefault].

(** sicd_v1_2_1.py:2202-2221. *)
Definition c_sicd121_PFAType_STDeskew : Class := mkClass "sicd121.PFAType.STDeskew" (ns_sicd121, "STDeskew") [
    mkField "applied" Element (ns_sicd121, "Applied") (TPrim PBool) One true NoDefault;
    mkField "stdsphase_poly" Element (ns_sicd121, "STDSPhasePoly") (TClass "sicd121.Poly2DType") One true NoDefault].

(** sicd_v1_2_1.py:2224-2382. *)
Definition c_sicd121_RMAType : Class := mkClass "sicd121.RMAType" (ns_sicd121, "RMAType") [
    mkField "rmalgo_type" Element (ns_sicd121, "RMAlgoType") (TEnum "sicd121.RMAlgorithm") One true NoDefault;
    mkField "image_type" Element (ns_sicd121, "ImageType") (TEnum "sicd121.RMAImageType") One true NoDefault;
    mkField "rmat" Element (ns_sicd121, "RMAT") (TClass "sicd121.RMAType.RMAT") One false NoDefault;
    mkField "rmcr" Element (ns_sicd121, "RMCR") (TClass "sicd121.RMAType.RMCR") One false NoDefault;
    mkField "inca" Element (ns_sicd121, "INCA") (TClass "sicd121.RMAType.INCA") One false NoDefault].

(** sicd_v1_2_1.py:2269-2297. *)
Definition c_sicd121_RMAType_RMAT : Class := mkClass "sicd121.RMAType.RMAT" (ns_sicd121, "RMAT") [
    mkField "pos_ref" Element (ns_sicd121, "PosRef") (TClass "sicd121.XYZType") One true NoDefault;
    mkField "vel_ref" Element (ns_sicd121, "VelRef") (TClass "sicd121.XYZType") One true NoDefault;
    mkField "dop_cone_ang_ref" Element (ns_sicd121, "DopConeAngRef") (TPrim PFloat) One true NoDefault].

(** sicd_v1_2_1.py:2299-2327. *)
Definition c_sicd121_RMAType_RMCR : Class := mkClass "sicd121.RMAType.RMCR" (ns_sicd121, "RMCR") [
    mkField "pos_ref" Element (ns_sicd121, "PosRef") (TClass "sicd121.XYZType") One true NoDefault;
    mkField "vel_ref" Element (ns_sicd121, "VelRef") (TClass "sicd121.XYZType") One true NoDefault;
    mkField "dop_cone_ang_ref" Element (ns_sicd121, "DopConeAngRef") (TPrim PFloat) One true NoDefault].

(** sicd_v1_2_1.py:2329-2382. *)
Definition c_sicd121_RMAType_INCA : Class := mkClass "sicd121.RMAType.INCA" (ns_sicd121, "INCA") [
    mkField "time_capoly" Element (ns_sicd121, "TimeCAPoly") (TClass "sicd121.Poly1DType") One true NoDefault;
    mkField "r_ca_scp" Element (ns_sicd121, "R_CA_SCP") (TPrim PFloat) One true NoDefault;
    mkField "freq_zero" Element (ns_sicd121, "FreqZero") (TPrim PFloat) One true NoDefault;
    mkField "drate_sfpoly" Element (ns_sicd121, "DRateSFPoly") (TClass "sicd121.Poly2DType") One true NoDefault;
    mkField "dop_centroid_poly" Element (ns_sicd121, "DopCentroidPoly") (TClass "sicd121.Poly2DType") One false NoDefault;
    mkField "dop_centroid_coa" Element (ns_sicd121, "DopCentroidCOA") (TPrim PBool) One false NoDefault].

(** sicd_v1_2_1.py:2385-2941. *)
Definition c_sicd121_RadarCollectionType : Class := mkClass "sicd121.RadarCollectionType" (ns_sicd121, "RadarCollectionType") [
    mkField "tx_frequency" Element (ns_sicd121, "TxFrequency") (TClass "sicd121.RadarCollectionType.TxFrequency") One true NoDefault;
    mkField "ref_freq_index" Element (ns_sicd121, "RefFreqIndex") (TPrim PInt) One false NoDefault;
    mkField "waveform" Element (ns_sicd121, "Waveform") (TClass "sicd121.RadarCollectionType.Waveform") One false NoDefault;
    mkField "tx_polarization" Element (ns_sicd121, "TxPolarization") (TEnum "sicd121.Polarization1Type") One true NoDefault;
    mkField "tx_sequence" Element (ns_sicd121, "TxSequence") (TClass "sicd121.RadarCollectionType.TxSequence") One false NoDefault;
    mkField "rcv_channels" Element (ns_sicd121, "RcvChannels") (TClass "sicd121.RadarCollectionType.RcvChannels") One true NoDefault;
    mkField "area" Element (ns_sicd121, "Area") (TClass "sicd121.RadarCollectionType.Area") One false NoDefault;
    mkField "parameter" Element (ns_sicd121, "Parameter") (TClass "sicd121.ParameterType") Many false NoDefault].

(** sicd_v1_2_1.py:2455-2474. *)
Definition c_sicd121_RadarCollectionType_TxFrequency : Class := mkClass "sicd121.RadarCollectionType.TxFrequency" (ns_sicd121, "TxFrequency") [
    mkField "min" Element (ns_sicd121, "Min") (TPrim PFloat) One true NoDefault;
    mkField "max" Element (ns_sicd121, "Max") (TPrim PFloat) One true NoDefault].

(** sicd_v1_2_1.py:2476-2583. *)
Definition c_sicd121_RadarCollectionType_Waveform : Class := mkClass "sicd121.RadarCollectionType.Waveform" (ns_sicd121, "Waveform") [
    mkField "wfparameters" Element (ns_sicd121, "WFParameters") (TClass "sicd121.RadarCollectionType.Waveform.WFParameters") Many true NoDefault;
    mkField "size" Attribute ("", "size") (TPrim PInt) One true NoDefault].

(** sicd_v1_2_1.py:2495-2583. *)
Definition c_sicd121_RadarCollectionType_Waveform_WFParameters : Class := mkClass "sicd121.RadarCollectionType.Waveform.WFParameters" (ns_sicd121, "WFParameters") [
    mkField "tx_pulse_length" Element (ns_sicd121, "TxPulseLength") (TPrim PFloat) One false NoDefault;
    mkField "tx_rfbandwidth" Element (ns_sicd121, "TxRFBandwidth") (TPrim PFloat) One false NoDefault;
    mkField "tx_freq_start" Element (ns_sicd121, "TxFreqStart") (TPrim PFloat) One false NoDefault;
    mkField "tx_fmrate" Element (ns_sicd121, "TxFMRate") (TPrim PFloat) One false NoDefault;
    mkField "rcv_demod_type" Element (ns_sicd121, "RcvDemodType") (TEnum "sicd121.WFParametersRcvDemodType") One false NoDefault;
    mkField "rcv_window_length" Element (ns_sicd121, "RcvWindowLength") (TPrim PFloat) One false NoDefault;
    mkField "adcsample_rate" Element (ns_sicd121, "ADCSampleRate") (TPrim PFloat) One false NoDefault;
    mkField "rcv_ifbandwidth" Element (ns_sicd121, "RcvIFBandwidth") (TPrim PFloat) One false NoDefault;
    mkField "rcv_freq_start" Element (ns_sicd121, "RcvFreqStart") (TPrim PFloat) One false NoDefault;
    mkField "rcv_fmrate" Element (ns_sicd121, "RcvFMRate") (TPrim PFloat) One false NoDefault;
    mkField "index" Attribute ("", "index") (TPrim PInt) One true NoDefault].

(** sicd_v1_2_1.py:2585-2628. *)
Definition c_sicd121_RadarCollectionType_TxSequence : Class := mkClass "sicd121.RadarCollectionType.TxSequence" (ns_sicd121, "TxSequence") [
    mkField "tx_step" Element (ns_sicd121, "TxStep") (TClass "sicd121.RadarCollectionType.TxSequence.TxStep") Many true NoDefault;
    mkField "size" Attribute ("", "size") (TPrim PInt) One true NoDefault].

(** sicd_v1_2_1.py:2604-2628. *)
Definition c_sicd121_RadarCollectionType_TxSequence_TxStep : Class := mkClass "sicd121.RadarCollectionType.TxSequence.TxStep" (ns_sicd121, "TxStep") [
    mkField "wfindex" Element (ns_sicd121, "WFIndex") (TPrim PInt) One false NoDefault;
    mkField "tx_polarization" Element (ns_sicd121, "TxPolarization") (TEnum "sicd121.Polarization2Type") One false NoDefault;
    mkField "index" Attribute ("", "index") (TPrim PInt) One true NoDefault].

(** sicd_v1_2_1.py:2630-2674. *)
Definition c_sicd121_RadarCollectionType_RcvChannels : Class := mkClass "sicd121.RadarCollectionType.RcvChannels" (ns_sicd121, "RcvChannels") [
    mkField "chan_parameters" Element (ns_sicd121, "ChanParameters") (TClass "sicd121.RadarCollectionType.RcvChannels.ChanParameters") Many true NoDefault;
    mkField "size" Attribute ("", "size") (TPrim PInt) One true NoDefault].

(** sicd_v1_2_1.py:2649-2674. *)
Definition c_sicd121_RadarCollectionType_RcvChannels_ChanParameters : Class := mkClass "sicd121.RadarCollectionType.RcvChannels.ChanParameters" (ns_sicd121, "ChanParameters") [
    mkField "tx_rcv_polarization" Element (ns_sicd121, "TxRcvPolarization") (TEnum "sicd121.DualPolarizationType") One true NoDefault;
    mkField "rcv_apcindex" Element (ns_sicd121, "RcvAPCIndex") (TPrim PInt) One false NoDefault;
    mkField "index" Attribute ("", "index") (TPrim PInt) One true NoDefault].

(** sicd_v1_2_1.py:2676-2941. *)
Definition c_sicd121_RadarCollectionType_Area : Class := mkClass "sicd121.RadarCollectionType.Area" (ns_sicd121, "Area") [
    mkField "corner" Element (ns_sicd121, "Corner") (TClass "sicd121.RadarCollectionType.Area.Corner") One true NoDefault;
    mkField "plane" Element (ns_sicd121, "Plane") (TClass "sicd121.RadarCollectionType.Area.Plane") One false NoDefault].

(** sicd_v1_2_1.py:2696-2707. *)
Definition c_sicd121_RadarCollectionType_Area_Corner : Class := mkClass "sicd121.RadarCollectionType.Area.Corner" (ns_sicd121, "Corner") [
    mkField "acp" Element (ns_sicd121, "ACP") (TClass "sicd121.LatLonHAECornerRestrictType") Many true NoDefault].

(** sicd_v1_2_1.py:2709-2941. *)
Definition c_sicd121_RadarCollectionType_Area_Plane : Class := mkClass "sicd121.RadarCollectionType.Area.Plane" (ns_sicd121, "Plane") [
    mkField "ref_pt" Element (ns_sicd121, "RefPt") (TClass "sicd121.RadarCollectionType.Area.Plane.RefPt") One true NoDefault;
    mkField "xdir" Element (ns_sicd121, "XDir") (TClass "sicd121.RadarCollectionType.Area.Plane.XDir") One true NoDefault;
    mkField "ydir" Element (ns_sicd121, "YDir") (TClass "sicd121.RadarCollectionType.Area.Plane.YDir") One true NoDefault;
    mkField "segment_list" Element (ns_sicd121, "SegmentList") (TClass "sicd121.RadarCollectionType.Area.Plane.SegmentList") One false NoDefault;
    mkField "orientation" Element (ns_sicd121, "Orientation") (TEnum "sicd121.OrientationType") One false NoDefault].

(** sicd_v1_2_1.py:2755-2789. *)
Definition c_sicd121_RadarCollectionType_Area_Plane_RefPt : Class := mkClass "sicd121.RadarCollectionType.Area.Plane.RefPt" (ns_sicd121, "RefPt") [
    mkField "ecf" Element (ns_sicd121, "ECF") (TClass "sicd121.XYZType") One true NoDefault;
    mkField "line" Element (ns_sicd121, "Line") (TPrim PFloat) One true NoDefault;
    mkField "sample" Element (ns_sicd121, "Sample") (TPrim PFloat) One true NoDefault;
    mkField "name" Attribute ("", "name") (TPrim PStr) One false NoDefault].

(** sicd_v1_2_1.py:2791-2828. *)
Definition c_sicd121_RadarCollectionType_Area_Plane_XDir : Class := mkClass "sicd121.RadarCollectionType.Area.Plane.XDir" (ns_sicd121, "XDir") [
    mkField "uvect_ecf" Element (ns_sicd121, "UVectECF") (TClass "sicd121.XYZType") One true NoDefault;
    mkField "line_spacing" Element (ns_sicd121, "LineSpacing") (TPrim PFloat) One true NoDefault;
    mkField "num_lines" Element (ns_sicd121, "NumLines") (TPrim PInt) One true NoDefault;
    mkField "first_line" Element (ns_sicd121, "FirstLine") (TPrim PInt) One true NoDefault].

(** sicd_v1_2_1.py:2830-2867. *)
Definition c_sicd121_RadarCollectionType_Area_Plane_YDir : Class := mkClass "sicd121.RadarCollectionType.Area.Plane.YDir" (ns_sicd121, "YDir") [
    mkField "uvect_ecf" Element (ns_sicd121, "UVectECF") (TClass "sicd121.XYZType") One true NoDefault;
    mkField "sample_spacing" Element (ns_sicd121, "SampleSpacing") (TPrim PFloat) One true NoDefault;
    mkField "num_samples" Element (ns_sicd121, "NumSamples") (TPrim PInt) One true NoDefault;
    mkField "first_sample" Element (ns_sicd121, "FirstSample") (TPrim PInt) One true NoDefault].

(** sicd_v1_2_1.py:2869-2941. *)
Definition c_sicd121_RadarCollectionType_Area_Plane_SegmentList : Class := mkClass "sicd121.RadarCollectionType.Area.Plane.SegmentList" (ns_sicd121, "SegmentList") [
    mkField "segment" Element (ns_sicd121, "Segment") (TClass "sicd121.RadarCollectionType.Area.Plane.SegmentList.Segment") Many true NoDefault;
    mkField "size" Attribute ("", "size") (TPrim PInt) One true NoDefault].

(** sicd_v1_2_1.py:2888-2941. *)
Definition c_sicd121_RadarCollectionType_Area_Plane_SegmentList_Segment : Class := mkClass "sicd121.RadarCollectionType.Area.Plane.SegmentList.Segment" (ns_sicd121, "Segment") [
    mkField "start_line" Element (ns_sicd121, "StartLine") (TPrim PInt) One true NoDefault;
    mkField "start_sample" Element (ns_sicd121, "StartSample") (TPrim PInt) One true NoDefault;
    mkField "end_line" Element (ns_sicd121, "EndLine") (TPrim PInt) One true NoDefault;
    mkField "end_sample" Element (ns_sicd121, "EndSample") (TPrim PInt) One true NoDefault;
    mkField "identifier" Element (ns_sicd121, "Identifier") (TPrim PStr) One true NoDefault;
    mkField "index" Attribute ("", "index") (TPrim PInt) One true NoDefault].

(** sicd_v1_2_1.py:2944-3006. *)
Definition c_sicd121_RadiometricType : Class := mkClass "sicd121.RadiometricType" (ns_sicd121, "RadiometricType") [
    mkField "noise_level" Element (ns_sicd121, "NoiseLevel") (TClass "sicd121.RadiometricType.NoiseLevel") One false NoDefault;
    mkField "rcssfpoly" Element (ns_sicd121, "RCSSFPoly") (TClass "sicd121.Poly2DType") One false NoDefault;
    mkField "sigma_zero_sfpoly" Element (ns_sicd121, "SigmaZeroSFPoly") (TClass "sicd121.Poly2DType") One false NoDefault;
    mkField "beta_zero_sfpoly" Element (ns_sicd121, "BetaZeroSFPoly") (TClass "sicd121.Poly2DType") One false NoDefault;
    mkField "gamma_zero_sfpoly" Element (ns_sicd121, "GammaZeroSFPoly") (TClass "sicd121.Poly2DType") One false NoDefault].

(** sicd_v1_2_1.py:2987-3006. *)
Definition c_sicd121_RadiometricType_NoiseLevel : Class := mkClass "sicd121.RadiometricType.NoiseLevel" (ns_sicd121, "NoiseLevel") [
    mkField "noise_level_type" Element (ns_sicd121, "NoiseLevelType") (TEnum "sicd121.NoiseLevelType") One true NoDefault;
    mkField "noise_poly" Element (ns_sicd121, "NoisePoly") (TClass "sicd121.Poly2DType") One true NoDefault].

(** sicd_v1_2_1.py:3009-3028. *)
Definition c_sicd121_RgAzCompType : Class := mkClass "sicd121.RgAzCompType" (ns_sicd121, "RgAzCompType") [
    mkField "az_sf" Element (ns_sicd121, "AzSF") (TPrim PFloat) One true NoDefault;
    mkField "kaz_poly" Element (ns_sicd121, "KazPoly") (TClass "sicd121.Poly1DType") One true NoDefault].

(** sicd_v1_2_1.py:3031-3132. *)
Definition c_sicd121_TimelineType : Class := mkClass "sicd121.TimelineType" (ns_sicd121, "TimelineType") [
    mkField "collect_start" Element (ns_sicd121, "CollectStart") (TPrim PDateTime) One true NoDefault;
    mkField "collect_duration" Element (ns_sicd121, "CollectDuration") (TPrim PFloat) One true NoDefault;
    mkField "ipp" Element (ns_sicd121, "IPP") (TClass "sicd121.TimelineType.IPP") One false NoDefault].

(** sicd_v1_2_1.py:3060-3132. *)
Definition c_sicd121_TimelineType_IPP : Class := mkClass "sicd121.TimelineType.IPP" (ns_sicd121, "IPP") [
    mkField "set" Element (ns_sicd121, "Set") (TClass "sicd121.TimelineType.IPP.Set") Many true NoDefault;
    mkField "size" Attribute ("", "size") (TPrim PInt) One true NoDefault].

(** sicd_v1_2_1.py:3079-3132. *)
Definition c_sicd121_TimelineType_IPP_Set : Class := mkClass "sicd121.TimelineType.IPP.Set" (ns_sicd121, "Set") [
    mkField "tstart" Element (ns_sicd121, "TStart") (TPrim PFloat) One true NoDefault;
    mkField "tend" Element (ns_sicd121, "TEnd") (TPrim PFloat) One true NoDefault;
    mkField "ippstart" Element (ns_sicd121, "IPPStart") (TPrim PInt) One true NoDefault;
    mkField "ippend" Element (ns_sicd121, "IPPEnd") (TPrim PInt) One true NoDefault;
    mkField "ipppoly" Element (ns_sicd121, "IPPPoly") (TClass "sicd121.Poly1DType") One true NoDefault;
    mkField "index" Attribute ("", "index") (TPrim PInt) One true NoDefault].

(** sicd_v1_2_1.py:3135-3163. *)
Definition c_sicd121_XYZPolyType : Class := mkClass "sicd121.XYZPolyType" (ns_sicd121, "XYZPolyType") [
    mkField "x" Element (ns_sicd121, "X") (TClass "sicd121.Poly1DType") One true NoDefault;
    mkField "y" Element (ns_sicd121, "Y") (TClass "sicd121.Poly1DType") One true NoDefault;
    mkField "z" Element (ns_sicd121, "Z") (TClass "sicd121.Poly1DType") One true NoDefault].

(** sicd_v1_2_1.py:3166-3264. *)
Definition c_sicd121_AntParamType : Class := mkClass "sicd121.AntParamType" (ns_sicd121, "AntParamType") [
    mkField "xaxis_poly" Element (ns_sicd121, "XAxisPoly") (TClass "sicd121.XYZPolyType") One true NoDefault;
    mkField "yaxis_poly" Element (ns_sicd121, "YAxisPoly") (TClass "sicd121.XYZPolyType") One true NoDefault;
    mkField "freq_zero" Element (ns_sicd121, "FreqZero") (TPrim PFloat) One true NoDefault;
    mkField "eb" Element (ns_sicd121, "EB") (TClass "sicd121.AntParamType.EB") One false NoDefault;
    mkField "array" Element (ns_sicd121, "Array") (TClass "sicd121.GainPhasePolyType") One true NoDefault;
    mkField "elem" Element (ns_sicd121, "Elem") (TClass "sicd121.GainPhasePolyType") One false NoDefault;
    mkField "gain_bspoly" Element (ns_sicd121, "GainBSPoly") (TClass "sicd121.Poly1DType") One false NoDefault;
    mkField "ebfreq_shift" Element (ns_sicd121, "EBFreqShift") (TPrim PBool) One false NoDefault;
    mkField "mlfreq_dilation" Element (ns_sicd121, "MLFreqDilation") (TPrim PBool) One false NoDefault].

(** sicd_v1_2_1.py:3245-3264. *)
Definition c_sicd121_AntParamType_EB : Class := mkClass "sicd121.AntParamType.EB" (ns_sicd121, "EB") [
    mkField "dcxpoly" Element (ns_sicd121, "DCXPoly") (TClass "sicd121.Poly1DType") One true NoDefault;
    mkField "dcypoly" Element (ns_sicd121, "DCYPoly") (TClass "sicd121.Poly1DType") One true NoDefault].

(** sicd_v1_2_1.py:3267-3345. *)
Definition c_sicd121_GeoDataType : Class := mkClass "sicd121.GeoDataType" (ns_sicd121, "GeoDataType") [
    mkField "earth_model" Element (ns_sicd121, "EarthModel") (TEnum "sicd121.EarthModel") One true NoDefault;
    mkField "scp" Element (ns_sicd121, "SCP") (TClass "sicd121.GeoDataType.SCP") One true NoDefault;
    mkField "image_corners" Element (ns_sicd121, "ImageCorners") (TClass "sicd121.GeoDataType.ImageCorners") One true NoDefault;
    mkField "valid_data" Element (ns_sicd121, "ValidData") (TClass "sicd121.PolygonType") One false NoDefault;
    mkField "geo_info" Element (ns_sicd121, "GeoInfo") (TClass "sicd121.GeoInfoType") Many false NoDefault].

(** sicd_v1_2_1.py:3313-3332. *)
Definition c_sicd121_GeoDataType_SCP : Class := mkClass "sicd121.GeoDataType.SCP" (ns_sicd121, "SCP") [
    mkField "ecf" Element (ns_sicd121, "ECF") (TClass "sicd121.XYZType") One true NoDefault;
    mkField "llh" Element (ns_sicd121, "LLH") (TClass "sicd121.LatLonHAERestrictionType") One true NoDefault].

(** sicd_v1_2_1.py:3334-3345. *)
Definition c_sicd121_GeoDataType_ImageCorners : Class := mkClass "sicd121.GeoDataType.ImageCorners" (ns_sicd121, "ImageCorners") [
    mkField "icp" Element (ns_sicd121, "ICP") (TClass "sicd121.LatLonCornerStringType") Many true NoDefault].

(** sicd_v1_2_1.py:3348-3394. *)
Definition c_sicd121_GridType : Class := mkClass "sicd121.GridType" (ns_sicd121, "GridType") [
    mkField "image_plane" Element (ns_sicd121, "ImagePlane") (TEnum "sicd121.ImagePlane") One true NoDefault;
    mkField "type_value" Element (ns_sicd121, "Type") (TEnum "sicd121.ImageGridType") One true NoDefault;
    mkField "time_coapoly" Element (ns_sicd121, "TimeCOAPoly") (TClass "sicd121.Poly2DType") One true NoDefault;
    mkField "row" Element (ns_sicd121, "Row") (TClass "sicd121.DirParamType") One true NoDefault;
    mkField "col" Element (ns_sicd121, "Col") (TClass "sicd121.DirParamType") One true NoDefault].

(** sicd_v1_2_1.py:3397-3405. *)
Definition c_sicd121_XYZPolyAttributeType : Class := mkClass "sicd121.XYZPolyAttributeType" (ns_sicd121, "XYZPolyAttributeType") [
    mkField "x" Element (ns_sicd121, "X") (TClass "sicd121.Poly1DType") One true NoDefault;
    mkField "y" Element (ns_sicd121, "Y") (TClass "sicd121.Poly1DType") One true NoDefault;
    mkField "z" Element (ns_sicd121, "Z") (TClass "sicd121.Poly1DType") One true NoDefault;
    mkField "index" Attribute ("", "index") (TPrim PInt) One true NoDefault].

(** sicd_v1_2_1.py:3408-3433. *)
Definition c_sicd121_AntennaType : Class := mkClass "sicd121.AntennaType" (ns_sicd121, "AntennaType") [
    mkField "tx" Element (ns_sicd121, "Tx") (TClass "sicd121.AntParamType") One false NoDefault;
    mkField "rcv" Element (ns_sicd121, "Rcv") (TClass "sicd121.AntParamType") One false NoDefault;
    mkField "two_way" Element (ns_sicd121, "TwoWay") (TClass "sicd121.AntParamType") One false NoDefault].

(** sicd_v1_2_1.py:3436-3489. *)
Definition c_sicd121_PositionType : Class := mkClass "sicd121.PositionType" (ns_sicd121, "PositionType") [
    mkField "arppoly" Element (ns_sicd121, "ARPPoly") (TClass "sicd121.XYZPolyType") One true NoDefault;
    mkField "grppoly" Element (ns_sicd121, "GRPPoly") (TClass "sicd121.XYZPolyType") One false NoDefault;
    mkField "tx_apcpoly" Element (ns_sicd121, "TxAPCPoly") (TClass "sicd121.XYZPolyType") One false NoDefault;
    mkField "rcv_apc" Element (ns_sicd121, "RcvAPC") (TClass "sicd121.PositionType.RcvAPC") One false NoDefault].

(** sicd_v1_2_1.py:3472-3489. *)
Definition c_sicd121_PositionType_RcvAPC : Class := mkClass "sicd121.PositionType.RcvAPC" (ns_sicd121, "RcvAPC") [
    mkField "rcv_apcpoly" Element (ns_sicd121, "RcvAPCPoly") (TClass "sicd121.XYZPolyAttributeType") Many true NoDefault;
    mkField "size" Attribute ("", "size") (TPrim PInt) One true NoDefault].

(** sicd_v1_2_1.py:3492-3624. *)
Definition c_sicd121_SICD : Class := mkClass "sicd121.SICD" (ns_sicd121, "SICD") [
    mkField "collection_info" Element (ns_sicd121, "CollectionInfo") (TClass "sicd121.CollectionInfoType") One true NoDefault;
    mkField "image_creation" Element (ns_sicd121, "ImageCreation") (TClass "sicd121.ImageCreationType") One false NoDefault;
    mkField "image_data" Element (ns_sicd121, "ImageData") (TClass "sicd121.ImageDataType") One true NoDefault;
    mkField "geo_data" Element (ns_sicd121, "GeoData") (TClass "sicd121.GeoDataType") One true NoDefault;
    mkField "grid" Element (ns_sicd121, "Grid") (TClass "sicd121.GridType") One true NoDefault;
    mkField "timeline" Element (ns_sicd121, "Timeline") (TClass "sicd121.TimelineType") One true NoDefault;
    mkField "position" Element (ns_sicd121, "Position") (TClass "sicd121.PositionType") One true NoDefault;
    mkField "radar_collection" Element (ns_sicd121, "RadarCollection") (TClass "sicd121.RadarCollectionType") One true NoDefault;
    mkField "image_formation" Element (ns_sicd121, "ImageFormation") (TClass "sicd121.ImageFormationType") One true NoDefault;
    mkField "scpcoa" Element (ns_sicd121, "SCPCOA") (TClass "sicd121.SCPCOAType") One true NoDefault;
    mkField "radiometric" Element (ns_sicd121, "Radiometric") (TClass "sicd121.RadiometricType") One false NoDefault;
    mkField "antenna" Element (ns_sicd121, "Antenna") (TClass "sicd121.AntennaType") One false NoDefault;
    mkField "error_statistics" Element (ns_sicd121, "ErrorStatistics") (TClass "sicd121.ErrorStatisticsType") One false NoDefault;
    mkField "match_info" Element (ns_sicd121, "MatchInfo") (TClass "sicd121.MatchInfoType") One false NoDefault;
    mkField "rg_az_comp" Element (ns_sicd121, "RgAzComp") (TClass "sicd121.RgAzCompType") One false NoDefault;
    mkField "pfa" Element (ns_sicd121, "PFA") (TClass "sicd121.PFAType") One false NoDefault;
    mkField "rma" Element (ns_sicd121, "RMA") (TClass "sicd121.RMAType") One false NoDefault].

(** sicd_v1_3_0.py:17-31. *)
Definition c_sicd130_ArrayDouble : Class := mkClass "sicd130.ArrayDouble" (ns_sicd130, "ArrayDouble") [
    mkField "value" Content ("", "") (TPrim PFloat) One true NoDefault;
    mkField "index" Attribute ("", "index") (TPrim PInt) One true NoDefault].

(** sicd_v1_3_0.py:39-58. *)
Definition c_sicd130_ComplexType : Class := mkClass "sicd130.ComplexType" (ns_sicd130, "ComplexType") [
    mkField "real" Element (ns_sicd130, "Real") (TPrim PFloat) One true NoDefault;
    mkField "imag" Element (ns_sicd130, "Imag") (TPrim PFloat) One true NoDefault].

(** sicd_v1_3_0.py:73-92. *)
Definition c_sicd130_ErrorDecorrFuncType : Class := mkClass "sicd130.ErrorDecorrFuncType" (ns_sicd130, "ErrorDecorrFuncType") [
    mkField "corr_coef_zero" Element (ns_sicd130, "CorrCoefZero") (TPrim PFloat) One true NoDefault;
    mkField "decorr_rate" Element (ns_sicd130, "DecorrRate") (TPrim PFloat) One true NoDefault].

(** sicd_v1_3_0.py:113-146. *)
Definition c_sicd130_ImageCreationType : Class := mkClass "sicd130.ImageCreationType" (ns_sicd130, "ImageCreationType") [
    mkField "application" Element (ns_sicd130, "Application") (TPrim PStr) One false NoDefault;
    mkField "date_time" Element (ns_sicd130, "DateTime") (TPrim PDateTime) One false NoDefault;
    mkField "site" Element (ns_sicd130, "Site") (TPrim PStr) One false NoDefault;
    mkField "profile" Element (ns_sicd130, "Profile") (TPrim PStr) One false NoDefault].

(** sicd_v1_3_0.py:185-217. *)
Definition c_sicd130_LatLonHAERestrictionType : Class := mkClass "sicd130.LatLonHAERestrictionType" (ns_sicd130, "LatLonHAERestrictionType") [
    mkField "lat" Element (ns_sicd130, "Lat") (TPrim PFloat) One true NoDefault;
    mkField "lon" Element (ns_sicd130, "Lon") (TPrim PFloat) One true NoDefault;
    mkField "hae" Element (ns_sicd130, "HAE") (TPrim PFloat) One true NoDefault].

(** sicd_v1_3_0.py:220-248. *)
Definition c_sicd130_LatLonHAEType : Class := mkClass "sicd130.LatLonHAEType" (ns_sicd130, "LatLonHAEType") [
    mkField "lat" Element (ns_sicd130, "Lat") (TPrim PFloat) One true NoDefault;
    mkField "lon" Element (ns_sicd130, "Lon") (TPrim PFloat) One true NoDefault;
    mkField "hae" Element (ns_sicd130, "HAE") (TPrim PFloat) One true NoDefault].

(** sicd_v1_3_0.py:251-274. *)
Definition c_sicd130_LatLonRestrictionType : Class := mkClass "sicd130.LatLonRestrictionType" (ns_sicd130, "LatLonRestrictionType") [
    mkField "lat" Element (ns_sicd130, "Lat") (TPrim PFloat) One true NoDefault;
    mkField "lon" Element (ns_sicd130, "Lon") (TPrim PFloat) One true NoDefault].

(** sicd_v1_3_0.py:277-296. *)
Definition c_sicd130_LatLonType : Class := mkClass "sicd130.LatLonType" (ns_sicd130, "LatLonType") [
    mkField "lat" Element (ns_sicd130, "Lat") (TPrim PFloat) One true NoDefault;
    mkField "lon" Element (ns_sicd130, "Lon") (TPrim PFloat) One true NoDefault].

(** sicd_v1_3_0.py:312-326. *)
Definition c_sicd130_ParameterType : Class := mkClass "sicd130.ParameterType" (ns_sicd130, "ParameterType") [
    mkField "value" Content ("", "") (TPrim PStr) One true EmptyString;
    mkField "name" Attribute ("", "name") (TPrim PStr) One true NoDefault].

(** sicd_v1_3_0.py:329-343. *)
Definition c_sicd130_PolyCoef1DType : Class := mkClass "sicd130.PolyCoef1DType" (ns_sicd130, "PolyCoef1DType") [
    mkField "value" Content ("", "") (TPrim PFloat) One true NoDefault;
    mkField "exponent1" Attribute ("", "exponent1") (TPrim PInt) One true NoDefault].

(** sicd_v1_3_0.py:346-367. *)
Definition c_sicd130_PolyCoef2DType : Class := mkClass "sicd130.PolyCoef2DType" (ns_sicd130, "PolyCoef2DType") [
    mkField "value" Content ("", "") (TPrim PFloat) One true NoDefault;
    mkField "exponent1" Attribute ("", "exponent1") (TPrim PInt) One true NoDefault;
    mkField "exponent2" Attribute ("", "exponent2") (TPrim PInt) One true NoDefault].

(** sicd_v1_3_0.py:394-413. *)
Definition c_sicd130_RowColType : Class := mkClass "sicd130.RowColType" (ns_sicd130, "RowColType") [
    mkField "row" Element (ns_sicd130, "Row") (TPrim PInt) One true NoDefault;
    mkField "col" Element (ns_sicd130, "Col") (TPrim PInt) One true NoDefault].

(** sicd_v1_3_0.py:426-454. *)
Definition c_sicd130_XYZType : Class := mkClass "sicd130.XYZType" (ns_sicd130, "XYZType") [
    mkField "x" Element (ns_sicd130, "X") (TPrim PFloat) One true NoDefault;
    mkField "y" Element (ns_sicd130, "Y") (TPrim PFloat) One true NoDefault;
    mkField "z" Element (ns_sicd130, "Z") (TPrim PFloat) One true NoDefault].

(** sicd_v1_3_0.py:457-546. *)
Definition c_sicd130_CollectionInfoType : Class := mkClass "sicd130.CollectionInfoType" (ns_sicd130, "CollectionInfoType") [
    mkField "collector_name" Element (ns_sicd130, "CollectorName") (TPrim PStr) One true NoDefault;
    mkField "illuminator_name" Element (ns_sicd130, "IlluminatorName") (TPrim PStr) One false NoDefault;
    mkField "core_name" Element (ns_sicd130, "CoreName") (TPrim PStr) One true NoDefault;
    mkField "collect_type" Element (ns_sicd130, "CollectType") (TEnum "sicd130.CollectType") One false NoDefault;
    mkField "radar_mode" Element (ns_sicd130, "RadarMode") (TClass "sicd130.CollectionInfoType.RadarMode") One true NoDefault;
    mkField "classification" Element (ns_sicd130, "Classification") (TPrim PStr) One true NoDefault;
    mkField "country_code" Element (ns_sicd130, "CountryCode") (TPrim PStr) Many false NoDefault;
    mkField "parameter" Element (ns_sicd130, "Parameter") (TClass "sicd130.ParameterType") Many false NoDefault].

(** sicd_v1_3_0.py:528-546. *)
Definition c_sicd130_CollectionInfoType_RadarMode : Class := mkClass "sicd130.CollectionInfoType.RadarMode" (ns_sicd130, "RadarMode") [
    mkField "mode_type" Element (ns_sicd130, "ModeType") (TEnum "sicd130.RadarModeType") One true NoDefault;
    mkField "mode_id" Element (ns_sicd130, "ModeID") (TPrim PStr) One false NoDefault].

(** sicd_v1_3_0.py:549-1039. *)
Definition c_sicd130_ErrorStatisticsType : Class := mkClass "sicd130.ErrorStatisticsType" (ns_sicd130, "ErrorStatisticsType") [
    mkField "composite_scp" Element (ns_sicd130, "CompositeSCP") (TClass "sicd130.ErrorStatisticsType.CompositeSCP") One false NoDefault;
    mkField "components" Element (ns_sicd130, "Components") (TClass "sicd130.ErrorStatisticsType.Components") One false NoDefault;
    mkField "unmodeled" Element (ns_sicd130, "Unmodeled") (TClass "sicd130.ErrorStatisticsType.Unmodeled") One false NoDefault;
    mkField "additional_parms" Element (ns_sicd130, "AdditionalParms") (TClass "sicd130.ErrorStatisticsType.AdditionalParms") One false NoDefault].

(** sicd_v1_3_0.py:584-612. *)
Definition c_sicd130_ErrorStatisticsType_CompositeSCP : Class := mkClass "sicd130.ErrorStatisticsType.CompositeSCP" (ns_sicd130, "CompositeSCP") [
    mkField "rg" Element (ns_sicd130, "Rg") (TPrim PFloat) One true NoDefault;
    mkField "az" Element (ns_sicd130, "Az") (TPrim PFloat) One true NoDefault;
    mkField "rg_az" Element (ns_sicd130, "RgAz") (TPrim PFloat) One true NoDefault].

(** sicd_v1_3_0.py:614-968. *)
Definition c_sicd130_ErrorStatisticsType_Components : Class := mkClass "sicd130.ErrorStatisticsType.Components" (ns_sicd130, "Components") [
    mkField "pos_vel_err" Element (ns_sicd130, "PosVelErr") (TClass "sicd130.ErrorStatisticsType.Components.PosVelErr") One true NoDefault;
    mkField "radar_sensor" Element (ns_sicd130, "RadarSensor") (TClass "sicd130.ErrorStatisticsType.Components.RadarSensor") One true NoDefault;
    mkField "tropo_error" Element (ns_sicd130, "TropoError") (TClass "sicd130.ErrorStatisticsType.Components.TropoError") One false NoDefault;
    mkField "iono_error" Element (ns_sicd130, "IonoError") (TClass "sicd130.ErrorStatisticsType.Components.IonoError") One false NoDefault].

(** sicd_v1_3_0.py:651-869. *)
Definition c_sicd130_ErrorStatisticsType_Components_PosVelErr : Class := mkClass "sicd130.ErrorStatisticsType.Components.PosVelErr" (ns_sicd130, "PosVelErr") [
    mkField "frame" Element (ns_sicd130, "Frame") (TEnum "sicd130.PosVelErrFrame") One true NoDefault;
    mkField "p1" Element (ns_sicd130, "P1") (TPrim PFloat) One true NoDefault;
    mkField "p2" Element (ns_sicd130, "P2") (TPrim PFloat) One true NoDefault;
    mkField "p3" Element (ns_sicd130, "P3") (TPrim PFloat) One true NoDefault;
    mkField "v1" Element (ns_sicd130, "V1") (TPrim PFloat) One true NoDefault;
    mkField "v2" Element (ns_sicd130, "V2") (TPrim PFloat) One true NoDefault;
    mkField "v3" Element (ns_sicd130, "V3") (TPrim PFloat) One true NoDefault;
    mkField "corr_coefs" Element (ns_sicd130, "CorrCoefs") (TClass "sicd130.ErrorStatisticsType.Components.PosVelErr.CorrCoefs") One false NoDefault;
    mkField "position_decorr" Element (ns_sicd130, "PositionDecorr") (TClass "sicd130.ErrorDecorrFuncType") One false NoDefault].

(** sicd_v1_3_0.py:733-869. *)
Definition c_sicd130_ErrorStatisticsType_Components_PosVelErr_CorrCoefs : Class := mkClass "sicd130.ErrorStatisticsType.Components.PosVelErr.CorrCoefs" (ns_sicd130, "CorrCoefs") [
    mkField "p1_p2" Element (ns_sicd130, "P1P2") (TPrim PFloat) One true NoDefault;
    mkField "p1_p3" Element (ns_sicd130, "P1P3") (TPrim PFloat) One true NoDefault;
    mkField "p1_v1" Element (ns_sicd130, "P1V1") (TPrim PFloat) One true NoDefault;
    mkField "p1_v2" Element (ns_sicd130, "P1V2") (TPrim PFloat) One true NoDefault;
    mkField "p1_v3" Element (ns_sicd130, "P1V3") (TPrim PFloat) One true NoDefault;
    mkField "p2_p3" Element (ns_sicd130, "P2P3") (TPrim PFloat) One true NoDefault;
    mkField "p2_v1" Element (ns_sicd130, "P2V1") (TPrim PFloat) One true NoDefault;
    mkField "p2_v2" Element (ns_sicd130, "P2V2") (TPrim PFloat) One true NoDefault;
    mkField "p2_v3" Element (ns_sicd130, "P2V3") (TPrim PFloat) One true NoDefault;
    mkField "p3_v1" Element (ns_sicd130, "P3V1") (TPrim PFloat) One true NoDefault;
    mkField "p3_v2" Element (ns_sicd130, "P3V2") (TPrim PFloat) One true NoDefault;
    mkField "p3_v3" Element (ns_sicd130, "P3V3") (TPrim PFloat) One true NoDefault;
    mkField "v1_v2" Element (ns_sicd130, "V1V2") (TPrim PFloat) One true NoDefault;
    mkField "v1_v3" Element (ns_sicd130, "V1V3") (TPrim PFloat) One true NoDefault;
    mkField "v2_v3" Element (ns_sicd130, "V2V3") (TPrim PFloat) One true NoDefault].

(** sicd_v1_3_0.py:871-905. *)
Definition c_sicd130_ErrorStatisticsType_Components_RadarSensor : Class := mkClass "sicd130.ErrorStatisticsType.Components.RadarSensor" (ns_sicd130, "RadarSensor") [
    mkField "range_bias" Element (ns_sicd130, "RangeBias") (TPrim PFloat) One true NoDefault;
    mkField "clock_freq_sf" Element (ns_sicd130, "ClockFreqSF") (TPrim PFloat) One false NoDefault;
    mkField "transmit_freq_sf" Element (ns_sicd130, "TransmitFreqSF") (TPrim PFloat) One false NoDefault;
    mkField "range_bias_decorr" Element (ns_sicd130, "RangeBiasDecorr") (TClass "sicd130.ErrorDecorrFuncType") One false NoDefault].

(** sicd_v1_3_0.py:907-932. *)
Definition c_sicd130_ErrorStatisticsType_Components_TropoError : Class := mkClass "sicd130.ErrorStatisticsType.Components.TropoError" (ns_sicd130, "TropoError") [
    mkField "tropo_range_vertical" Element (ns_sicd130, "TropoRangeVertical") (TPrim PFloat) One false NoDefault;
    mkField "tropo_range_slant" Element (ns_sicd130, "TropoRangeSlant") (TPrim PFloat) One false NoDefault;
    mkField "tropo_range_decorr" Element (ns_sicd130, "TropoRangeDecorr") (TClass "sicd130.ErrorDecorrFuncType") One false NoDefault].

(** sicd_v1_3_0.py:934-968. *)
Definition c_sicd130_ErrorStatisticsType_Components_IonoError : Class := mkClass "sicd130.ErrorStatisticsType.Components.IonoError" (ns_sicd130, "IonoError") [
    mkField "iono_range_vertical" Element (ns_sicd130, "IonoRangeVertical") (TPrim PFloat) One false NoDefault;
    mkField "iono_range_rate_vertical" Element (ns_sicd130, "IonoRangeRateVertical") (TPrim PFloat) One false NoDefault;
    mkField "iono_rg_rg_rate_cc" Element (ns_sicd130, "IonoRgRgRateCC") (TPrim PFloat) One true NoDefault;
    mkField "iono_range_vert_decorr" Element (ns_sicd130, "IonoRangeVertDecorr") (TClass "sicd130.ErrorDecorrFuncType") One false NoDefault].

(** sicd_v1_3_0.py:970-1027. *)
Definition c_sicd130_ErrorStatisticsType_Unmodeled : Class := mkClass "sicd130.ErrorStatisticsType.Unmodeled" (ns_sicd130, "Unmodeled") [
    mkField "xrow" Element (ns_sicd130, "Xrow") (TPrim PFloat) One true NoDefault;
    mkField "ycol" Element (ns_sicd130, "Ycol") (TPrim PFloat) One true NoDefault;
    mkField "xrow_ycol" Element (ns_sicd130, "XrowYcol") (TPrim PFloat) One true NoDefault;
    mkField "unmodeled_decorr" Element (ns_sicd130, "UnmodeledDecorr") (TClass "sicd130.ErrorStatisticsType.Unmodeled.UnmodeledDecorr") One false NoDefault].

(** sicd_v1_3_0.py:1008-1027. *)
Definition c_sicd130_ErrorStatisticsType_Unmodeled_UnmodeledDecorr : Class := mkClass "sicd130.ErrorStatisticsType.Unmodeled.UnmodeledDecorr" (ns_sicd130, "UnmodeledDecorr") [
    mkField "xrow" Element (ns_sicd130, "Xrow") (TClass "sicd130.ErrorDecorrFuncType") One true NoDefault;
    mkField "ycol" Element (ns_sicd130, "Ycol") (TClass "sicd130.ErrorDecorrFuncType") One true NoDefault].

(** sicd_v1_3_0.py:1029-1039. *)
Definition c_sicd130_ErrorStatisticsType_AdditionalParms : Class := mkClass "sicd130.ErrorStatisticsType.AdditionalParms" (ns_sicd130, "AdditionalParms") [
    mkField "parameter" Element (ns_sicd130, "Parameter") (TClass "sicd130.ParameterType") Many true NoDefault].

(** sicd_v1_3_0.py:1042-1372. *)
Definition c_sicd130_ImageFormationType : Class := mkClass "sicd130.ImageFormationType" (ns_sicd130, "ImageFormationType") [
    mkField "rcv_chan_proc" Element (ns_sicd130, "RcvChanProc") (TClass "sicd130.ImageFormationType.RcvChanProc") One true NoDefault;
    mkField "tx_rcv_polarization_proc" Element (ns_sicd130, "TxRcvPolarizationProc") (TPrim PStr) One true NoDefault;
    mkField "tstart_proc" Element (ns_sicd130, "TStartProc") (TPrim PFloat) One true NoDefault;
    mkField "tend_proc" Element (ns_sicd130, "TEndProc") (TPrim PFloat) One true NoDefault;
    mkField "tx_frequency_proc" Element (ns_sicd130, "TxFrequencyProc") (TClass "sicd130.ImageFormationType.TxFrequencyProc") One true NoDefault;
    mkField "segment_identifier" Element (ns_sicd130, "SegmentIdentifier") (TPrim PStr) One false NoDefault;
    mkField "image_form_algo" Element (ns_sicd130, "ImageFormAlgo") (TEnum "sicd130.ImageFormAlgo") One true NoDefault;
    mkField "stbeam_comp" Element (ns_sicd130, "STBeamComp") (TEnum "sicd130.STBeamComp") One true NoDefault;
    mkField "image_beam_comp" Element (ns_sicd130, "ImageBeamComp") (TEnum "sicd130.ImageBeamComp") One true NoDefault;
    mkField "az_autofocus" Element (ns_sicd130, "AzAutofocus") (TEnum "sicd130.AzAutofocus") One true NoDefault;
    mkField "rg_autofocus" Element (ns_sicd130, "RgAutofocus") (TEnum "sicd130.RgAutofocus") One true NoDefault;
    mkField "processing" Element (ns_sicd130, "Processing") (TClass "sicd130.ImageFormationType.Processing") Many false NoDefault;
    mkField "polarization_calibration" Element (ns_sicd130, "PolarizationCalibration") (TClass "sicd130.ImageFormationType.PolarizationCalibration") One false NoDefault].

(** sicd_v1_3_0.py:1160-1187. *)
Definition c_sicd130_ImageFormationType_RcvChanProc : Class := mkClass "sicd130.ImageFormationType.RcvChanProc" (ns_sicd130, "RcvChanProc") [
    mkField "num_chan_proc" Element (ns_sicd130, "NumChanProc") (TPrim PInt) One true NoDefault;
    mkField "prfscale_factor" Element (ns_sicd130, "PRFScaleFactor") (TPrim PFloat) One false NoDefault;
    mkField "chan_index" Element (ns_sicd130, "ChanIndex") (TPrim PInt) Many true NoDefault].

(** sicd_v1_3_0.py:1189-1208. *)
Definition c_sicd130_ImageFormationType_TxFrequencyProc : Class := mkClass "sicd130.ImageFormationType.TxFrequencyProc" (ns_sicd130, "TxFrequencyProc") [
    mkField "min_proc" Element (ns_sicd130, "MinProc") (TPrim PFloat) One true NoDefault;
    mkField "max_proc" Element (ns_sicd130, "MaxProc") (TPrim PFloat) One true NoDefault].

(** sicd_v1_3_0.py:1210-1237. *)
Definition c_sicd130_ImageFormationType_Processing : Class := mkClass "sicd130.ImageFormationType.Processing" (ns_sicd130, "Processing") [
    mkField "type_value" Element (ns_sicd130, "Type") (TPrim PStr) One true NoDefault;
    mkField "applied" Element (ns_sicd130, "Applied") (TPrim PBool) One true NoDefault;
    mkField "parameter" Element (ns_sicd130, "Parameter") (TClass "sicd130.ParameterType") Many false NoDefault].

(** sicd_v1_3_0.py:1239-1372. *)
Definition c_sicd130_ImageFormationType_PolarizationCalibration : Class := mkClass "sicd130.ImageFormationType.PolarizationCalibration" (ns_sicd130, "PolarizationCalibration") [
    mkField "distort_correction_applied" Element (ns_sicd130, "DistortCorrectionApplied") (TPrim PBool) One true NoDefault;
    mkField "distortion" Element (ns_sicd130, "Distortion") (TClass "sicd130.ImageFormationType.PolarizationCalibration.Distortion") One true NoDefault].

(** sicd_v1_3_0.py:1260-1372. *)
Definition c_sicd130_ImageFormationType_PolarizationCalibration_Distortion : Class := mkClass "sicd130.ImageFormationType.PolarizationCalibration.Distortion" (ns_sicd130, "Distortion") [
    mkField "calibration_date" Element (ns_sicd130, "CalibrationDate") (TPrim PDateTime) One false NoDefault;
    mkField "a" Element (ns_sicd130, "A") (TPrim PFloat) One true NoDefault;
    mkField "f1" Element (ns_sicd130, "F1") (TClass "sicd130.ComplexType") One true NoDefault;
    mkField "q1" Element (ns_sicd130, "Q1") (TClass "sicd130.ComplexType") One true NoDefault;
    mkField "q2" Element (ns_sicd130, "Q2") (TClass "sicd130.ComplexType") One true NoDefault;
    mkField "f2" Element (ns_sicd130, "F2") (TClass "sicd130.ComplexType") One true NoDefault;
    mkField "q3" Element (ns_sicd130, "Q3") (TClass "sicd130.ComplexType") One true NoDefault;
    mkField "q4" Element (ns_sicd130, "Q4") (TClass "sicd130.ComplexType") One true NoDefault;
    mkField "gain_error_a" Element (ns_sicd130, "GainErrorA") (TPrim PFloat) One false NoDefault;
    mkField "gain_error_f1" Element (ns_sicd130, "GainErrorF1") (TPrim PFloat) One false NoDefault;
    mkField "gain_error_f2" Element (ns_sicd130, "GainErrorF2") (TPrim PFloat) One false NoDefault;
    mkField "phase_error_f1" Element (ns_sicd130, "PhaseErrorF1") (TPrim PFloat) One false NoDefault;
    mkField "phase_error_f2" Element (ns_sicd130, "PhaseErrorF2") (TPrim PFloat) One false NoDefault].

(** sicd_v1_3_0.py:1375-1383. *)
Definition c_sicd130_LatLonCornerStringType : Class := mkClass "sicd130.LatLonCornerStringType" (ns_sicd130, "LatLonCornerStringType") [
    mkField "lat" Element (ns_sicd130, "Lat") (TPrim PFloat) One true NoDefault;
    mkField "lon" Element (ns_sicd130, "Lon") (TPrim PFloat) One true NoDefault;
    mkField "index" Attribute ("", "index") (TEnum "sicd130.CornerStringType") One true NoDefault].

(** sicd_v1_3_0.py:1386-1396. *)
Definition c_sicd130_LatLonCornerType : Class := mkClass "sicd130.LatLonCornerType" (ns_sicd130, "LatLonCornerType") [
    mkField "lat" Element (ns_sicd130, "Lat") (TPrim PFloat) One true NoDefault;
    mkField "lon" Element (ns_sicd130, "Lon") (TPrim PFloat) One true NoDefault;
    mkField "index" Attribute ("", "index") (TPrim PInt) One true NoDefault].

(** sicd_v1_3_0.py:1399-1409. *)
Definition c_sicd130_LatLonHAECornerRestrictType : Class := mkClass "sicd130.LatLonHAECornerRestrictType" (ns_sicd130, "LatLonHAECornerRestrictType") [
    mkField "lat" Element (ns_sicd130, "Lat") (TPrim PFloat) One true NoDefault;
    mkField "lon" Element (ns_sicd130, "Lon") (TPrim PFloat) One true NoDefault;
    mkField "hae" Element (ns_sicd130, "HAE") (TPrim PFloat) One true NoDefault;
    mkField "index" Attribute ("", "index") (TPrim PInt) One true NoDefault].

(** sicd_v1_3_0.py:1412-1420. *)
Definition c_sicd130_LatLonHAECornerStringType : Class := mkClass "sicd130.LatLonHAECornerStringType" (ns_sicd130, "LatLonHAECornerStringType") [
    mkField "lat" Element (ns_sicd130, "Lat") (TPrim PFloat) One true NoDefault;
    mkField "lon" Element (ns_sicd130, "Lon") (TPrim PFloat) One true NoDefault;
    mkField "hae" Element (ns_sicd130, "HAE") (TPrim PFloat) One true NoDefault;
    mkField "index" Attribute ("", "index") (TEnum "sicd130.CornerStringType") One true NoDefault].

(** sicd_v1_3_0.py:1423-1450. *)
Definition c_sicd130_LineType : Class := mkClass "sicd130.LineType" (ns_sicd130, "LineType") [
    mkField "endpoint" Element (ns_sicd130, "Endpoint") (TClass "sicd130.LineType.Endpoint") Many true NoDefault;
    mkField "size" Attribute ("", "size") (TPrim PInt) One true NoDefault].

(** sicd_v1_3_0.py:1442-1450. *)
Definition c_sicd130_LineType_Endpoint : Class := mkClass "sicd130.LineType.Endpoint" (ns_sicd130, "Endpoint") [
    mkField "lat" Element (ns_sicd130, "Lat") (TPrim PFloat) One true NoDefault;
    mkField "lon" Element (ns_sicd130, "Lon") (TPrim PFloat) One true NoDefault;
    mkField "index" Attribute ("", "index") (TPrim PInt) One true NoDefault].

(** sicd_v1_3_0.py:1453-1551. *)
Definition c_sicd130_MatchInfoType : Class := mkClass "sicd130.MatchInfoType" (ns_sicd130, "MatchInfoType") [
    mkField "num_match_types" Element (ns_sicd130, "NumMatchTypes") (TPrim PInt) One true NoDefault;
    mkField "match_type" Element (ns_sicd130, "MatchType") (TClass "sicd130.MatchInfoType.MatchType") Many true NoDefault].

(** sicd_v1_3_0.py:1474-1551. *)
Definition c_sicd130_MatchInfoType_MatchType : Class := mkClass "sicd130.MatchInfoType.MatchType" (ns_sicd130, "MatchType") [
    mkField "type_id" Element (ns_sicd130, "TypeID") (TPrim PStr) One true NoDefault;
    mkField "current_index" Element (ns_sicd130, "CurrentIndex") (TPrim PInt) One false NoDefault;
    mkField "num_match_collections" Element (ns_sicd130, "NumMatchCollections") (TPrim PInt) One true NoDefault;
    mkField "match_collection" Element (ns_sicd130, "MatchCollection") (TClass "sicd130.MatchInfoType.MatchType.MatchCollection") Many false NoDefault;
    mkField "index" Attribute ("", "index") (TPrim PInt) One true NoDefault].

(** sicd_v1_3_0.py:1518-1551. *)
Definition c_sicd130_MatchInfoType_MatchType_MatchCollection : Class := mkClass "sicd130.MatchInfoType.MatchType.MatchCollection" (ns_sicd130, "MatchCollection") [
    mkField "core_name" Element (ns_sicd130, "CoreName") (TPrim PStr) One true NoDefault;
    mkField "match_index" Element (ns_sicd130, "MatchIndex") (TPrim PInt) One false NoDefault;
    mkField "parameter" Element (ns_sicd130, "Parameter") (TClass "sicd130.ParameterType") Many false NoDefault;
    mkField "index" Attribute ("", "index") (TPrim PInt) One true NoDefault].

(** sicd_v1_3_0.py:1554-1571. *)
Definition c_sicd130_Poly1DType : Class := mkClass "sicd130.Poly1DType" (ns_sicd130, "Poly1DType") [
    mkField "coef" Element (ns_sicd130, "Coef") (TClass "sicd130.PolyCoef1DType") Many true NoDefault;
    mkField "order1" Attribute ("", "order1") (TPrim PInt) One true NoDefault].

(** sicd_v1_3_0.py:1574-1598. *)
Definition c_sicd130_Poly2DType : Class := mkClass "sicd130.Poly2DType" (ns_sicd130, "Poly2DType") [
    mkField "coef" Element (ns_sicd130, "Coef") (TClass "sicd130.PolyCoef2DType") Many true NoDefault;
    mkField "order1" Attribute ("", "order1") (TPrim PInt) One true NoDefault;
    mkField "order2" Attribute ("", "order2") (TPrim PInt) One true NoDefault].

(** sicd_v1_3_0.py:1601-1628. *)
Definition c_sicd130_PolygonType : Class := mkClass "sicd130.PolygonType" (ns_sicd130, "PolygonType") [
    mkField "vertex" Element (ns_sicd130, "Vertex") (TClass "sicd130.PolygonType.Vertex") Many true NoDefault;
    mkField "size" Attribute ("", "size") (TPrim PInt) One true NoDefault].

(** sicd_v1_3_0.py:1620-1628. *)
Definition c_sicd130_PolygonType_Vertex : Class := mkClass "sicd130.PolygonType.Vertex" (ns_sicd130, "Vertex") [
    mkField "lat" Element (ns_sicd130, "Lat") (TPrim PFloat) One true NoDefault;
    mkField "lon" Element (ns_sicd130, "Lon") (TPrim PFloat) One true NoDefault;
    mkField "index" Attribute ("", "index") (TPrim PInt) One true NoDefault].

(** sicd_v1_3_0.py:1631-1639. *)
Definition c_sicd130_RowColvertexType : Class := mkClass "sicd130.RowColvertexType" (ns_sicd130, "RowColvertexType") [
    mkField "row" Element (ns_sicd130, "Row") (TPrim PInt) One true NoDefault;
    mkField "col" Element (ns_sicd130, "Col") (TPrim PInt) One true NoDefault;
    mkField "index" Attribute ("", "index") (TPrim PInt) One true NoDefault].

(** sicd_v1_3_0.py:1642-1781. *)
Definition c_sicd130_SCPCOAType : Class := mkClass "sicd130.SCPCOAType" (ns_sicd130, "SCPCOAType") [
    mkField "scptime" Element (ns_sicd130, "SCPTime") (TPrim PFloat) One true NoDefault;
    mkField "arppos" Element (ns_sicd130, "ARPPos") (TClass "sicd130.XYZType") One true NoDefault;
    mkField "arpvel" Element (ns_sicd130, "ARPVel") (TClass "sicd130.XYZType") One true NoDefault;
    mkField "arpacc" Element (ns_sicd130, "ARPAcc") (TClass "sicd130.XYZType") One true NoDefault;
    mkField "side_of_track" Element (ns_sicd130, "SideOfTrack") (TEnum "sicd130.SideOfTrack") One true NoDefault;
    mkField "slant_range" Element (ns_sicd130, "SlantRange") (TPrim PFloat) One true NoDefault;
    mkField "ground_range" Element (ns_sicd130, "GroundRange") (TPrim PFloat) One true NoDefault;
    mkField "doppler_cone_ang" Element (ns_sicd130, "DopplerConeAng") (TPrim PFloat) One true NoDefault;
    mkField "graze_ang" Element (ns_sicd130, "GrazeAng") (TPrim PFloat) One true NoDefault;
    mkField "incidence_ang" Element (ns_sicd130, "IncidenceAng") (TPrim PFloat) One true NoDefault;
    mkField "twist_ang" Element (ns_sicd130, "TwistAng") (TPrim PFloat) One true NoDefault;
    mkField "slope_ang" Element (ns_sicd130, "SlopeAng") (TPrim PFloat) One true NoDefault;
    mkField "azim_ang" Element (ns_sicd130, "AzimAng") (TPrim PFloat) One true NoDefault;
    mkField "layover_ang" Element (ns_sicd130, "LayoverAng") (TPrim PFloat) One true NoDefault].

(** sicd_v1_3_0.py:1784-1920. *)
Definition c_sicd130_DirParamType : Class := mkClass "sicd130.DirParamType" (ns_sicd130, "DirParamType") [
    mkField "uvect_ecf" Element (ns_sicd130, "UVectECF") (TClass "sicd130.XYZType") One true NoDefault;
    mkField "ss" Element (ns_sicd130, "SS") (TPrim PFloat) One true NoDefault;
    mkField "imp_resp_wid" Element (ns_sicd130, "ImpRespWid") (TPrim PFloat) One true NoDefault;
    mkField "sgn" Element (ns_sicd130, "Sgn") (TEnum "sicd130.DirParamTypeSgn") One true NoDefault;
    mkField "imp_resp_bw" Element (ns_sicd130, "ImpRespBW") (TPrim PFloat) One true NoDefault;
    mkField "kctr" Element (ns_sicd130, "KCtr") (TPrim PFloat) One true NoDefault;
    mkField "delta_k1" Element (ns_sicd130, "DeltaK1") (TPrim PFloat) One true NoDefault;
    mkField "delta_k2" Element (ns_sicd130, "DeltaK2") (TPrim PFloat) One true NoDefault;
    mkField "delta_kcoapoly" Element (ns_sicd130, "DeltaKCOAPoly") (TClass "sicd130.Poly2DType") One false NoDefault;
    mkField "wgt_type" Element (ns_sicd130, "WgtType") (TClass "sicd130.DirParamType.WgtType") One false NoDefault;
    mkField "wgt_funct" Element (ns_sicd130, "WgtFunct") (TClass "sicd130.DirParamType.WgtFunct") One false NoDefault].

(** sicd_v1_3_0.py:1883-1901. *)
Definition c_sicd130_DirParamType_WgtType : Class := mkClass "sicd130.DirParamType.WgtType" (ns_sicd130, "WgtType") [
    mkField "window_name" Element (ns_sicd130, "WindowName") (TPrim PStr) One true NoDefault;
    mkField "parameter" Element (ns_sicd130, "Parameter") (TClass "sicd130.ParameterType") Many false NoDefault].

(** sicd_v1_3_0.py:1903-1920. *)
Definition c_sicd130_DirParamType_WgtFunct : Class := mkClass "sicd130.DirParamType.WgtFunct" (ns_sicd130, "WgtFunct") [
    mkField "wgt" Element (ns_sicd130, "Wgt") (TClass "sicd130.ArrayDouble") Many true NoDefault;
    mkField "size" Attribute ("", "size") (TPrim PInt) One true NoDefault].

(** sicd_v1_3_0.py:1923-1942. *)
Definition c_sicd130_GainPhasePolyType : Class := mkClass "sicd130.GainPhasePolyType" (ns_sicd130, "GainPhasePolyType") [
    mkField "gain_poly" Element (ns_sicd130, "GainPoly") (TClass "sicd130.Poly2DType") One true NoDefault;
    mkField "phase_poly" Element (ns_sicd130, "PhasePoly") (TClass "sicd130.Poly2DType") One true NoDefault].

(** sicd_v1_3_0.py:1945-1993. *)
Definition c_sicd130_GeoInfoType : Class := mkClass "sicd130.GeoInfoType" (ns_sicd130, "GeoInfoType") [
    mkField "desc" Element (ns_sicd130, "Desc") (TClass "sicd130.ParameterType") Many false NoDefault;
    mkField "point" Element (ns_sicd130, "Point") (TClass "sicd130.LatLonRestrictionType") One false NoDefault;
    mkField "line" Element (ns_sicd130, "Line") (TClass "sicd130.LineType") One false NoDefault;
    mkField "polygon" Element (ns_sicd130, "Polygon") (TClass "sicd130.PolygonType") One false NoDefault;
    mkField "geo_info" Element (ns_sicd130, "GeoInfo") (TClass "sicd130.GeoInfoType") Many false NoDefault;
    mkField "name" Attribute ("", "name") (TPrim PStr) One true NoDefault].

(** sicd_v1_3_0.py:1996-2136. *)
Definition c_sicd130_ImageDataType : Class := mkClass "sicd130.ImageDataType" (ns_sicd130, "ImageDataType") [
    mkField "pixel_type" Element (ns_sicd130, "PixelType") (TEnum "sicd130.ImagePixelType") One true NoDefault;
    mkField "amp_table" Element (ns_sicd130, "AmpTable") (TClass "sicd130.ImageDataType.AmpTable") One false NoDefault;
    mkField "num_rows" Element (ns_sicd130, "NumRows") (TPrim PInt) One true NoDefault;
    mkField "num_cols" Element (ns_sicd130, "NumCols") (TPrim PInt) One true NoDefault;
    mkField "first_row" Element (ns_sicd130, "FirstRow") (TPrim PInt) One true NoDefault;
    mkField "first_col" Element (ns_sicd130, "FirstCol") (TPrim PInt) One true NoDefault;
    mkField "full_image" Element (ns_sicd130, "FullImage") (TClass "sicd130.ImageDataType.FullImage") One true NoDefault;
    mkField "scppixel" Element (ns_sicd130, "SCPPixel") (TClass "sicd130.RowColType") One true NoDefault;
    mkField "valid_data" Element (ns_sicd130, "ValidData") (TClass "sicd130.ImageDataType.ValidData") One false NoDefault].

(** sicd_v1_3_0.py:2078-2096. *)
Definition c_sicd130_ImageDataType_AmpTable : Class := mkClass "sicd130.ImageDataType.AmpTable" (ns_sicd130, "AmpTable") [
    mkField "amplitude" Element (ns_sicd130, "Amplitude") (TClass "sicd130.ArrayDouble") Many true NoDefault;
    mkField "size" Attribute ("", "size") (TPrim PInt) One true NoDefault].

(** sicd_v1_3_0.py:2098-2117. *)
Definition c_sicd130_ImageDataType_FullImage : Class := mkClass "sicd130.ImageDataType.FullImage" (ns_sicd130, "FullImage") [
    mkField "num_rows" Element (ns_sicd130, "NumRows") (TPrim PInt) One true NoDefault;
    mkField "num_cols" Element (ns_sicd130, "NumCols") (TPrim PInt) One true NoDefault].

(** sicd_v1_3_0.py:2119-2136. *)
Definition c_sicd130_ImageDataType_ValidData : Class := mkClass "sicd130.ImageDataType.ValidData" (ns_sicd130, "ValidData") [
    mkField "vertex" Element (ns_sicd130, "Vertex") (TClass "sicd130.RowColvertexType") Many true NoDefault;
    mkField "size" Attribute ("", "size") (TPrim PInt) One true NoDefault].

(** sicd_v1_3_0.py:2139-2250. *)
Definition c_sicd130_PFAType : Class := mkClass "sicd130.PFAType" (ns_sicd130, "PFAType") [
    mkField "fpn" Element (ns_sicd130, "FPN") (TClass "sicd130.XYZType") One true NoDefault;
    mkField "ipn" Element (ns_sicd130, "IPN") (TClass "sicd130.XYZType") One true NoDefault;
    mkField "polar_ang_ref_time" Element (ns_sicd130, "PolarAngRefTime") (TPrim PFloat) One true NoDefault;
    mkField "polar_ang_poly" Element (ns_sicd130, "PolarAngPoly") (TClass "sicd130.Poly1DType") One true NoDefault;
    mkField "spatial_freq_sfpoly" Element (ns_sicd130, "SpatialFreqSFPoly") (TClass "sicd130.Poly1DType") One true NoDefault;
    mkField "krg1" Element (ns_sicd130, "Krg1") (TPrim PFloat) One true NoDefault;
    mkField "krg2" Element (ns_sicd130, "Krg2") (TPrim PFloat) One true NoDefault;
    mkField "kaz1" Element (ns_sicd130, "Kaz1") (TPrim PFloat) One true NoDefault;
    mkField "kaz2" Element (ns_sicd130, "Kaz2") (TPrim PFloat) One true NoDefault;
    mkField "stdeskew" Element (ns_sicd130, "STDeskew") (TClass "sicd130.PFAType.STDeskew") One false NoDefault].

(** sicd_v1_3_0.py:2231-2250. *)
Definition c_sicd130_PFAType_STDeskew : Class := mkClass "sicd130.PFAType.STDeskew" (ns_sicd130, "STDeskew") [
    mkField "applied" Element (ns_sicd130, "Applied") (TPrim PBool) One true NoDefault;
    mkField "stdsphase_poly" Element (ns_sicd130, "STDSPhasePoly") (TClass "sicd130.Poly2DType") One true NoDefault].

(** sicd_v1_3_0.py:2253-2411. *)
Definition c_sicd130_RMAType : Class := mkClass "sicd130.RMAType" (ns_sicd130, "RMAType") [
    mkField "rmalgo_type" Element (ns_sicd130, "RMAlgoType") (TEnum "sicd130.RMAlgorithm") One true NoDefault;
    mkField "image_type" Element (ns_sicd130, "ImageType") (TEnum "sicd130.RMAImageType") One true NoDefault;
    mkField "rmat" Element (ns_sicd130, "RMAT") (TClass "sicd130.RMAType.RMAT") One false NoDefault;
    mkField "rmcr" Element (ns_sicd130, "RMCR") (TClass "sicd130.RMAType.RMCR") One false NoDefault;
    mkField "inca" Element (ns_sicd130, "INCA") (TClass "sicd130.RMAType.INCA") One false NoDefault].

(** sicd_v1_3_0.py:2298-2326. *)
Definition c_sicd130_RMAType_RMAT : Class := mkClass "sicd130.RMAType.RMAT" (ns_sicd130, "RMAT") [
    mkField "pos_ref" Element (ns_sicd130, "PosRef") (TClass "sicd130.XYZType") One true NoDefault;
    mkField "vel_ref" Element (ns_sicd130, "VelRef") (TClass "sicd130.XYZType") One true NoDefault;
    mkField "dop_cone_ang_ref" Element (ns_sicd130, "DopConeAngRef") (TPrim PFloat) One true NoDefault].

(** sicd_v1_3_0.py:2328-2356. *)
Definition c_sicd130_RMAType_RMCR : Class := mkClass "sicd130.RMAType.RMCR" (ns_sicd130, "RMCR") [
    mkField "pos_ref" Element (ns_sicd130, "PosRef") (TClass "sicd130.XYZType") One true NoDefault;
    mkField "vel_ref" Element (ns_sicd130, "VelRef") (TClass "sicd130.XYZType") One true NoDefault;
    mkField "dop_cone_ang_ref" Element (ns_sicd130, "DopConeAngRef") (TPrim PFloat) One true NoDefault].

(** sicd_v1_3_0.py:2358-2411. *)
Definition c_sicd130_RMAType_INCA : Class := mkClass "sicd130.RMAType.INCA" (ns_sicd130, "INCA") [
    mkField "time_capoly" Element (ns_sicd130, "TimeCAPoly") (TClass "sicd130.Poly1DType") One true NoDefault;
    mkField "r_ca_scp" Element (ns_sicd130, "R_CA_SCP") (TPrim PFloat) One true NoDefault;
    mkField "freq_zero" Element (ns_sicd130, "FreqZero") (TPrim PFloat) One true NoDefault;
    mkField "drate_sfpoly" Element (ns_sicd130, "DRateSFPoly") (TClass "sicd130.Poly2DType") One true NoDefault;
    mkField "dop_centroid_poly" Element (ns_sicd130, "DopCentroidPoly") (TClass "sicd130.Poly2DType") One false NoDefault;
    mkField "dop_centroid_coa" Element (ns_sicd130, "DopCentroidCOA") (TPrim PBool) One false NoDefault].

(** sicd_v1_3_0.py:2414-2973. *)
Definition c_sicd130_RadarCollectionType : Class := mkClass "sicd130.RadarCollectionType" (ns_sicd130, "RadarCollectionType") [
    mkField "tx_frequency" Element (ns_sicd130, "TxFrequency") (TClass "sicd130.RadarCollectionType.TxFrequency") One true NoDefault;
    mkField "ref_freq_index" Element (ns_sicd130, "RefFreqIndex") (TPrim PInt) One false NoDefault;
    mkField "waveform" Element (ns_sicd130, "Waveform") (TClass "sicd130.RadarCollectionType.Waveform") One false NoDefault;
    mkField "tx_polarization" Element (ns_sicd130, "TxPolarization") (TPrim PStr) One true NoDefault;
    mkField "tx_sequence" Element (ns_sicd130, "TxSequence") (TClass "sicd130.RadarCollectionType.TxSequence") One false NoDefault;
    mkField "rcv_channels" Element (ns_sicd130, "RcvChannels") (TClass "sicd130.RadarCollectionType.RcvChannels") One true NoDefault;
    mkField "area" Element (ns_sicd130, "Area") (TClass "sicd130.RadarCollectionType.Area") One false NoDefault;
    mkField "parameter" Element (ns_sicd130, "Parameter") (TClass "sicd130.ParameterType") Many false NoDefault].

(** sicd_v1_3_0.py:2485-2504. *)
Definition c_sicd130_RadarCollectionType_TxFrequency : Class := mkClass "sicd130.RadarCollectionType.TxFrequency" (ns_sicd130, "TxFrequency") [
    mkField "min" Element (ns_sicd130, "Min") (TPrim PFloat) One true NoDefault;
    mkField "max" Element (ns_sicd130, "Max") (TPrim PFloat) One true NoDefault].

(** sicd_v1_3_0.py:2506-2613. *)
Definition c_sicd130_RadarCollectionType_Waveform : Class := mkClass "sicd130.RadarCollectionType.Waveform" (ns_sicd130, "Waveform") [
    mkField "wfparameters" Element (ns_sicd130, "WFParameters") (TClass "sicd130.RadarCollectionType.Waveform.WFParameters") Many true NoDefault;
    mkField "size" Attribute ("", "size") (TPrim PInt) One true NoDefault].

(** sicd_v1_3_0.py:2525-2613. *)
Definition c_sicd130_RadarCollectionType_Waveform_WFParameters : Class := mkClass "sicd130.RadarCollectionType.Waveform.WFParameters" (ns_sicd130, "WFParameters") [
    mkField "tx_pulse_length" Element (ns_sicd130, "TxPulseLength") (TPrim PFloat) One false NoDefault;
    mkField "tx_rfbandwidth" Element (ns_sicd130, "TxRFBandwidth") (TPrim PFloat) One false NoDefault;
    mkField "tx_freq_start" Element (ns_sicd130, "TxFreqStart") (TPrim PFloat) One false NoDefault;
    mkField "tx_fmrate" Element (ns_sicd130, "TxFMRate") (TPrim PFloat) One false NoDefault;
    mkField "rcv_demod_type" Element (ns_sicd130, "RcvDemodType") (TEnum "sicd130.WFParametersRcvDemodType") One false NoDefault;
    mkField "rcv_window_length" Element (ns_sicd130, "RcvWindowLength") (TPrim PFloat) One false NoDefault;
    mkField "adcsample_rate" Element (ns_sicd130, "ADCSampleRate") (TPrim PFloat) One false NoDefault;
    mkField "rcv_ifbandwidth" Element (ns_sicd130, "RcvIFBandwidth") (TPrim PFloat) One false NoDefault;
    mkField "rcv_freq_start" Element (ns_sicd130, "RcvFreqStart") (TPrim PFloat) One false NoDefault;
    mkField "rcv_fmrate" Element (ns_sicd130, "RcvFMRate") (TPrim PFloat) One false NoDefault;
    mkField "index" Attribute ("", "index") (TPrim PInt) One true NoDefault].

(** sicd_v1_3_0.py:2615-2659. *)
Definition c_sicd130_RadarCollectionType_TxSequence : Class := mkClass "sicd130.RadarCollectionType.TxSequence" (ns_sicd130, "TxSequence") [
    mkField "tx_step" Element (ns_sicd130, "TxStep") (TClass "sicd130.RadarCollectionType.TxSequence.TxStep") Many true NoDefault;
    mkField "size" Attribute ("", "size") (TPrim PInt) One true NoDefault].

(** sicd_v1_3_0.py:2634-2659. *)
Definition c_sicd130_RadarCollectionType_TxSequence_TxStep : Class := mkClass "sicd130.RadarCollectionType.TxSequence.TxStep" (ns_sicd130, "TxStep") [
    mkField "wfindex" Element (ns_sicd130, "WFIndex") (TPrim PInt) One false NoDefault;
    mkField "tx_polarization" Element (ns_sicd130, "TxPolarization") (TPrim PStr) One false NoDefault;
    mkField "index" Attribute ("", "index") (TPrim PInt) One true NoDefault].

(** sicd_v1_3_0.py:2661-2706. *)
Definition c_sicd130_RadarCollectionType_RcvChannels : Class := mkClass "sicd130.RadarCollectionType.RcvChannels" (ns_sicd130, "RcvChannels") [
    mkField "chan_parameters" Element (ns_sicd130, "ChanParameters") (TClass "sicd130.RadarCollectionType.RcvChannels.ChanParameters") Many true NoDefault;
    mkField "size" Attribute ("", "size") (TPrim PInt) One true NoDefault].

(** sicd_v1_3_0.py:2680-2706. *)
Definition c_sicd130_RadarCollectionType_RcvChannels_ChanParameters : Class := mkClass "sicd130.RadarCollectionType.RcvChannels.ChanParameters" (ns_sicd130, "ChanParameters") [
    mkField "tx_rcv_polarization" Element (ns_sicd130, "TxRcvPolarization") (TPrim PStr) One true NoDefault;
    mkField "rcv_apcindex" Element (ns_sicd130, "RcvAPCIndex") (TPrim PInt) One false NoDefault;
    mkField "index" Attribute ("", "index") (TPrim PInt) One true NoDefault].

(** sicd_v1_3_0.py:2708-2973. *)
Definition c_sicd130_RadarCollectionType_Area : Class := mkClass "sicd130.RadarCollectionType.Area" (ns_sicd130, "Area") [
    mkField "corner" Element (ns_sicd130, "Corner") (TClass "sicd130.RadarCollectionType.Area.Corner") One true NoDefault;
    mkField "plane" Element (ns_sicd130, "Plane") (TClass "sicd130.RadarCollectionType.Area.Plane") One false NoDefault].

(** sicd_v1_3_0.py:2728-2739. *)
Definition c_sicd130_RadarCollectionType_Area_Corner : Class := mkClass "sicd130.RadarCollectionType.Area.Corner" (ns_sicd130, "Corner") [
    mkField "acp" Element (ns_sicd130, "ACP") (TClass "sicd130.LatLonHAECornerRestrictType") Many true NoDefault].

(** sicd_v1_3_0.py:2741-2973. *)
Definition c_sicd130_RadarCollectionType_Area_Plane : Class := mkClass "sicd130.RadarCollectionType.Area.Plane" (ns_sicd130, "Plane") [
    mkField "ref_pt" Element (ns_sicd130, "RefPt") (TClass "sicd130.RadarCollectionType.Area.Plane.RefPt") One true NoDefault;
    mkField "xdir" Element (ns_sicd130, "XDir") (TClass "sicd130.RadarCollectionType.Area.Plane.XDir") One true NoDefault;
    mkField "ydir" Element (ns_sicd130, "YDir") (TClass "sicd130.RadarCollectionType.Area.Plane.YDir") One true NoDefault;
    mkField "segment_list" Element (ns_sicd130, "SegmentList") (TClass "sicd130.RadarCollectionType.Area.Plane.SegmentList") One false NoDefault;
    mkField "orientation" Element (ns_sicd130, "Orientation") (TEnum "sicd130.OrientationType") One false NoDefault].

(** sicd_v1_3_0.py:2787-2821. *)
Definition c_sicd130_RadarCollectionType_Area_Plane_RefPt : Class := mkClass "sicd130.RadarCollectionType.Area.Plane.RefPt" (ns_sicd130, "RefPt") [
    mkField "ecf" Element (ns_sicd130, "ECF") (TClass "sicd130.XYZType") One true NoDefault;
    mkField "line" Element (ns_sicd130, "Line") (TPrim PFloat) One true NoDefault;
    mkField "sample" Element (ns_sicd130, "Sample") (TPrim PFloat) One true NoDefault;
    mkField "name" Attribute ("", "name") (TPrim PStr) One false NoDefault].

(** sicd_v1_3_0.py:2823-2860. *)
Definition c_sicd130_RadarCollectionType_Area_Plane_XDir : Class := mkClass "sicd130.RadarCollectionType.Area.Plane.XDir" (ns_sicd130, "XDir") [
    mkField "uvect_ecf" Element (ns_sicd130, "UVectECF") (TClass "sicd130.XYZType") One true NoDefault;
    mkField "line_spacing" Element (ns_sicd130, "LineSpacing") (TPrim PFloat) One true NoDefault;
    mkField "num_lines" Element (ns_sicd130, "NumLines") (TPrim PInt) One true NoDefault;
    mkField "first_line" Element (ns_sicd130, "FirstLine") (TPrim PInt) One true NoDefault].

(** sicd_v1_3_0.py:2862-2899. *)
Definition c_sicd130_RadarCollectionType_Area_Plane_YDir : Class := mkClass "sicd130.RadarCollectionType.Area.Plane.YDir" (ns_sicd130, "YDir") [
    mkField "uvect_ecf" Element (ns_sicd130, "UVectECF") (TClass "sicd130.XYZType") One true NoDefault;
    mkField "sample_spacing" Element (ns_sicd130, "SampleSpacing") (TPrim PFloat) One true NoDefault;
    mkField "num_samples" Element (ns_sicd130, "NumSamples") (TPrim PInt) One true NoDefault;
    mkField "first_sample" Element (ns_sicd130, "FirstSample") (TPrim PInt) One true NoDefault].

(** sicd_v1_3_0.py:2901-2973. *)
Definition c_sicd130_RadarCollectionType_Area_Plane_SegmentList : Class := mkClass "sicd130.RadarCollectionType.Area.Plane.SegmentList" (ns_sicd130, "SegmentList") [
    mkField "segment" Element (ns_sicd130, "Segment") (TClass "sicd130.RadarCollectionType.Area.Plane.SegmentList.Segment") Many true NoDefault;
    mkField "size" Attribute ("", "size") (TPrim PInt) One true NoDefault].

(** sicd_v1_3_0.py:2920-2973. *)
Definition c_sicd130_RadarCollectionType_Area_Plane_SegmentList_Segment : Class := mkClass "sicd130.RadarCollectionType.Area.Plane.SegmentList.Segment" (ns_sicd130, "Segment") [
    mkField "start_line" Element (ns_sicd130, "StartLine") (TPrim PInt) One true NoDefault;
    mkField "start_sample" Element (ns_sicd130, "StartSample") (TPrim PInt) One true NoDefault;
    mkField "end_line" Element (ns_sicd130, "EndLine") (TPrim PInt) One true NoDefault;
    mkField "end_sample" Element (ns_sicd130, "EndSample") (TPrim PInt) One true NoDefault;
    mkField "identifier" Element (ns_sicd130, "Identifier") (TPrim PStr) One true NoDefault;
    mkField "index" Attribute ("", "index") (TPrim PInt) One true NoDefault].

(** sicd_v1_3_0.py:2976-3038. *)
Definition c_sicd130_RadiometricType : Class := mkClass "sicd130.RadiometricType" (ns_sicd130, "RadiometricType") [
    mkField "noise_level" Element (ns_sicd130, "NoiseLevel") (TClass "sicd130.RadiometricType.NoiseLevel") One false NoDefault;
    mkField "rcssfpoly" Element (ns_sicd130, "RCSSFPoly") (TClass "sicd130.Poly2DType") One false NoDefault;
    mkField "sigma_zero_sfpoly" Element (ns_sicd130, "SigmaZeroSFPoly") (TClass "sicd130.Poly2DType") One false NoDefault;
    mkField "beta_zero_sfpoly" Element (ns_sicd130, "BetaZeroSFPoly") (TClass "sicd130.Poly2DType") One false NoDefault;
    mkField "gamma_zero_sfpoly" Element (ns_sicd130, "GammaZeroSFPoly") (TClass "sicd130.Poly2DType") One false NoDefault].

(** sicd_v1_3_0.py:3019-3038. *)
Definition c_sicd130_RadiometricType_NoiseLevel : Class := mkClass "sicd130.RadiometricType.NoiseLevel" (ns_sicd130, "NoiseLevel") [
    mkField "noise_level_type" Element (ns_sicd130, "NoiseLevelType") (TEnum "sicd130.NoiseLevelType") One true NoDefault;
    mkField "noise_poly" Element (ns_sicd130, "NoisePoly") (TClass "sicd130.Poly2DType") One true NoDefault].

(** sicd_v1_3_0.py:3041-3060. *)
Definition c_sicd130_RgAzCompType : Class := mkClass "sicd130.RgAzCompType" (ns_sicd130, "RgAzCompType") [
    mkField "az_sf" Element (ns_sicd130, "AzSF") (TPrim PFloat) One true NoDefault;
    mkField "kaz_poly" Element (ns_sicd130, "KazPoly") (TClass "sicd130.Poly1DType") One true NoDefault].

(** sicd_v1_3_0.py:3063-3164. *)
Definition c_sicd130_TimelineType : Class := mkClass "sicd130.TimelineType" (ns_sicd130, "TimelineType") [
    mkField "collect_start" Element (ns_sicd130, "CollectStart") (TPrim PDateTime) One true NoDefault;
    mkField "collect_duration" Element (ns_sicd130, "CollectDuration") (TPrim PFloat) One true NoDefault;
    mkField "ipp" Element (ns_sicd130, "IPP") (TClass "sicd130.TimelineType.IPP") One false NoDefault].

(** sicd_v1_3_0.py:3092-3164. *)
Definition c_sicd130_TimelineType_IPP : Class := mkClass "sicd130.TimelineType.IPP" (ns_sicd130, "IPP") [
    mkField "set" Element (ns_sicd130, "Set") (TClass "sicd130.TimelineType.IPP.Set") Many true NoDefault;
    mkField "size" Attribute ("", "size") (TPrim PInt) One true NoDefault].

(** sicd_v1_3_0.py:3111-3164. *)
Definition c_sicd130_TimelineType_IPP_Set : Class := mkClass "sicd130.TimelineType.IPP.Set" (ns_sicd130, "Set") [
    mkField "tstart" Element (ns_sicd130, "TStart") (TPrim PFloat) One true NoDefault;
    mkField "tend" Element (ns_sicd130, "TEnd") (TPrim PFloat) One true NoDefault;
    mkField "ippstart" Element (ns_sicd130, "IPPStart") (TPrim PInt) One true NoDefault;
    mkField "ippend" Element (ns_sicd130, "IPPEnd") (TPrim PInt) One true NoDefault;
    mkField "ipppoly" Element (ns_sicd130, "IPPPoly") (TClass "sicd130.Poly1DType") One true NoDefault;
    mkField "index" Attribute ("", "index") (TPrim PInt) One true NoDefault].

(** sicd_v1_3_0.py:3167-3195. *)
Definition c_sicd130_XYZPolyType : Class := mkClass "sicd130.XYZPolyType" (ns_sicd130, "XYZPolyType") [
    mkField "x" Element (ns_sicd130, "X") (TClass "sicd130.Poly1DType") One true NoDefault;
    mkField "y" Element (ns_sicd130, "Y") (TClass "sicd130.Poly1DType") One true NoDefault;
    mkField "z" Element (ns_sicd130, "Z") (TClass "sicd130.Poly1DType") One true NoDefault].

(** sicd_v1_3_0.py:3198-3296. *)
Definition c_sicd130_AntParamType : Class := mkClass "sicd130.AntParamType" (ns_sicd130, "AntParamType") [
    mkField "xaxis_poly" Element (ns_sicd130, "XAxisPoly") (TClass "sicd130.XYZPolyType") One true NoDefault;
    mkField "yaxis_poly" Element (ns_sicd130, "YAxisPoly") (TClass "sicd130.XYZPolyType") One true NoDefault;
    mkField "freq_zero" Element (ns_sicd130, "FreqZero") (TPrim PFloat) One true NoDefault;
    mkField "eb" Element (ns_sicd130, "EB") (TClass "sicd130.AntParamType.EB") One false NoDefault;
    mkField "array" Element (ns_sicd130, "Array") (TClass "sicd130.GainPhasePolyType") One true NoDefault;
    mkField "elem" Element (ns_sicd130, "Elem") (TClass "sicd130.GainPhasePolyType") One false NoDefault;
    mkField "gain_bspoly" Element (ns_sicd130, "GainBSPoly") (TClass "sicd130.Poly1DType") One false NoDefault;
    mkField "ebfreq_shift" Element (ns_sicd130, "EBFreqShift") (TPrim PBool) One false NoDefault;
    mkField "mlfreq_dilation" Element (ns_sicd130, "MLFreqDilation") (TPrim PBool) One false NoDefault].

(** sicd_v1_3_0.py:3277-3296. *)
Definition c_sicd130_AntParamType_EB : Class := mkClass "sicd130.AntParamType.EB" (ns_sicd130, "EB") [
    mkField "dcxpoly" Element (ns_sicd130, "DCXPoly") (TClass "sicd130.Poly1DType") One true NoDefault;
    mkField "dcypoly" Element (ns_sicd130, "DCYPoly") (TClass "sicd130.Poly1DType") One true NoDefault].

(** sicd_v1_3_0.py:3299-3377. *)
Definition c_sicd130_GeoDataType : Class := mkClass "sicd130.GeoDataType" (ns_sicd130, "GeoDataType") [
    mkField "earth_model" Element (ns_sicd130, "EarthModel") (TEnum "sicd130.EarthModel") One true NoDefault;
    mkField "scp" Element (ns_sicd130, "SCP") (TClass "sicd130.GeoDataType.SCP") One true NoDefault;
    mkField "image_corners" Element (ns_sicd130, "ImageCorners") (TClass "sicd130.GeoDataType.ImageCorners") One true NoDefault;
    mkField "valid_data" Element (ns_sicd130, "ValidData") (TClass "sicd130.PolygonType") One false NoDefault;
    mkField "geo_info" Element (ns_sicd130, "GeoInfo") (TClass "sicd130.GeoInfoType") Many false NoDefault].

(** sicd_v1_3_0.py:3345-3364. *)
Definition c_sicd130_GeoDataType_SCP : Class := mkClass "sicd130.GeoDataType.SCP" (ns_sicd130, "SCP") [
    mkField "ecf" Element (ns_sicd130, "ECF") (TClass "sicd130.XYZType") One true NoDefault;
    mkField "llh" Element (ns_sicd130, "LLH") (TClass "sicd130.LatLonHAERestrictionType") One true NoDefault].

(** sicd_v1_3_0.py:3366-3377. *)
Definition c_sicd130_GeoDataType_ImageCorners : Class := mkClass "sicd130.GeoDataType.ImageCorners" (ns_sicd130, "ImageCorners") [
    mkField "icp" Element (ns_sicd130, "ICP") (TClass "sicd130.LatLonCornerStringType") Many true NoDefault].

(** sicd_v1_3_0.py:3380-3426. *)
Definition c_sicd130_GridType : Class := mkClass "sicd130.GridType" (ns_sicd130, "GridType") [
    mkField "image_plane" Element (ns_sicd130, "ImagePlane") (TEnum "sicd130.ImagePlane") One true NoDefault;
    mkField "type_value" Element (ns_sicd130, "Type") (TEnum "sicd130.ImageGridType") One true NoDefault;
    mkField "time_coapoly" Element (ns_sicd130, "TimeCOAPoly") (TClass "sicd130.Poly2DType") One true NoDefault;
    mkField "row" Element (ns_sicd130, "Row") (TClass "sicd130.DirParamType") One true NoDefault;
    mkField "col" Element (ns_sicd130, "Col") (TClass "sicd130.DirParamType") One true NoDefault].

(** sicd_v1_3_0.py:3429-3437. *)
Definition c_sicd130_XYZPolyAttributeType : Class := mkClass "sicd130.XYZPolyAttributeType" (ns_sicd130, "XYZPolyAttributeType") [
    mkField "x" Element (ns_sicd130, "X") (TClass "sicd130.Poly1DType") One true NoDefault;
    mkField "y" Element (ns_sicd130, "Y") (TClass "sicd130.Poly1DType") One true NoDefault;
    mkField "z" Element (ns_sicd130, "Z") (TClass "sicd130.Poly1DType") One true NoDefault;
    mkField "index" Attribute ("", "index") (TPrim PInt) One true NoDefault].

(** sicd_v1_3_0.py:3440-3465. *)
Definition c_sicd130_AntennaType : Class := mkClass "sicd130.AntennaType" (ns_sicd130, "AntennaType") [
    mkField "tx" Element (ns_sicd130, "Tx") (TClass "sicd130.AntParamType") One false NoDefault;
    mkField "rcv" Element (ns_sicd130, "Rcv") (TClass "sicd130.AntParamType") One false NoDefault;
    mkField "two_way" Element (ns_sicd130, "TwoWay") (TClass "sicd130.AntParamType") One false NoDefault].

(** sicd_v1_3_0.py:3468-3521. *)
Definition c_sicd130_PositionType : Class := mkClass "sicd130.PositionType" (ns_sicd130, "PositionType") [
    mkField "arppoly" Element (ns_sicd130, "ARPPoly") (TClass "sicd130.XYZPolyType") One true NoDefault;
    mkField "grppoly" Element (ns_sicd130, "GRPPoly") (TClass "sicd130.XYZPolyType") One false NoDefault;
    mkField "tx_apcpoly" Element (ns_sicd130, "TxAPCPoly") (TClass "sicd130.XYZPolyType") One false NoDefault;
    mkField "rcv_apc" Element (ns_sicd130, "RcvAPC") (TClass "sicd130.PositionType.RcvAPC") One false NoDefault].

(** sicd_v1_3_0.py:3504-3521. *)
Definition c_sicd130_PositionType_RcvAPC : Class := mkClass "sicd130.PositionType.RcvAPC" (ns_sicd130, "RcvAPC") [
    mkField "rcv_apcpoly" Element (ns_sicd130, "RcvAPCPoly") (TClass "sicd130.XYZPolyAttributeType") Many true NoDefault;
    mkField "size" Attribute ("", "size") (TPrim PInt) One true NoDefault].

(** sicd_v1_3_0.py:3524-3656. *)
Definition c_sicd130_SICD : Class := mkClass "sicd130.SICD" (ns_sicd130, "SICD") [
    mkField "collection_info" Element (ns_sicd130, "CollectionInfo") (TClass "sicd130.CollectionInfoType") One true NoDefault;
    mkField "image_creation" Element (ns_sicd130, "ImageCreation") (TClass "sicd130.ImageCreationType") One false NoDefault;
    mkField "image_data" Element (ns_sicd130, "ImageData") (TClass "sicd130.ImageDataType") One true NoDefault;
    mkField "geo_data" Element (ns_sicd130, "GeoData") (TClass "sicd130.GeoDataType") One true NoDefault;
    mkField "grid" Element (ns_sicd130, "Grid") (TClass "sicd130.GridType") One true NoDefault;
    mkField "timeline" Element (ns_sicd130, "Timeline") (TClass "sicd130.TimelineType") One true NoDefault;
    mkField "position" Element (ns_sicd130, "Position") (TClass "sicd130.PositionType") One true NoDefault;
    mkField "radar_collection" Element (ns_sicd130, "RadarCollection") (TClass "sicd130.RadarCollectionType") One true NoDefault;
    mkField "image_formation" Element (ns_sicd130, "ImageFormation") (TClass "sicd130.ImageFormationType") One true NoDefault;
    mkField "scpcoa" Element (ns_sicd130, "SCPCOA") (TClass "sicd130.SCPCOAType") One true NoDefault;
    mkField "radiometric" Element (ns_sicd130, "Radiometric") (TClass "sicd130.RadiometricType") One false NoDefault;
    mkField "antenna" Element (ns_sicd130, "Antenna") (TClass "sicd130.AntennaType") One false NoDefault;
    mkField "error_statistics" Element (ns_sicd130, "ErrorStatistics") (TClass "sicd130.ErrorStatisticsType") One false NoDefault;
    mkField "match_info" Element (ns_sicd130, "MatchInfo") (TClass "sicd130.MatchInfoType") One false NoDefault;
    mkField "rg_az_comp" Element (ns_sicd130, "RgAzComp") (TClass "sicd130.RgAzCompType") One false NoDefault;
    mkField "pfa" Element (ns_sicd130, "PFA") (TClass "sicd130.PFAType") One false NoDefault;
    mkField "rma" Element (ns_sicd130, "RMA") (TClass "sicd130.RMAType") One false NoDefault].

Definition sicd_classes : list Class := [
  c_sicd121_ArrayDouble;
  c_sicd121_ComplexType;
  c_sicd121_ErrorDecorrFuncType;
  c_sicd121_ImageCreationType;
  c_sicd121_LatLonHAERestrictionType;
  c_sicd121_LatLonHAEType;
  c_sicd121_LatLonRestrictionType;
  c_sicd121_LatLonType;
  c_sicd121_ParameterType;
  c_sicd121_PolyCoef1DType;
  c_sicd121_PolyCoef2DType;
  c_sicd121_RowColType;
  c_sicd121_XYZType;
  c_sicd121_CollectionInfoType;
  c_sicd121_CollectionInfoType_RadarMode;
  c_sicd121_ErrorStatisticsType;
  c_sicd121_ErrorStatisticsType_CompositeSCP;
  c_sicd121_ErrorStatisticsType_Components;
  c_sicd121_ErrorStatisticsType_Components_PosVelErr;
  c_sicd121_ErrorStatisticsType_Components_PosVelErr_CorrCoefs;
  c_sicd121_ErrorStatisticsType_Components_RadarSensor;
  c_sicd121_ErrorStatisticsType_Components_TropoError;
  c_sicd121_ErrorStatisticsType_Components_IonoError;
  c_sicd121_ErrorStatisticsType_AdditionalParms;
  c_sicd121_ImageFormationType;
  c_sicd121_ImageFormationType_RcvChanProc;
  c_sicd121_ImageFormationType_TxFrequencyProc;
  c_sicd121_ImageFormationType_Processing;
  c_sicd121_ImageFormationType_PolarizationCalibration;
  c_sicd121_ImageFormationType_PolarizationCalibration_Distortion;
  c_sicd121_LatLonCornerStringType;
  c_sicd121_LatLonCornerType;
  c_sicd121_LatLonHAECornerRestrictType;
  c_sicd121_LatLonHAECornerStringType;
  c_sicd121_LineType;
  c_sicd121_LineType_Endpoint;
  c_sicd121_MatchInfoType;
  c_sicd121_MatchInfoType_MatchType;
  c_sicd121_MatchInfoType_MatchType_MatchCollection;
  c_sicd121_Poly1DType;
  c_sicd121_Poly2DType;
  c_sicd121_PolygonType;
  c_sicd121_PolygonType_Vertex;
  c_sicd121_RowColvertexType;
  c_sicd121_SCPCOAType;
  c_sicd121_DirParamType;
  c_sicd121_DirParamType_WgtType;
  c_sicd121_DirParamType_WgtFunct;
  c_sicd121_GainPhasePolyType;
  c_sicd121_GeoInfoType;
  c_sicd121_ImageDataType;
  c_sicd121_ImageDataType_AmpTable;
  c_sicd121_ImageDataType_FullImage;
  c_sicd121_ImageDataType_ValidData;
  c_sicd121_PFAType;
  c_sicd121_PFAType_STDeskew;
  c_sicd121_RMAType;
  c_sicd121_RMAType_RMAT;
  c_sicd121_RMAType_RMCR;
  c_sicd121_RMAType_INCA;
  c_sicd121_RadarCollectionType;
  c_sicd121_RadarCollectionType_TxFrequency;
  c_sicd121_RadarCollectionType_Waveform;
  c_sicd121_RadarCollectionType_Waveform_WFParameters;
  c_sicd121_RadarCollectionType_TxSequence;
  c_sicd121_RadarCollectionType_TxSequence_TxStep;
  c_sicd121_RadarCollectionType_RcvChannels;
  c_sicd121_RadarCollectionType_RcvChannels_ChanParameters;
  c_sicd121_RadarCollectionType_Area;
  c_sicd121_RadarCollectionType_Area_Corner;
  c_sicd121_RadarCollectionType_Area_Plane;
  c_sicd121_RadarCollectionType_Area_Plane_RefPt;
  c_sicd121_RadarCollectionType_Area_Plane_XDir;
  c_sicd121_RadarCollectionType_Area_Plane_YDir;
  c_sicd121_RadarCollectionType_Area_Plane_SegmentList;
  c_sicd121_RadarCollectionType_Area_Plane_SegmentList_Segment;
  c_sicd121_RadiometricType;
  c_sicd121_RadiometricType_NoiseLevel;
  c_sicd121_RgAzCompType;
  c_sicd121_TimelineType;
  c_sicd121_TimelineType_IPP;
  c_sicd121_TimelineType_IPP_Set;
  c_sicd121_XYZPolyType;
  c_sicd121_AntParamType;
  c_sicd121_AntParamType_EB;
  c_sicd121_GeoDataType;
  c_sicd121_GeoDataType_SCP;
  c_sicd121_GeoDataType_ImageCorners;
  c_sicd121_GridType;
  c_sicd121_XYZPolyAttributeType;
  c_sicd121_AntennaType;
  c_sicd121_PositionType;
  c_sicd121_PositionType_RcvAPC;
  c_sicd121_SICD;
  c_sicd130_ArrayDouble;
  c_sicd130_ComplexType;
  c_sicd130_ErrorDecorrFuncType;
  c_sicd130_ImageCreationType;
  c_sicd130_LatLonHAERestrictionType;
  c_sicd130_LatLonHAEType;
  c_sicd130_LatLonRestrictionType;
  c_sicd130_LatLonType;
  c_sicd130_ParameterType;
  c_sicd130_PolyCoef1DType;
  c_sicd130_PolyCoef2DType;
  c_sicd130_RowColType;
  c_sicd130_XYZType;
  c_sicd130_CollectionInfoType;
  c_sicd130_CollectionInfoType_RadarMode;
  c_sicd130_ErrorStatisticsType;
  c_sicd130_ErrorStatisticsType_CompositeSCP;
  c_sicd130_ErrorStatisticsType_Components;
  c_sicd130_ErrorStatisticsType_Components_PosVelErr;
  c_sicd130_ErrorStatisticsType_Components_PosVelErr_CorrCoefs;
  c_sicd130_ErrorStatisticsType_Components_RadarSensor;
  c_sicd130_ErrorStatisticsType_Components_TropoError;
  c_sicd130_ErrorStatisticsType_Components_IonoError;
  c_sicd130_ErrorStatisticsType_Unmodeled;
  c_sicd130_ErrorStatisticsType_Unmodeled_UnmodeledDecorr;
  c_sicd130_ErrorStatisticsType_AdditionalParms;
  c_sicd130_ImageFormationType;
  c_sicd130_ImageFormationType_RcvChanProc;
  c_sicd130_ImageFormationType_TxFrequencyProc;
  c_sicd130_ImageFormationType_Processing;
  c_sicd130_ImageFormationType_PolarizationCalibration;
  c_sicd130_ImageFormationType_PolarizationCalibration_Distortion;
  c_sicd130_LatLonCornerStringType;
  c_sicd130_LatLonCornerType;
  c_sicd130_LatLonHAECornerRestrictType;
  c_sicd130_LatLonHAECornerStringType;
  c_sicd130_LineType;
  c_sicd130_LineType_Endpoint;
  c_sicd130_MatchInfoType;
  c_sicd130_MatchInfoType_MatchType;
  c_sicd130_MatchInfoType_MatchType_MatchCollection;
  c_sicd130_Poly1DType;
  c_sicd130_Poly2DType;
  c_sicd130_PolygonType;
  c_sicd130_PolygonType_Vertex;
  c_sicd130_RowColvertexType;
  c_sicd130_SCPCOAType;
  c_sicd130_DirParamType;
  c_sicd130_DirParamType_WgtType;
  c_sicd130_DirParamType_WgtFunct;
  c_sicd130_GainPhasePolyType;
  c_sicd130_GeoInfoType;
  c_sicd130_ImageDataType;
  c_sicd130_ImageDataType_AmpTable;
  c_sicd130_ImageDataType_FullImage;
  c_sicd130_ImageDataType_ValidData;
  c_sicd130_PFAType;
  c_sicd130_PFAType_STDeskew;
  c_sicd130_RMAType;
  c_sicd130_RMAType_RMAT;
  c_sicd130_RMAType_RMCR;
  c_sicd130_RMAType_INCA;
  c_sicd130_RadarCollectionType;
  c_sicd130_RadarCollectionType_TxFrequency;
  c_sicd130_RadarCollectionType_Waveform;
  c_sicd130_RadarCollectionType_Waveform_WFParameters;
  c_sicd130_RadarCollectionType_TxSequence;
  c_sicd130_RadarCollectionType_TxSequence_TxStep;
  c_sicd130_RadarCollectionType_RcvChannels;
  c_sicd130_RadarCollectionType_RcvChannels_ChanParameters;
  c_sicd130_RadarCollectionType_Area;
  c_sicd130_RadarCollectionType_Area_Corner;
  c_sicd130_RadarCollectionType_Area_Plane;
  c_sicd130_RadarCollectionType_Area_Plane_RefPt;
  c_sicd130_RadarCollectionType_Area_Plane_XDir;
  c_sicd130_RadarCollectionType_Area_Plane_YDir;
  c_sicd130_RadarCollectionType_Area_Plane_SegmentList;
  c_sicd130_RadarCollectionType_Area_Plane_SegmentList_Segment;
  c_sicd130_RadiometricType;
  c_sicd130_RadiometricType_NoiseLevel;
  c_sicd130_RgAzCompType;
  c_sicd130_TimelineType;
  c_sicd130_TimelineType_IPP;
  c_sicd130_TimelineType_IPP_Set;
  c_sicd130_XYZPolyType;
  c_sicd130_AntParamType;
  c_sicd130_AntParamType_EB;
  c_sicd130_GeoDataType;
  c_sicd130_GeoDataType_SCP;
  c_sicd130_GeoDataType_ImageCorners;
  c_sicd130_GridType;
  c_sicd130_XYZPolyAttributeType;
  c_sicd130_AntennaType;
  c_sicd130_PositionType;
  c_sicd130_PositionType_RcvAPC;
  c_sicd130_SICD].
