(** Which dataclass was generated from which type of the schemas; a table made by a script. *)
Require Import String List.
Import ListNotations.
Local Open Scope string_scope.

Definition class_types : list (string * string) := [
  ("common01.AngleMagnitudeType", "common01.AngleMagnitudeType");
  ("common01.ArrayDoubleType", "common01.ArrayDoubleType");
  ("common01.CollectionInfoType", "common01.CollectionInfoType");
  ("common01.ComplexType", "common01.ComplexType");
  ("common01.ErrorStatisticsType", "common01.ErrorStatisticsType");
  ("common01.ErrorStatisticsType.AdditionalParms", "common01.ErrorStatisticsType/AdditionalParms");
  ("common01.ErrorStatisticsType.Components", "common01.ErrorStatisticsType/Components");
  ("common01.ErrorStatisticsType.Components.IonoError", "common01.ErrorStatisticsType/Components/IonoError");
  ("common01.ErrorStatisticsType.Components.IonoError.IonoRangeVertDecorr", "common01.ErrorStatisticsType/Components/IonoError/IonoRangeVertDecorr");
  ("common01.ErrorStatisticsType.Components.PosVelErr", "common01.ErrorStatisticsType/Components/PosVelErr");
  ("common01.ErrorStatisticsType.Components.PosVelErr.CorrCoefs", "common01.ErrorStatisticsType/Components/PosVelErr/CorrCoefs");
  ("common01.ErrorStatisticsType.Components.PosVelErr.PositionDecorr", "common01.ErrorStatisticsType/Components/PosVelErr/PositionDecorr");
  ("common01.ErrorStatisticsType.Components.RadarSensor", "common01.ErrorStatisticsType/Components/RadarSensor");
  ("common01.ErrorStatisticsType.Components.RadarSensor.RangeBiasDecorr", "common01.ErrorStatisticsType/Components/RadarSensor/RangeBiasDecorr");
  ("common01.ErrorStatisticsType.Components.TropoError", "common01.ErrorStatisticsType/Components/TropoError");
  ("common01.ErrorStatisticsType.Components.TropoError.TropoRangeDecorr", "common01.ErrorStatisticsType/Components/TropoError/TropoRangeDecorr");
  ("common01.ErrorStatisticsType.CompositeSCP", "common01.ErrorStatisticsType/CompositeSCP");
  ("common01.ErrorStatisticsType.CompositeSCP.RgAzErr", "common01.ErrorStatisticsType/CompositeSCP/RgAzErr");
  ("common01.ErrorStatisticsType.CompositeSCP.RowColErr", "common01.ErrorStatisticsType/CompositeSCP/RowColErr");
  ("common01.ImageCreationType", "common01.ImageCreationType");
  ("common01.LLHCornerStringType", "common01.LLHCornerStringType");
  ("common01.LLHType", "common01.LLHType");
  ("common01.LatLonCornerStringType", "common01.LatLonCornerStringType");
  ("common01.LatLonCornerType", "common01.LatLonCornerType");
  ("common01.LatLonHAECornerType", "common01.LatLonHAECornerType");
  ("common01.LatLonType", "common01.LatLonType");
  ("common01.LatLonVertexType", "common01.LatLonVertexType");
  ("common01.LineType", "common01.LineType");
  ("common01.LineType.Endpoint", "common01.LineType/Endpoint");
  ("common01.ParameterType", "common01.ParameterType");
  ("common01.Poly1DType", "common01.Poly1DType");
  ("common01.Poly2DType", "common01.Poly2DType");
  ("common01.PolyCoef1DType", "common01.PolyCoef1DType");
  ("common01.PolyCoef2DType", "common01.PolyCoef2DType");
  ("common01.PolygonType", "common01.PolygonType");
  ("common01.PolygonType.Vertex", "common01.PolygonType/Vertex");
  ("common01.RadarModeType", "common01.RadarModeType");
  ("common01.RadiometricType", "common01.RadiometricType");
  ("common01.RangeAzimuthType", "common01.RangeAzimuthType");
  ("common01.ReferencePointType", "common01.ReferencePointType");
  ("common01.RowColDoubleType", "common01.RowColDoubleType");
  ("common01.RowColIntType", "common01.RowColIntType");
  ("common01.RowColVertexType", "common01.RowColVertexType");
  ("common01.ValidDataType", "common01.ValidDataType");
  ("common01.XYZAttributeType", "common01.XYZAttributeType");
  ("common01.XYZPolyAttributeType", "common01.XYZPolyAttributeType");
  ("common01.XYZPolyType", "common01.XYZPolyType");
  ("common01.XYZType", "common01.XYZType");
  ("common10.AngleMagnitudeType", "common10.AngleMagnitudeType");
  ("common10.AngleZeroToExclusive360MagnitudeType", "common10.AngleZeroToExclusive360MagnitudeType");
  ("common10.ArrayDoubleType", "common10.ArrayDoubleType");
  ("common10.CollectionInfoType", "common10.CollectionInfoType");
  ("common10.ComplexType", "common10.ComplexType");
  ("common10.ErrorStatisticsType", "common10.ErrorStatisticsType");
  ("common10.ErrorStatisticsType.AdditionalParms", "common10.ErrorStatisticsType/AdditionalParms");
  ("common10.ErrorStatisticsType.Components", "common10.ErrorStatisticsType/Components");
  ("common10.ErrorStatisticsType.Components.IonoError", "common10.ErrorStatisticsType/Components/IonoError");
  ("common10.ErrorStatisticsType.Components.IonoError.IonoRangeVertDecorr", "common10.ErrorStatisticsType/Components/IonoError/IonoRangeVertDecorr");
  ("common10.ErrorStatisticsType.Components.PosVelErr", "common10.ErrorStatisticsType/Components/PosVelErr");
  ("common10.ErrorStatisticsType.Components.PosVelErr.CorrCoefs", "common10.ErrorStatisticsType/Components/PosVelErr/CorrCoefs");
  ("common10.ErrorStatisticsType.Components.PosVelErr.PositionDecorr", "common10.ErrorStatisticsType/Components/PosVelErr/PositionDecorr");
  ("common10.ErrorStatisticsType.Components.RadarSensor", "common10.ErrorStatisticsType/Components/RadarSensor");
  ("common10.ErrorStatisticsType.Components.RadarSensor.RangeBiasDecorr", "common10.ErrorStatisticsType/Components/RadarSensor/RangeBiasDecorr");
  ("common10.ErrorStatisticsType.Components.TropoError", "common10.ErrorStatisticsType/Components/TropoError");
  ("common10.ErrorStatisticsType.Components.TropoError.TropoRangeDecorr", "common10.ErrorStatisticsType/Components/TropoError/TropoRangeDecorr");
  ("common10.ErrorStatisticsType.CompositeSCP", "common10.ErrorStatisticsType/CompositeSCP");
  ("common10.ErrorStatisticsType.Unmodeled", "common10.ErrorStatisticsType/Unmodeled");
  ("common10.ErrorStatisticsType.Unmodeled.UnmodeledDecorr", "common10.ErrorStatisticsType/Unmodeled/UnmodeledDecorr");
  ("common10.ErrorStatisticsType.Unmodeled.UnmodeledDecorr.Xrow", "common10.ErrorStatisticsType/Unmodeled/UnmodeledDecorr/Xrow");
  ("common10.ErrorStatisticsType.Unmodeled.UnmodeledDecorr.Ycol", "common10.ErrorStatisticsType/Unmodeled/UnmodeledDecorr/Ycol");
  ("common10.GeoInfo", "common10.GeoInfoType");
  ("common10.GeoInfoType", "common10.GeoInfoType");
  ("common10.ImageCreationType", "common10.ImageCreationType");
  ("common10.LLHCornerStringType", "common10.LLHCornerStringType");
  ("common10.LLHType", "common10.LLHType");
  ("common10.LatLonCornerStringType", "common10.LatLonCornerStringType");
  ("common10.LatLonCornerType", "common10.LatLonCornerType");
  ("common10.LatLonHAECornerType", "common10.LatLonHAECornerType");
  ("common10.LatLonRestrictionType", "common10.LatLonRestrictionType");
  ("common10.LatLonType", "common10.LatLonType");
  ("common10.LatLonVertexType", "common10.LatLonVertexType");
  ("common10.LineType", "common10.LineType");
  ("common10.LineType.Endpoint", "common10.LineType/Endpoint");
  ("common10.MatchInfoType", "common10.MatchInfoType");
  ("common10.MatchInfoType.MatchType", "common10.MatchInfoType/MatchType");
  ("common10.MatchInfoType.MatchType.MatchCollection", "common10.MatchInfoType/MatchType/MatchCollection");
  ("common10.ParameterType", "common10.ParameterType");
  ("common10.Poly1DType", "common10.Poly1DType");
  ("common10.Poly2DType", "common10.Poly2DType");
  ("common10.PolyCoef1DType", "common10.PolyCoef1DType");
  ("common10.PolyCoef2DType", "common10.PolyCoef2DType");
  ("common10.PolygonType", "common10.PolygonType");
  ("common10.PolygonType.Vertex", "common10.PolygonType/Vertex");
  ("common10.RadarModeType", "common10.RadarModeType");
  ("common10.RadiometricType", "common10.RadiometricType");
  ("common10.RadiometricType.NoiseLevel", "common10.RadiometricType/NoiseLevel");
  ("common10.RangeAzimuthType", "common10.RangeAzimuthType");
  ("common10.ReferencePointType", "common10.ReferencePointType");
  ("common10.RowColDoubleType", "common10.RowColDoubleType");
  ("common10.RowColIntType", "common10.RowColIntType");
  ("common10.RowColVertexType", "common10.RowColVertexType");
  ("common10.ValidDataType", "common10.ValidDataType");
  ("common10.XYZAttributeType", "common10.XYZAttributeType");
  ("common10.XYZPolyAttributeType", "common10.XYZPolyAttributeType");
  ("common10.XYZPolyType", "common10.XYZPolyType");
  ("common10.XYZType", "common10.XYZType");
  ("ism13.LongStringWithSecurityType", "ism13.LongStringWithSecurityType");
  ("ism13.Notice", "ism13.NoticeType");
  ("ism13.NoticeBaseType", "ism13.NoticeBaseType");
  ("ism13.NoticeExternal", "ism13.NoticeExternalType");
  ("ism13.NoticeExternalList", "ism13.NoticeExternalListType");
  ("ism13.NoticeExternalListType", "ism13.NoticeExternalListType");
  ("ism13.NoticeExternalType", "ism13.NoticeExternalType");
  ("ism13.NoticeList", "ism13.NoticeListType");
  ("ism13.NoticeListType", "ism13.NoticeListType");
  ("ism13.NoticeText", "ism13.NoticeText/");
  ("ism13.NoticeType", "ism13.NoticeType");
  ("ism13.ShortStringWithSecurityType", "ism13.ShortStringWithSecurityType");
  ("sfa.AbstractReferenceSystemType", "sfa.AbstractReferenceSystemType");
  ("sfa.CurveType", "sfa.CurveType");
  ("sfa.DatumType", "sfa.DatumType");
  ("sfa.GeocentricCoordinateSystemType", "sfa.GeocentricCoordinateSystemType");
  ("sfa.GeographicCoordinateSystemType", "sfa.GeographicCoordinateSystemType");
  ("sfa.GeometryCollectionType", "sfa.GeometryCollectionType");
  ("sfa.GeometryType", "sfa.GeometryType");
  ("sfa.LineStringType", "sfa.LineStringType");
  ("sfa.LineType", "sfa.LineType");
  ("sfa.LinearRingType", "sfa.LinearRingType");
  ("sfa.MultiCurveType", "sfa.MultiCurveType");
  ("sfa.MultiLineStringType", "sfa.MultiLineStringType");
  ("sfa.MultiPointType", "sfa.MultiPointType");
  ("sfa.MultiPolygonType", "sfa.MultiPolygonType");
  ("sfa.MultiSurfaceType", "sfa.MultiSurfaceType");
  ("sfa.ParameterType", "sfa.ParameterType");
  ("sfa.PointType", "sfa.PointType");
  ("sfa.PolygonType", "sfa.PolygonType");
  ("sfa.PolyhedralSurfaceType", "sfa.PolyhedralSurfaceType");
  ("sfa.PrimeMeridianType", "sfa.PrimeMeridianType");
  ("sfa.ProjectedCoordinateSystemType", "sfa.ProjectedCoordinateSystemType");
  ("sfa.ProjectionType", "sfa.ProjectionType");
  ("sfa.ReferenceSystemType", "sfa.ReferenceSystemType");
  ("sfa.SpheriodType", "sfa.SpheriodType");
  ("sfa.SurfaceType", "sfa.SurfaceType");
  ("sfa.TriangleType", "sfa.TriangleType");
  ("sfa.TriangulatedIrregularNetworkType", "sfa.TriangulatedIrregularNetworkType");
  ("sfa.UNITType", "sfa.UNITType");
  ("sicd121.AntParamType", "sicd121.AntParamType");
  ("sicd121.AntParamType.EB", "sicd121.AntParamType/EB");
  ("sicd121.AntennaType", "sicd121.AntennaType");
  ("sicd121.ArrayDouble", "sicd121.ArrayDouble");
  ("sicd121.CollectionInfoType", "sicd121.CollectionInfoType");
  ("sicd121.CollectionInfoType.RadarMode", "sicd121.CollectionInfoType/RadarMode");
  ("sicd121.ComplexType", "sicd121.ComplexType");
  ("sicd121.DirParamType", "sicd121.DirParamType");
  ("sicd121.DirParamType.WgtFunct", "sicd121.DirParamType/WgtFunct");
  ("sicd121.DirParamType.WgtType", "sicd121.DirParamType/WgtType");
  ("sicd121.ErrorDecorrFuncType", "sicd121.ErrorDecorrFuncType");
  ("sicd121.ErrorStatisticsType", "sicd121.ErrorStatisticsType");
  ("sicd121.ErrorStatisticsType.AdditionalParms", "sicd121.ErrorStatisticsType/AdditionalParms");
  ("sicd121.ErrorStatisticsType.Components", "sicd121.ErrorStatisticsType/Components");
  ("sicd121.ErrorStatisticsType.Components.IonoError", "sicd121.ErrorStatisticsType/Components/IonoError");
  ("sicd121.ErrorStatisticsType.Components.PosVelErr", "sicd121.ErrorStatisticsType/Components/PosVelErr");
  ("sicd121.ErrorStatisticsType.Components.PosVelErr.CorrCoefs", "sicd121.ErrorStatisticsType/Components/PosVelErr/CorrCoefs");
  ("sicd121.ErrorStatisticsType.Components.RadarSensor", "sicd121.ErrorStatisticsType/Components/RadarSensor");
  ("sicd121.ErrorStatisticsType.Components.TropoError", "sicd121.ErrorStatisticsType/Components/TropoError");
  ("sicd121.ErrorStatisticsType.CompositeSCP", "sicd121.ErrorStatisticsType/CompositeSCP");
  ("sicd121.GainPhasePolyType", "sicd121.GainPhasePolyType");
  ("sicd121.GeoDataType", "sicd121.GeoDataType");
  ("sicd121.GeoDataType.ImageCorners", "sicd121.GeoDataType/ImageCorners");
  ("sicd121.GeoDataType.SCP", "sicd121.GeoDataType/SCP");
  ("sicd121.GeoInfoType", "sicd121.GeoInfoType");
  ("sicd121.GridType", "sicd121.GridType");
  ("sicd121.ImageCreationType", "sicd121.ImageCreationType");
  ("sicd121.ImageDataType", "sicd121.ImageDataType");
  ("sicd121.ImageDataType.AmpTable", "sicd121.ImageDataType/AmpTable");
  ("sicd121.ImageDataType.FullImage", "sicd121.ImageDataType/FullImage");
  ("sicd121.ImageDataType.ValidData", "sicd121.ImageDataType/ValidData");
  ("sicd121.ImageFormationType", "sicd121.ImageFormationType");
  ("sicd121.ImageFormationType.PolarizationCalibration", "sicd121.ImageFormationType/PolarizationCalibration");
  ("sicd121.ImageFormationType.PolarizationCalibration.Distortion", "sicd121.ImageFormationType/PolarizationCalibration/Distortion");
  ("sicd121.ImageFormationType.Processing", "sicd121.ImageFormationType/Processing");
  ("sicd121.ImageFormationType.RcvChanProc", "sicd121.ImageFormationType/RcvChanProc");
  ("sicd121.ImageFormationType.TxFrequencyProc", "sicd121.ImageFormationType/TxFrequencyProc");
  ("sicd121.LatLonCornerStringType", "sicd121.LatLonCornerStringType");
  ("sicd121.LatLonCornerType", "sicd121.LatLonCornerType");
  ("sicd121.LatLonHAECornerRestrictType", "sicd121.LatLonHAECornerRestrictType");
  ("sicd121.LatLonHAECornerStringType", "sicd121.LatLonHAECornerStringType");
  ("sicd121.LatLonHAERestrictionType", "sicd121.LatLonHAERestrictionType");
  ("sicd121.LatLonHAEType", "sicd121.LatLonHAEType");
  ("sicd121.LatLonRestrictionType", "sicd121.LatLonRestrictionType");
  ("sicd121.LatLonType", "sicd121.LatLonType");
  ("sicd121.LineType", "sicd121.LineType");
  ("sicd121.LineType.Endpoint", "sicd121.LineType/Endpoint");
  ("sicd121.MatchInfoType", "sicd121.MatchInfoType");
  ("sicd121.MatchInfoType.MatchType", "sicd121.MatchInfoType/MatchType");
  ("sicd121.MatchInfoType.MatchType.MatchCollection", "sicd121.MatchInfoType/MatchType/MatchCollection");
  ("sicd121.PFAType", "sicd121.PFAType");
  ("sicd121.PFAType.STDeskew", "sicd121.PFAType/STDeskew");
  ("sicd121.ParameterType", "sicd121.ParameterType");
  ("sicd121.Poly1DType", "sicd121.Poly1DType");
  ("sicd121.Poly2DType", "sicd121.Poly2DType");
  ("sicd121.PolyCoef1DType", "sicd121.PolyCoef1DType");
  ("sicd121.PolyCoef2DType", "sicd121.PolyCoef2DType");
  ("sicd121.PolygonType", "sicd121.PolygonType");
  ("sicd121.PolygonType.Vertex", "sicd121.PolygonType/Vertex");
  ("sicd121.PositionType", "sicd121.PositionType");
  ("sicd121.PositionType.RcvAPC", "sicd121.PositionType/RcvAPC");
  ("sicd121.RMAType", "sicd121.RMAType");
  ("sicd121.RMAType.INCA", "sicd121.RMAType/INCA");
  ("sicd121.RMAType.RMAT", "sicd121.RMAType/RMAT");
  ("sicd121.RMAType.RMCR", "sicd121.RMAType/RMCR");
  ("sicd121.RadarCollectionType", "sicd121.RadarCollectionType");
  ("sicd121.RadarCollectionType.Area", "sicd121.RadarCollectionType/Area");
  ("sicd121.RadarCollectionType.Area.Corner", "sicd121.RadarCollectionType/Area/Corner");
  ("sicd121.RadarCollectionType.Area.Plane", "sicd121.RadarCollectionType/Area/Plane");
  ("sicd121.RadarCollectionType.Area.Plane.RefPt", "sicd121.RadarCollectionType/Area/Plane/RefPt");
  ("sicd121.RadarCollectionType.Area.Plane.SegmentList", "sicd121.RadarCollectionType/Area/Plane/SegmentList");
  ("sicd121.RadarCollectionType.Area.Plane.SegmentList.Segment", "sicd121.RadarCollectionType/Area/Plane/SegmentList/Segment");
  ("sicd121.RadarCollectionType.Area.Plane.XDir", "sicd121.RadarCollectionType/Area/Plane/XDir");
  ("sicd121.RadarCollectionType.Area.Plane.YDir", "sicd121.RadarCollectionType/Area/Plane/YDir");
  ("sicd121.RadarCollectionType.RcvChannels", "sicd121.RadarCollectionType/RcvChannels");
  ("sicd121.RadarCollectionType.RcvChannels.ChanParameters", "sicd121.RadarCollectionType/RcvChannels/ChanParameters");
  ("sicd121.RadarCollectionType.TxFrequency", "sicd121.RadarCollectionType/TxFrequency");
  ("sicd121.RadarCollectionType.TxSequence", "sicd121.RadarCollectionType/TxSequence");
  ("sicd121.RadarCollectionType.TxSequence.TxStep", "sicd121.RadarCollectionType/TxSequence/TxStep");
  ("sicd121.RadarCollectionType.Waveform", "sicd121.RadarCollectionType/Waveform");
  ("sicd121.RadarCollectionType.Waveform.WFParameters", "sicd121.RadarCollectionType/Waveform/WFParameters");
  ("sicd121.RadiometricType", "sicd121.RadiometricType");
  ("sicd121.RadiometricType.NoiseLevel", "sicd121.RadiometricType/NoiseLevel");
  ("sicd121.RgAzCompType", "sicd121.RgAzCompType");
  ("sicd121.RowColType", "sicd121.RowColType");
  ("sicd121.RowColvertexType", "sicd121.RowColvertexType");
  ("sicd121.SCPCOAType", "sicd121.SCPCOAType");
  ("sicd121.SICD", "sicd121.SICD/");
  ("sicd121.TimelineType", "sicd121.TimelineType");
  ("sicd121.TimelineType.IPP", "sicd121.TimelineType/IPP");
  ("sicd121.TimelineType.IPP.Set", "sicd121.TimelineType/IPP/Set");
  ("sicd121.XYZPolyAttributeType", "sicd121.XYZPolyAttributeType");
  ("sicd121.XYZPolyType", "sicd121.XYZPolyType");
  ("sicd121.XYZType", "sicd121.XYZType");
  ("sicd130.AntParamType", "sicd130.AntParamType");
  ("sicd130.AntParamType.EB", "sicd130.AntParamType/EB");
  ("sicd130.AntennaType", "sicd130.AntennaType");
  ("sicd130.ArrayDouble", "sicd130.ArrayDouble");
  ("sicd130.CollectionInfoType", "sicd130.CollectionInfoType");
  ("sicd130.CollectionInfoType.RadarMode", "sicd130.CollectionInfoType/RadarMode");
  ("sicd130.ComplexType", "sicd130.ComplexType");
  ("sicd130.DirParamType", "sicd130.DirParamType");
  ("sicd130.DirParamType.WgtFunct", "sicd130.DirParamType/WgtFunct");
  ("sicd130.DirParamType.WgtType", "sicd130.DirParamType/WgtType");
  ("sicd130.ErrorDecorrFuncType", "sicd130.ErrorDecorrFuncType");
  ("sicd130.ErrorStatisticsType", "sicd130.ErrorStatisticsType");
  ("sicd130.ErrorStatisticsType.AdditionalParms", "sicd130.ErrorStatisticsType/AdditionalParms");
  ("sicd130.ErrorStatisticsType.Components", "sicd130.ErrorStatisticsType/Components");
  ("sicd130.ErrorStatisticsType.Components.IonoError", "sicd130.ErrorStatisticsType/Components/IonoError");
  ("sicd130.ErrorStatisticsType.Components.PosVelErr", "sicd130.ErrorStatisticsType/Components/PosVelErr");
  ("sicd130.ErrorStatisticsType.Components.PosVelErr.CorrCoefs", "sicd130.ErrorStatisticsType/Components/PosVelErr/CorrCoefs");
  ("sicd130.ErrorStatisticsType.Components.RadarSensor", "sicd130.ErrorStatisticsType/Components/RadarSensor");
  ("sicd130.ErrorStatisticsType.Components.TropoError", "sicd130.ErrorStatisticsType/Components/TropoError");
  ("sicd130.ErrorStatisticsType.CompositeSCP", "sicd130.ErrorStatisticsType/CompositeSCP");
  ("sicd130.ErrorStatisticsType.Unmodeled", "sicd130.ErrorStatisticsType/Unmodeled");
  ("sicd130.ErrorStatisticsType.Unmodeled.UnmodeledDecorr", "sicd130.ErrorStatisticsType/Unmodeled/UnmodeledDecorr");
  ("sicd130.GainPhasePolyType", "sicd130.GainPhasePolyType");
  ("sicd130.GeoDataType", "sicd130.GeoDataType");
  ("sicd130.GeoDataType.ImageCorners", "sicd130.GeoDataType/ImageCorners");
  ("sicd130.GeoDataType.SCP", "sicd130.GeoDataType/SCP");
  ("sicd130.GeoInfoType", "sicd130.GeoInfoType");
  ("sicd130.GridType", "sicd130.GridType");
  ("sicd130.ImageCreationType", "sicd130.ImageCreationType");
  ("sicd130.ImageDataType", "sicd130.ImageDataType");
  ("sicd130.ImageDataType.AmpTable", "sicd130.ImageDataType/AmpTable");
  ("sicd130.ImageDataType.FullImage", "sicd130.ImageDataType/FullImage");
  ("sicd130.ImageDataType.ValidData", "sicd130.ImageDataType/ValidData");
  ("sicd130.ImageFormationType", "sicd130.ImageFormationType");
  ("sicd130.ImageFormationType.PolarizationCalibration", "sicd130.ImageFormationType/PolarizationCalibration");
  ("sicd130.ImageFormationType.PolarizationCalibration.Distortion", "sicd130.ImageFormationType/PolarizationCalibration/Distortion");
  ("sicd130.ImageFormationType.Processing", "sicd130.ImageFormationType/Processing");
  ("sicd130.ImageFormationType.RcvChanProc", "sicd130.ImageFormationType/RcvChanProc");
  ("sicd130.ImageFormationType.TxFrequencyProc", "sicd130.ImageFormationType/TxFrequencyProc");
  ("sicd130.LatLonCornerStringType", "sicd130.LatLonCornerStringType");
  ("sicd130.LatLonCornerType", "sicd130.LatLonCornerType");
  ("sicd130.LatLonHAECornerRestrictType", "sicd130.LatLonHAECornerRestrictType");
  ("sicd130.LatLonHAECornerStringType", "sicd130.LatLonHAECornerStringType");
  ("sicd130.LatLonHAERestrictionType", "sicd130.LatLonHAERestrictionType");
  ("sicd130.LatLonHAEType", "sicd130.LatLonHAEType");
  ("sicd130.LatLonRestrictionType", "sicd130.LatLonRestrictionType");
  ("sicd130.LatLonType", "sicd130.LatLonType");
  ("sicd130.LineType", "sicd130.LineType");
  ("sicd130.LineType.Endpoint", "sicd130.LineType/Endpoint");
  ("sicd130.MatchInfoType", "sicd130.MatchInfoType");
  ("sicd130.MatchInfoType.MatchType", "sicd130.MatchInfoType/MatchType");
  ("sicd130.MatchInfoType.MatchType.MatchCollection", "sicd130.MatchInfoType/MatchType/MatchCollection");
  ("sicd130.PFAType", "sicd130.PFAType");
  ("sicd130.PFAType.STDeskew", "sicd130.PFAType/STDeskew");
  ("sicd130.ParameterType", "sicd130.ParameterType");
  ("sicd130.Poly1DType", "sicd130.Poly1DType");
  ("sicd130.Poly2DType", "sicd130.Poly2DType");
  ("sicd130.PolyCoef1DType", "sicd130.PolyCoef1DType");
  ("sicd130.PolyCoef2DType", "sicd130.PolyCoef2DType");
  ("sicd130.PolygonType", "sicd130.PolygonType");
  ("sicd130.PolygonType.Vertex", "sicd130.PolygonType/Vertex");
  ("sicd130.PositionType", "sicd130.PositionType");
  ("sicd130.PositionType.RcvAPC", "sicd130.PositionType/RcvAPC");
  ("sicd130.RMAType", "sicd130.RMAType");
  ("sicd130.RMAType.INCA", "sicd130.RMAType/INCA");
  ("sicd130.RMAType.RMAT", "sicd130.RMAType/RMAT");
  ("sicd130.RMAType.RMCR", "sicd130.RMAType/RMCR");
  ("sicd130.RadarCollectionType", "sicd130.RadarCollectionType");
  ("sicd130.RadarCollectionType.Area", "sicd130.RadarCollectionType/Area");
  ("sicd130.RadarCollectionType.Area.Corner", "sicd130.RadarCollectionType/Area/Corner");
  ("sicd130.RadarCollectionType.Area.Plane", "sicd130.RadarCollectionType/Area/Plane");
  ("sicd130.RadarCollectionType.Area.Plane.RefPt", "sicd130.RadarCollectionType/Area/Plane/RefPt");
  ("sicd130.RadarCollectionType.Area.Plane.SegmentList", "sicd130.RadarCollectionType/Area/Plane/SegmentList");
  ("sicd130.RadarCollectionType.Area.Plane.SegmentList.Segment", "sicd130.RadarCollectionType/Area/Plane/SegmentList/Segment");
  ("sicd130.RadarCollectionType.Area.Plane.XDir", "sicd130.RadarCollectionType/Area/Plane/XDir");
  ("sicd130.RadarCollectionType.Area.Plane.YDir", "sicd130.RadarCollectionType/Area/Plane/YDir");
  ("sicd130.RadarCollectionType.RcvChannels", "sicd130.RadarCollectionType/RcvChannels");
  ("sicd130.RadarCollectionType.RcvChannels.ChanParameters", "sicd130.RadarCollectionType/RcvChannels/ChanParameters");
  ("sicd130.RadarCollectionType.TxFrequency", "sicd130.RadarCollectionType/TxFrequency");
  ("sicd130.RadarCollectionType.TxSequence", "sicd130.RadarCollectionType/TxSequence");
  ("sicd130.RadarCollectionType.TxSequence.TxStep", "sicd130.RadarCollectionType/TxSequence/TxStep");
  ("sicd130.RadarCollectionType.Waveform", "sicd130.RadarCollectionType/Waveform");
  ("sicd130.RadarCollectionType.Waveform.WFParameters", "sicd130.RadarCollectionType/Waveform/WFParameters");
  ("sicd130.RadiometricType", "sicd130.RadiometricType");
  ("sicd130.RadiometricType.NoiseLevel", "sicd130.RadiometricType/NoiseLevel");
  ("sicd130.RgAzCompType", "sicd130.RgAzCompType");
  ("sicd130.RowColType", "sicd130.RowColType");
  ("sicd130.RowColvertexType", "sicd130.RowColvertexType");
  ("sicd130.SCPCOAType", "sicd130.SCPCOAType");
  ("sicd130.SICD", "sicd130.SICD/");
  ("sicd130.TimelineType", "sicd130.TimelineType");
  ("sicd130.TimelineType.IPP", "sicd130.TimelineType/IPP");
  ("sicd130.TimelineType.IPP.Set", "sicd130.TimelineType/IPP/Set");
  ("sicd130.XYZPolyAttributeType", "sicd130.XYZPolyAttributeType");
  ("sicd130.XYZPolyType", "sicd130.XYZPolyType");
  ("sicd130.XYZType", "sicd130.XYZType");
  ("sidd100.AcheivedResolutionType", "sidd100.AcheivedResolutionType");
  ("sidd100.AnnotationObjectType", "sidd100.AnnotationObjectType");
  ("sidd100.AnnotationType", "sidd100.AnnotationType");
  ("sidd100.AnnotationsType", "sidd100.AnnotationsType");
  ("sidd100.BaseProjectionType", "sidd100.BaseProjectionType");
  ("sidd100.ClassificationGuidanceType", "sidd100.ClassificationGuidanceType");
  ("sidd100.ColorDisplayRemapType", "sidd100.ColorDisplayRemapType");
  ("sidd100.CylindricalProjectionType", "sidd100.CylindricalProjectionType");
  ("sidd100.DRAHistogramOverridesType", "sidd100.DRAHistogramOverridesType");
  ("sidd100.DownstreamReprocessingType", "sidd100.DownstreamReprocessingType");
  ("sidd100.ExploitationFeaturesCollectionGeometryType", "sidd100.ExploitationFeaturesCollectionGeometryType");
  ("sidd100.ExploitationFeaturesCollectionInformationType", "sidd100.ExploitationFeaturesCollectionInformationType");
  ("sidd100.ExploitationFeaturesCollectionPhenomenologyType", "sidd100.ExploitationFeaturesCollectionPhenomenologyType");
  ("sidd100.ExploitationFeaturesCollectionType", "sidd100.ExploitationFeaturesCollectionType");
  ("sidd100.ExploitationFeaturesProductType", "sidd100.ExploitationFeaturesProductType");
  ("sidd100.ExploitationFeaturesType", "sidd100.ExploitationFeaturesType");
  ("sidd100.ExploitationFeaturesType.Collection", "sidd100.ExploitationFeaturesType/Collection");
  ("sidd100.FootprintType", "sidd100.FootprintType");
  ("sidd100.GeographicAndTargetType", "sidd100.GeographicAndTargetType");
  ("sidd100.GeographicCoverageType", "sidd100.GeographicCoverageType");
  ("sidd100.GeographicInformationType", "sidd100.GeographicInformationType");
  ("sidd100.GeographicProjectionType", "sidd100.GeographicProjectionType");
  ("sidd100.GeometricChipType", "sidd100.GeometricChipType");
  ("sidd100.InputROIType", "sidd100.InputROIType");
  ("sidd100.Lookup3TableType", "sidd100.Lookup3TableType");
  ("sidd100.LookupTableType", "sidd100.LookupTableType");
  ("sidd100.MeasurableProjectionType", "sidd100.MeasurableProjectionType");
  ("sidd100.MeasurementType", "sidd100.MeasurementType");
  ("sidd100.MonitorCompensationAppliedType", "sidd100.MonitorCompensationAppliedType");
  ("sidd100.MonochromeDisplayRemapType", "sidd100.MonochromeDisplayRemapType");
  ("sidd100.PlaneProjectionType", "sidd100.PlaneProjectionType");
  ("sidd100.PolynomialProjectionType", "sidd100.PolynomialProjectionType");
  ("sidd100.ProcessingEventType", "sidd100.ProcessingEventType");
  ("sidd100.ProcessingModuleType", "sidd100.ProcessingModuleType");
  ("sidd100.ProcessorInformationType", "sidd100.ProcessorInformationType");
  ("sidd100.ProductClassificationType", "sidd100.ProductClassificationType");
  ("sidd100.ProductCreationType", "sidd100.ProductCreationType");
  ("sidd100.ProductDisplayType", "sidd100.ProductDisplayType");
  ("sidd100.ProductPlaneType", "sidd100.ProductPlaneType");
  ("sidd100.ProductProcessingType", "sidd100.ProductProcessingType");
  ("sidd100.RemapChoiceType", "sidd100.RemapChoiceType");
  ("sidd100.SIDD", "sidd100.SIDD/");
  ("sidd100.TargetInformationType", "sidd100.TargetInformationType");
  ("sidd100.TxRcvPolarizationType", "sidd100.TxRcvPolarizationType");
  ("sidd200.AccuracyType", "sidd200.AccuracyType");
  ("sidd200.AcheivedResolutionType", "sidd200.AcheivedResolutionType");
  ("sidd200.AnnotationObjectType", "sidd200.AnnotationObjectType");
  ("sidd200.AnnotationType", "sidd200.AnnotationType");
  ("sidd200.AnnotationsType", "sidd200.AnnotationsType");
  ("sidd200.BandEqualizationType", "sidd200.BandEqualizationType");
  ("sidd200.BandEqualizationType.BandLUT", "sidd200.BandEqualizationType/BandLUT");
  ("sidd200.BankCustomType", "sidd200.BankCustomType");
  ("sidd200.BaseProjectionType", "sidd200.BaseProjectionType");
  ("sidd200.ClassificationGuidanceType", "sidd200.ClassificationGuidanceType");
  ("sidd200.ColorDisplayRemapType", "sidd200.ColorDisplayRemapType");
  ("sidd200.ColorManagementModuleType", "sidd200.ColorManagementModuleType");
  ("sidd200.ColorSpaceTransformType", "sidd200.ColorSpaceTransformType");
  ("sidd200.CompressionType", "sidd200.CompressionType");
  ("sidd200.CustomLookupType", "sidd200.CustomLookupType");
  ("sidd200.CylindricalProjectionType", "sidd200.CylindricalProjectionType");
  ("sidd200.DRAHistogramOverridesType", "sidd200.DRAHistogramOverridesType");
  ("sidd200.DRAOverrides", "sidd200.DRAOverrides");
  ("sidd200.DRAParameters", "sidd200.DRAParameters");
  ("sidd200.DigitalElevationDataType", "sidd200.DigitalElevationDataType");
  ("sidd200.DownstreamReprocessingType", "sidd200.DownstreamReprocessingType");
  ("sidd200.DynamicRangeAdjustmentType", "sidd200.DynamicRangeAdjustmentType");
  ("sidd200.ExploitationFeaturesCollectionGeometryType", "sidd200.ExploitationFeaturesCollectionGeometryType");
  ("sidd200.ExploitationFeaturesCollectionInformationType", "sidd200.ExploitationFeaturesCollectionInformationType");
  ("sidd200.ExploitationFeaturesCollectionPhenomenologyType", "sidd200.ExploitationFeaturesCollectionPhenomenologyType");
  ("sidd200.ExploitationFeaturesCollectionType", "sidd200.ExploitationFeaturesCollectionType");
  ("sidd200.ExploitationFeaturesProductType", "sidd200.ExploitationFeaturesProductType");
  ("sidd200.ExploitationFeaturesType", "sidd200.ExploitationFeaturesType");
  ("sidd200.ExploitationFeaturesType.Collection", "sidd200.ExploitationFeaturesType/Collection");
  ("sidd200.FilterBankCoefType", "sidd200.FilterBankCoefType");
  ("sidd200.FilterBankCoefType.Coef", "sidd200.FilterBankCoefType/Coef");
  ("sidd200.FilterBankType", "sidd200.FilterBankType");
  ("sidd200.FilterKernelCoefType", "sidd200.FilterKernelCoefType");
  ("sidd200.FilterKernelCoefType.Coef", "sidd200.FilterKernelCoefType/Coef");
  ("sidd200.FilterKernelType", "sidd200.FilterKernelType");
  ("sidd200.FilterType", "sidd200.FilterType");
  ("sidd200.GeoDataType", "sidd200.GeoDataType");
  ("sidd200.GeographicCoordinatesType", "sidd200.GeographicCoordinatesType");
  ("sidd200.GeographicProjectionType", "sidd200.GeographicProjectionType");
  ("sidd200.GeometricChipType", "sidd200.GeometricChipType");
  ("sidd200.GeometricTransformType", "sidd200.GeometricTransformType");
  ("sidd200.GeopositioningType", "sidd200.GeopositioningType");
  ("sidd200.ImageCornersType", "sidd200.ImageCornersType");
  ("sidd200.ImageCornersType.ICP", "sidd200.ImageCornersType/ICP");
  ("sidd200.InputROIType", "sidd200.InputROIType");
  ("sidd200.InteractiveProcessingType", "sidd200.InteractiveProcessingType");
  ("sidd200.J2KSubtype", "sidd200.J2KSubtype");
  ("sidd200.J2KType", "sidd200.J2KType");
  ("sidd200.KernelCustomType", "sidd200.KernelCustomType");
  ("sidd200.LUTInfoType", "sidd200.LUTInfoType");
  ("sidd200.LayerInfoType", "sidd200.LayerInfoType");
  ("sidd200.LayerType", "sidd200.LayerType");
  ("sidd200.Lookup3TableType", "sidd200.Lookup3TableType");
  ("sidd200.LookupTableType", "sidd200.LookupTableType");
  ("sidd200.MeasurableProjectionType", "sidd200.MeasurableProjectionType");
  ("sidd200.MeasurementType", "sidd200.MeasurementType");
  ("sidd200.MonochromeDisplayRemapType", "sidd200.MonochromeDisplayRemapType");
  ("sidd200.NewLookupTableType", "sidd200.NewLookupTableType");
  ("sidd200.NonInteractiveProcessingType", "sidd200.NonInteractiveProcessingType");
  ("sidd200.Orientation", "sidd200.Orientation");
  ("sidd200.PlaneProjectionType", "sidd200.PlaneProjectionType");
  ("sidd200.PolygonType", "sidd200.PolygonType");
  ("sidd200.PolynomialProjectionType", "sidd200.PolynomialProjectionType");
  ("sidd200.PositionalAccuracyType", "sidd200.PositionalAccuracyType");
  ("sidd200.PredefinedFilterType", "sidd200.PredefinedFilterType");
  ("sidd200.PredefinedLookupType", "sidd200.PredefinedLookupType");
  ("sidd200.ProcTxRcvPolarizationType", "sidd200.ProcTxRcvPolarizationType");
  ("sidd200.ProcessingEventType", "sidd200.ProcessingEventType");
  ("sidd200.ProcessingModuleType", "sidd200.ProcessingModuleType");
  ("sidd200.ProcessorInformationType", "sidd200.ProcessorInformationType");
  ("sidd200.ProductClassificationType", "sidd200.ProductClassificationType");
  ("sidd200.ProductCreationType", "sidd200.ProductCreationType");
  ("sidd200.ProductDisplayType", "sidd200.ProductDisplayType");
  ("sidd200.ProductGenerationOptionsType", "sidd200.ProductGenerationOptionsType");
  ("sidd200.ProductPlaneType", "sidd200.ProductPlaneType");
  ("sidd200.ProductProcessingType", "sidd200.ProductProcessingType");
  ("sidd200.RRDSType", "sidd200.RRDSType");
  ("sidd200.RemapChoiceType", "sidd200.RemapChoiceType");
  ("sidd200.SIDD", "sidd200.SIDD/");
  ("sidd200.ScalingType", "sidd200.ScalingType");
  ("sidd200.SharpnessEnhancementType", "sidd200.SharpnessEnhancementType");
  ("sidd200.TxRcvPolarizationType", "sidd200.TxRcvPolarizationType");
  ("sidd200.ValidDataType", "sidd200.ValidDataType");
  ("sidd300.AccuracyType", "sidd300.AccuracyType");
  ("sidd300.AcheivedResolutionType", "sidd300.AcheivedResolutionType");
  ("sidd300.AnnotationObjectType", "sidd300.AnnotationObjectType");
  ("sidd300.AnnotationType", "sidd300.AnnotationType");
  ("sidd300.AnnotationsType", "sidd300.AnnotationsType");
  ("sidd300.BandEqualizationType", "sidd300.BandEqualizationType");
  ("sidd300.BandEqualizationType.BandLUT", "sidd300.BandEqualizationType/BandLUT");
  ("sidd300.BankCustomType", "sidd300.BankCustomType");
  ("sidd300.BaseProjectionType", "sidd300.BaseProjectionType");
  ("sidd300.ClassificationGuidanceType", "sidd300.ClassificationGuidanceType");
  ("sidd300.ColorDisplayRemapType", "sidd300.ColorDisplayRemapType");
  ("sidd300.ColorManagementModuleType", "sidd300.ColorManagementModuleType");
  ("sidd300.ColorSpaceTransformType", "sidd300.ColorSpaceTransformType");
  ("sidd300.CompressionType", "sidd300.CompressionType");
  ("sidd300.CustomLookupType", "sidd300.CustomLookupType");
  ("sidd300.CylindricalProjectionType", "sidd300.CylindricalProjectionType");
  ("sidd300.DRAHistogramOverridesType", "sidd300.DRAHistogramOverridesType");
  ("sidd300.DRAOverrides", "sidd300.DRAOverrides");
  ("sidd300.DRAParameters", "sidd300.DRAParameters");
  ("sidd300.DigitalElevationDataType", "sidd300.DigitalElevationDataType");
  ("sidd300.DownstreamReprocessingType", "sidd300.DownstreamReprocessingType");
  ("sidd300.DynamicRangeAdjustmentType", "sidd300.DynamicRangeAdjustmentType");
  ("sidd300.ExploitationFeaturesCollectionGeometryType", "sidd300.ExploitationFeaturesCollectionGeometryType");
  ("sidd300.ExploitationFeaturesCollectionInformationType", "sidd300.ExploitationFeaturesCollectionInformationType");
  ("sidd300.ExploitationFeaturesCollectionPhenomenologyType", "sidd300.ExploitationFeaturesCollectionPhenomenologyType");
  ("sidd300.ExploitationFeaturesCollectionType", "sidd300.ExploitationFeaturesCollectionType");
  ("sidd300.ExploitationFeaturesProductType", "sidd300.ExploitationFeaturesProductType");
  ("sidd300.ExploitationFeaturesType", "sidd300.ExploitationFeaturesType");
  ("sidd300.ExploitationFeaturesType.Collection", "sidd300.ExploitationFeaturesType/Collection");
  ("sidd300.FilterBankCoefType", "sidd300.FilterBankCoefType");
  ("sidd300.FilterBankCoefType.Coef", "sidd300.FilterBankCoefType/Coef");
  ("sidd300.FilterBankType", "sidd300.FilterBankType");
  ("sidd300.FilterKernelCoefType", "sidd300.FilterKernelCoefType");
  ("sidd300.FilterKernelCoefType.Coef", "sidd300.FilterKernelCoefType/Coef");
  ("sidd300.FilterKernelType", "sidd300.FilterKernelType");
  ("sidd300.FilterType", "sidd300.FilterType");
  ("sidd300.GeoDataType", "sidd300.GeoDataType");
  ("sidd300.GeographicCoordinatesType", "sidd300.GeographicCoordinatesType");
  ("sidd300.GeographicProjectionType", "sidd300.GeographicProjectionType");
  ("sidd300.GeometricChipType", "sidd300.GeometricChipType");
  ("sidd300.GeometricTransformType", "sidd300.GeometricTransformType");
  ("sidd300.GeopositioningType", "sidd300.GeopositioningType");
  ("sidd300.ImageCornersType", "sidd300.ImageCornersType");
  ("sidd300.ImageCornersType.ICP", "sidd300.ImageCornersType/ICP");
  ("sidd300.InputROIType", "sidd300.InputROIType");
  ("sidd300.InteractiveProcessingType", "sidd300.InteractiveProcessingType");
  ("sidd300.J2KSubtype", "sidd300.J2KSubtype");
  ("sidd300.J2KType", "sidd300.J2KType");
  ("sidd300.KernelCustomType", "sidd300.KernelCustomType");
  ("sidd300.LUTInfoType", "sidd300.LUTInfoType");
  ("sidd300.LayerInfoType", "sidd300.LayerInfoType");
  ("sidd300.LayerType", "sidd300.LayerType");
  ("sidd300.Lookup3TableType", "sidd300.Lookup3TableType");
  ("sidd300.LookupTableType", "sidd300.LookupTableType");
  ("sidd300.MeasurableProjectionType", "sidd300.MeasurableProjectionType");
  ("sidd300.MeasurementType", "sidd300.MeasurementType");
  ("sidd300.MonochromeDisplayRemapType", "sidd300.MonochromeDisplayRemapType");
  ("sidd300.NewLookupTableType", "sidd300.NewLookupTableType");
  ("sidd300.NonInteractiveProcessingType", "sidd300.NonInteractiveProcessingType");
  ("sidd300.Orientation", "sidd300.Orientation");
  ("sidd300.PlaneProjectionType", "sidd300.PlaneProjectionType");
  ("sidd300.PolygonType", "sidd300.PolygonType");
  ("sidd300.PolynomialProjectionType", "sidd300.PolynomialProjectionType");
  ("sidd300.PositionalAccuracyType", "sidd300.PositionalAccuracyType");
  ("sidd300.PredefinedFilterType", "sidd300.PredefinedFilterType");
  ("sidd300.PredefinedLookupType", "sidd300.PredefinedLookupType");
  ("sidd300.ProcTxRcvPolarizationType", "sidd300.ProcTxRcvPolarizationType");
  ("sidd300.ProcessingEventType", "sidd300.ProcessingEventType");
  ("sidd300.ProcessingModuleType", "sidd300.ProcessingModuleType");
  ("sidd300.ProcessorInformationType", "sidd300.ProcessorInformationType");
  ("sidd300.ProductClassificationType", "sidd300.ProductClassificationType");
  ("sidd300.ProductCreationType", "sidd300.ProductCreationType");
  ("sidd300.ProductDisplayType", "sidd300.ProductDisplayType");
  ("sidd300.ProductGenerationOptionsType", "sidd300.ProductGenerationOptionsType");
  ("sidd300.ProductPlaneType", "sidd300.ProductPlaneType");
  ("sidd300.ProductProcessingType", "sidd300.ProductProcessingType");
  ("sidd300.RRDSType", "sidd300.RRDSType");
  ("sidd300.RemapChoiceType", "sidd300.RemapChoiceType");
  ("sidd300.SIDD", "sidd300.SIDD/");
  ("sidd300.ScalingType", "sidd300.ScalingType");
  ("sidd300.SharpnessEnhancementType", "sidd300.SharpnessEnhancementType");
  ("sidd300.TxRcvPolarizationType", "sidd300.TxRcvPolarizationType");
  ("sidd300.ValidDataType", "sidd300.ValidDataType")].
