(** The complex types of the three SIDD schemas in schemas/sidd; a table made by a script from the schemas.
    Extensions, attribute groups and references are expanded; the type of an element without a named type has the
    name of the enclosing type and the element. *)
Require Import ZArith String List.
Require Import Verif.SchemaModel Verif.XsdModel Verif.XsdTypes.
Import ListNotations.
Local Open Scope string_scope.

(** schemas/sidd/SIDD_schema_V1.0.0_2011_08_31.xsd:22-32. *)
Definition x_sidd100_Lookup3TableType : XClass := mkXClass "sidd100.Lookup3TableType"
  (PSequence [])
  (Some s_sidd100_LUT3ListType) [
    mkXAttribute ("", "size") SInt32 true].

(** schemas/sidd/SIDD_schema_V1.0.0_2011_08_31.xsd:33-43. *)
Definition x_sidd100_LookupTableType : XClass := mkXClass "sidd100.LookupTableType"
  (PSequence [])
  (Some s_sidd100_LUTListType) [
    mkXAttribute ("", "size") SInt32 true].

(** schemas/sidd/SIDD_schema_V1.0.0_2011_08_31.xsd:44-55. *)
Definition x_sidd100_ColorDisplayRemapType : XClass := mkXClass "sidd100.ColorDisplayRemapType"
  (PSequence [
    PElement (tns_sidd100, "RemapLUT") (XComplex "sidd100.Lookup3TableType") 1 (Some 1)])
  None [].

(** schemas/sidd/SIDD_schema_V1.0.0_2011_08_31.xsd:56-89. *)
Definition x_sidd100_MonochromeDisplayRemapType : XClass := mkXClass "sidd100.MonochromeDisplayRemapType"
  (PSequence [
    PElement (tns_sidd100, "RemapType") (XSimple SText) 1 (Some 1);
    PElement (tns_sidd100, "RemapLUT") (XComplex "sidd100.LookupTableType") 0 (Some 1);
    PElement (tns_sidd100, "RemapParameter") (XComplex "common01.ParameterType") 0 None])
  None [].

(** schemas/sidd/SIDD_schema_V1.0.0_2011_08_31.xsd:111-127. *)
Definition x_sidd100_MonitorCompensationAppliedType : XClass := mkXClass "sidd100.MonitorCompensationAppliedType"
  (PSequence [
    PElement (tns_sidd100, "Gamma") (XSimple SNumber) 1 (Some 1);
    PElement (tns_sidd100, "XMin") (XSimple SNumber) 1 (Some 1)])
  None [].

(** schemas/sidd/SIDD_schema_V1.0.0_2011_08_31.xsd:128-141. *)
Definition x_sidd100_RemapChoiceType : XClass := mkXClass "sidd100.RemapChoiceType"
  (PChoice [
    PElement (tns_sidd100, "ColorDisplayRemap") (XComplex "sidd100.ColorDisplayRemapType") 1 (Some 1);
    PElement (tns_sidd100, "MonochromeDisplayRemap") (XComplex "sidd100.MonochromeDisplayRemapType") 1 (Some 1)])
  None [].

(** schemas/sidd/SIDD_schema_V1.0.0_2011_08_31.xsd:142-155. *)
Definition x_sidd100_DRAHistogramOverridesType : XClass := mkXClass "sidd100.DRAHistogramOverridesType"
  (PSequence [
    PElement (tns_sidd100, "ClipMin") (XSimple SInt32) 1 (Some 1);
    PElement (tns_sidd100, "ClipMax") (XSimple SInt32) 1 (Some 1)])
  None [].

(** schemas/sidd/SIDD_schema_V1.0.0_2011_08_31.xsd:156-197. *)
Definition x_sidd100_ProductDisplayType : XClass := mkXClass "sidd100.ProductDisplayType"
  (PSequence [
    PElement (tns_sidd100, "PixelType") (XSimple s_sidd100_PixelType) 1 (Some 1);
    PElement (tns_sidd100, "RemapInformation") (XComplex "sidd100.RemapChoiceType") 0 (Some 1);
    PElement (tns_sidd100, "MagnificationMethod") (XSimple s_sidd100_MagnificationMethodType) 0 (Some 1);
    PElement (tns_sidd100, "DecimationMethod") (XSimple s_sidd100_DecimationMethodType) 0 (Some 1);
    PElement (tns_sidd100, "DRAHistogramOverrides") (XComplex "sidd100.DRAHistogramOverridesType") 0 (Some 1);
    PElement (tns_sidd100, "MonitorCompensationApplied") (XComplex "sidd100.MonitorCompensationAppliedType") 0 (Some 1);
    PElement (tns_sidd100, "DisplayExtension") (XComplex "common01.ParameterType") 0 None])
  None [].

(** schemas/sidd/SIDD_schema_V1.0.0_2011_08_31.xsd:198-214. *)
Definition x_sidd100_ProductPlaneType : XClass := mkXClass "sidd100.ProductPlaneType"
  (PSequence [
    PElement (tns_sidd100, "RowUnitVector") (XComplex "common01.XYZType") 1 (Some 1);
    PElement (tns_sidd100, "ColUnitVector") (XComplex "common01.XYZType") 1 (Some 1)])
  None [].

(** schemas/sidd/SIDD_schema_V1.0.0_2011_08_31.xsd:215-223. *)
Definition x_sidd100_BaseProjectionType : XClass := mkXClass "sidd100.BaseProjectionType"
  (PSequence [
    PElement (tns_sidd100, "ReferencePoint") (XComplex "common01.ReferencePointType") 1 (Some 1)])
  None [].

(** schemas/sidd/SIDD_schema_V1.0.0_2011_08_31.xsd:224-241. *)
Definition x_sidd100_MeasurableProjectionType : XClass := mkXClass "sidd100.MeasurableProjectionType"
  (PSequence [
    PSequence [
    PElement (tns_sidd100, "ReferencePoint") (XComplex "common01.ReferencePointType") 1 (Some 1)];
    PSequence [
    PElement (tns_sidd100, "SampleSpacing") (XComplex "common01.RowColDoubleType") 1 (Some 1);
    PElement (tns_sidd100, "TimeCOAPoly") (XComplex "common01.Poly2DType") 1 (Some 1)]])
  None [].

(** schemas/sidd/SIDD_schema_V1.0.0_2011_08_31.xsd:242-257. *)
Definition x_sidd100_PlaneProjectionType : XClass := mkXClass "sidd100.PlaneProjectionType"
  (PSequence [
    PSequence [
    PElement (tns_sidd100, "ReferencePoint") (XComplex "common01.ReferencePointType") 1 (Some 1)];
    PSequence [
    PElement (tns_sidd100, "SampleSpacing") (XComplex "common01.RowColDoubleType") 1 (Some 1);
    PElement (tns_sidd100, "TimeCOAPoly") (XComplex "common01.Poly2DType") 1 (Some 1)];
    PSequence [
    PElement (tns_sidd100, "ProductPlane") (XComplex "sidd100.ProductPlaneType") 1 (Some 1)]])
  None [].

(** schemas/sidd/SIDD_schema_V1.0.0_2011_08_31.xsd:258-293. *)
Definition x_sidd100_PolynomialProjectionType : XClass := mkXClass "sidd100.PolynomialProjectionType"
  (PSequence [
    PSequence [
    PElement (tns_sidd100, "ReferencePoint") (XComplex "common01.ReferencePointType") 1 (Some 1)];
    PSequence [
    PElement (tns_sidd100, "RowColToLat") (XComplex "common01.Poly2DType") 1 (Some 1);
    PElement (tns_sidd100, "RowColToLon") (XComplex "common01.Poly2DType") 1 (Some 1);
    PElement (tns_sidd100, "RowColToAlt") (XComplex "common01.Poly2DType") 0 (Some 1);
    PElement (tns_sidd100, "LatLonToRow") (XComplex "common01.Poly2DType") 1 (Some 1);
    PElement (tns_sidd100, "LatLonToCol") (XComplex "common01.Poly2DType") 1 (Some 1)]])
  None [].

(** schemas/sidd/SIDD_schema_V1.0.0_2011_08_31.xsd:294-301. *)
Definition x_sidd100_GeographicProjectionType : XClass := mkXClass "sidd100.GeographicProjectionType"
  (PSequence [
    PSequence [
    PElement (tns_sidd100, "ReferencePoint") (XComplex "common01.ReferencePointType") 1 (Some 1)];
    PSequence [
    PElement (tns_sidd100, "SampleSpacing") (XComplex "common01.RowColDoubleType") 1 (Some 1);
    PElement (tns_sidd100, "TimeCOAPoly") (XComplex "common01.Poly2DType") 1 (Some 1)]])
  None [].

(** schemas/sidd/SIDD_schema_V1.0.0_2011_08_31.xsd:302-322. *)
Definition x_sidd100_CylindricalProjectionType : XClass := mkXClass "sidd100.CylindricalProjectionType"
  (PSequence [
    PSequence [
    PElement (tns_sidd100, "ReferencePoint") (XComplex "common01.ReferencePointType") 1 (Some 1)];
    PSequence [
    PElement (tns_sidd100, "SampleSpacing") (XComplex "common01.RowColDoubleType") 1 (Some 1);
    PElement (tns_sidd100, "TimeCOAPoly") (XComplex "common01.Poly2DType") 1 (Some 1)];
    PSequence [
    PElement (tns_sidd100, "StripmapDirection") (XComplex "common01.XYZType") 1 (Some 1);
    PElement (tns_sidd100, "CurvatureRadius") (XSimple SNumber) 0 (Some 1)]])
  None [].

(** schemas/sidd/SIDD_schema_V1.0.0_2011_08_31.xsd:323-361. *)
Definition x_sidd100_MeasurementType : XClass := mkXClass "sidd100.MeasurementType"
  (PSequence [
    PChoice [
    PElement (tns_sidd100, "PolynomialProjection") (XComplex "sidd100.PolynomialProjectionType") 1 (Some 1);
    PElement (tns_sidd100, "GeographicProjection") (XComplex "sidd100.GeographicProjectionType") 1 (Some 1);
    PElement (tns_sidd100, "PlaneProjection") (XComplex "sidd100.PlaneProjectionType") 1 (Some 1);
    PElement (tns_sidd100, "CylindricalProjection") (XComplex "sidd100.CylindricalProjectionType") 1 (Some 1)];
    PElement (tns_sidd100, "PixelFootprint") (XComplex "common01.RowColIntType") 1 (Some 1);
    PElement (tns_sidd100, "ARPPoly") (XComplex "common01.XYZPolyType") 1 (Some 1)])
  None [].

(** schemas/sidd/SIDD_schema_V1.0.0_2011_08_31.xsd:362-367. *)
Definition x_sidd100_AcheivedResolutionType : XClass := mkXClass "sidd100.AcheivedResolutionType"
  (PSequence [])
  None [].

(** schemas/sidd/SIDD_schema_V1.0.0_2011_08_31.xsd:377-393. *)
Definition x_sidd100_ClassificationGuidanceType : XClass := mkXClass "sidd100.ClassificationGuidanceType"
  (PSequence [
    PElement (tns_sidd100, "Authority") (XSimple SText) 1 (Some 1);
    PElement (tns_sidd100, "Date") (XSimple SDate) 1 (Some 1)])
  None [].

(** schemas/sidd/SIDD_schema_V1.0.0_2011_08_31.xsd:394-424. *)
Definition x_sidd100_ProductClassificationType : XClass := mkXClass "sidd100.ProductClassificationType"
  (PSequence [
    PElement (tns_sidd100, "SecurityExtension") (XComplex "common01.ParameterType") 0 None])
  None [
    mkXAttribute (tns_ism, "DESVersion") (SInt (Some 4%Z) (Some 4%Z)) true;
    mkXAttribute (tns_ism, "resourceElement") (SBoolean (Some true)) true;
    mkXAttribute (tns_ism, "createDate") SDate true;
    mkXAttribute (tns_ism, "compliesWith") s_ism_cvenum_CVEnumISMCompliesWith false;
    mkXAttribute (tns_ism, "classification") s_ism_cvenum_CVEnumISMClassificationAll true;
    mkXAttribute (tns_ism, "ownerProducer") s_ism_cvenum_CVEnumISMOwnerProducer true;
    mkXAttribute (tns_ism, "SCIcontrols") s_ism_cvenum_CVEnumISMSCIControls false;
    mkXAttribute (tns_ism, "SARIdentifier") s_ism_cvenum_CVEnumISMSAR false;
    mkXAttribute (tns_ism, "disseminationControls") s_ism_cvenum_CVEnumISMDissem false;
    mkXAttribute (tns_ism, "FGIsourceOpen") s_ism_cvenum_CVEnumISMFGIOpen false;
    mkXAttribute (tns_ism, "FGIsourceProtected") s_ism_cvenum_CVEnumISMFGIProtected false;
    mkXAttribute (tns_ism, "releasableTo") s_ism_cvenum_CVEnumISMRelTo false;
    mkXAttribute (tns_ism, "nonICmarkings") s_ism_cvenum_CVEnumISMNonIC false;
    mkXAttribute (tns_ism, "classifiedBy") (SString false (Some 1024%nat) []) false;
    mkXAttribute (tns_ism, "compilationReason") (SString false (Some 1024%nat) []) false;
    mkXAttribute (tns_ism, "derivativelyClassifiedBy") (SString false (Some 1024%nat) []) false;
    mkXAttribute (tns_ism, "classificationReason") (SString false (Some 4096%nat) []) false;
    mkXAttribute (tns_ism, "nonUSControls") s_ism_cvenum_CVEnumISMNonUSControls false;
    mkXAttribute (tns_ism, "derivedFrom") (SString false (Some 1024%nat) []) false;
    mkXAttribute (tns_ism, "declassDate") SDate false;
    mkXAttribute (tns_ism, "declassEvent") (SString false (Some 1024%nat) []) false;
    mkXAttribute (tns_ism, "declassException") s_ism_cvenum_CVEnumISM25X false;
    mkXAttribute (tns_ism, "typeOfExemptedSource") s_ism_cvenum_CVEnumISMSourceMarked false;
    mkXAttribute (tns_ism, "dateOfExemptedSource") SDate false].

(** schemas/sidd/SIDD_schema_V1.0.0_2011_08_31.xsd:425-448. *)
Definition x_sidd100_ProcessorInformationType : XClass := mkXClass "sidd100.ProcessorInformationType"
  (PSequence [
    PElement (tns_sidd100, "Application") (XSimple SText) 1 (Some 1);
    PElement (tns_sidd100, "ProcessingDateTime") (XSimple SDateTime) 1 (Some 1);
    PElement (tns_sidd100, "Site") (XSimple SText) 1 (Some 1);
    PElement (tns_sidd100, "Profile") (XSimple SText) 0 (Some 1)])
  None [].

(** schemas/sidd/SIDD_schema_V1.0.0_2011_08_31.xsd:449-485. *)
Definition x_sidd100_ProductCreationType : XClass := mkXClass "sidd100.ProductCreationType"
  (PSequence [
    PElement (tns_sidd100, "ProcessorInformation") (XComplex "sidd100.ProcessorInformationType") 1 (Some 1);
    PElement (tns_sidd100, "Classification") (XComplex "sidd100.ProductClassificationType") 1 (Some 1);
    PElement (tns_sidd100, "ProductName") (XSimple SText) 1 (Some 1);
    PElement (tns_sidd100, "ProductClass") (XSimple SText) 1 (Some 1);
    PElement (tns_sidd100, "ProductType") (XSimple SText) 0 (Some 1);
    PElement (tns_sidd100, "ProductCreationExtension") (XComplex "common01.ParameterType") 0 None])
  None [].

(** schemas/sidd/SIDD_schema_V1.0.0_2011_08_31.xsd:486-491. *)
Definition x_sidd100_FootprintType : XClass := mkXClass "sidd100.FootprintType"
  (PSequence [
    PElement (tns_sidd100, "Vertex") (XComplex "common01.LatLonVertexType") 4 (Some 4)])
  None [
    mkXAttribute ("", "size") SInt32 true].

(** schemas/sidd/SIDD_schema_V1.0.0_2011_08_31.xsd:492-510. *)
Definition x_sidd100_TargetInformationType : XClass := mkXClass "sidd100.TargetInformationType"
  (PSequence [
    PElement (tns_sidd100, "Identifier") (XComplex "common01.ParameterType") 1 None;
    PElement (tns_sidd100, "Footprint") (XComplex "sidd100.FootprintType") 0 (Some 1);
    PElement (tns_sidd100, "TargetInformationExtension") (XComplex "common01.ParameterType") 0 None])
  None [].

(** schemas/sidd/SIDD_schema_V1.0.0_2011_08_31.xsd:511-529. *)
Definition x_sidd100_GeographicInformationType : XClass := mkXClass "sidd100.GeographicInformationType"
  (PSequence [
    PElement (tns_sidd100, "CountryCode") (XSimple SText) 0 None;
    PElement (tns_sidd100, "SecurityInfo") (XSimple SText) 0 (Some 1);
    PElement (tns_sidd100, "GeographicInfoExtension") (XComplex "common01.ParameterType") 0 None])
  None [].

(** schemas/sidd/SIDD_schema_V1.0.0_2011_08_31.xsd:530-555. *)
Definition x_sidd100_GeographicCoverageType : XClass := mkXClass "sidd100.GeographicCoverageType"
  (PSequence [
    PElement (tns_sidd100, "GeoregionIdentifier") (XComplex "common01.ParameterType") 0 None;
    PElement (tns_sidd100, "Footprint") (XComplex "sidd100.FootprintType") 1 (Some 1);
    PChoice [
    PElement (tns_sidd100, "SubRegion") (XComplex "sidd100.GeographicCoverageType") 0 None;
    PElement (tns_sidd100, "GeographicInfo") (XComplex "sidd100.GeographicInformationType") 1 (Some 1)]])
  None [].

(** schemas/sidd/SIDD_schema_V1.0.0_2011_08_31.xsd:556-569. *)
Definition x_sidd100_GeographicAndTargetType : XClass := mkXClass "sidd100.GeographicAndTargetType"
  (PSequence [
    PElement (tns_sidd100, "GeographicCoverage") (XComplex "sidd100.GeographicCoverageType") 1 (Some 1);
    PElement (tns_sidd100, "TargetInformation") (XComplex "sidd100.TargetInformationType") 0 None])
  None [].

(** schemas/sidd/SIDD_schema_V1.0.0_2011_08_31.xsd:570-601. *)
Definition x_sidd100_GeometricChipType : XClass := mkXClass "sidd100.GeometricChipType"
  (PSequence [
    PElement (tns_sidd100, "ChipSize") (XComplex "common01.RowColIntType") 1 (Some 1);
    PElement (tns_sidd100, "OriginalUpperLeftCoordinate") (XComplex "common01.RowColDoubleType") 1 (Some 1);
    PElement (tns_sidd100, "OriginalUpperRightCoordinate") (XComplex "common01.RowColDoubleType") 1 (Some 1);
    PElement (tns_sidd100, "OriginalLowerLeftCoordinate") (XComplex "common01.RowColDoubleType") 1 (Some 1);
    PElement (tns_sidd100, "OriginalLowerRightCoordinate") (XComplex "common01.RowColDoubleType") 1 (Some 1)])
  None [].

(** schemas/sidd/SIDD_schema_V1.0.0_2011_08_31.xsd:602-628. *)
Definition x_sidd100_ProcessingEventType : XClass := mkXClass "sidd100.ProcessingEventType"
  (PSequence [
    PElement (tns_sidd100, "ApplicationName") (XSimple SText) 1 (Some 1);
    PElement (tns_sidd100, "AppliedDateTime") (XSimple SDateTime) 1 (Some 1);
    PElement (tns_sidd100, "InterpolationMethod") (XSimple SText) 0 (Some 1);
    PElement (tns_sidd100, "Descriptor") (XComplex "common01.ParameterType") 0 None])
  None [].

(** schemas/sidd/SIDD_schema_V1.0.0_2011_08_31.xsd:629-645. *)
Definition x_sidd100_DownstreamReprocessingType : XClass := mkXClass "sidd100.DownstreamReprocessingType"
  (PSequence [
    PElement (tns_sidd100, "GeometricChip") (XComplex "sidd100.GeometricChipType") 0 (Some 1);
    PElement (tns_sidd100, "ProcessingEvent") (XComplex "sidd100.ProcessingEventType") 0 None])
  None [].

(** schemas/sidd/SIDD_schema_V1.0.0_2011_08_31.xsd:658-681. *)
Definition x_sidd100_ProcessingModuleType : XClass := mkXClass "sidd100.ProcessingModuleType"
  (PSequence [
    PElement (tns_sidd100, "ModuleName") (XComplex "common01.ParameterType") 1 (Some 1);
    POptional (PChoice [
    PElement (tns_sidd100, "ModuleParameter") (XComplex "common01.ParameterType") 1 None;
    PElement (tns_sidd100, "ProcessingModule") (XComplex "sidd100.ProcessingModuleType") 1 None])])
  None [].

(** schemas/sidd/SIDD_schema_V1.0.0_2011_08_31.xsd:646-657. *)
Definition x_sidd100_ProductProcessingType : XClass := mkXClass "sidd100.ProductProcessingType"
  (PSequence [
    PElement (tns_sidd100, "ProcessingModule") (XComplex "sidd100.ProcessingModuleType") 1 None])
  None [].

(** schemas/sidd/SIDD_schema_V1.0.0_2011_08_31.xsd:682-703. *)
Definition x_sidd100_ExploitationFeaturesProductType : XClass := mkXClass "sidd100.ExploitationFeaturesProductType"
  (PSequence [
    PElement (tns_sidd100, "Resolution") (XComplex "common01.RowColDoubleType") 1 (Some 1);
    PElement (tns_sidd100, "North") (XSimple s_common01_Neg180To180Type) 0 (Some 1);
    PElement (tns_sidd100, "Extension") (XComplex "common01.ParameterType") 0 None])
  None [].

(** schemas/sidd/SIDD_schema_V1.0.0_2011_08_31.xsd:728-744. *)
Definition x_sidd100_InputROIType : XClass := mkXClass "sidd100.InputROIType"
  (PSequence [
    PElement (tns_sidd100, "Size") (XComplex "common01.RowColIntType") 1 (Some 1);
    PElement (tns_sidd100, "UpperLeft") (XComplex "common01.RowColIntType") 1 (Some 1)])
  None [].

(** schemas/sidd/SIDD_schema_V1.0.0_2011_08_31.xsd:745-768. *)
Definition x_sidd100_TxRcvPolarizationType : XClass := mkXClass "sidd100.TxRcvPolarizationType"
  (PSequence [
    PElement (tns_sidd100, "TxPolarization") (XSimple s_common01_PolarizationType) 1 (Some 1);
    PElement (tns_sidd100, "RcvPolarization") (XSimple s_common01_PolarizationType) 1 (Some 1);
    PElement (tns_sidd100, "RcvPolarizationOffset") (XSimple s_common01_Neg180To180Type) 0 (Some 1);
    PElement (tns_sidd100, "Processed") (XSimple (SBoolean None)) 0 (Some 1)])
  None [].

(** schemas/sidd/SIDD_schema_V1.0.0_2011_08_31.xsd:769-815. *)
Definition x_sidd100_ExploitationFeaturesCollectionInformationType : XClass := mkXClass "sidd100.ExploitationFeaturesCollectionInformationType"
  (PSequence [
    PElement (tns_sidd100, "SensorName") (XSimple SText) 1 (Some 1);
    PElement (tns_sidd100, "RadarMode") (XComplex "common01.RadarModeType") 1 (Some 1);
    PElement (tns_sidd100, "CollectionDateTime") (XSimple SDateTime) 1 (Some 1);
    PElement (tns_sidd100, "LocalDateTime") (XSimple SDateTime) 0 (Some 1);
    PElement (tns_sidd100, "CollectionDuration") (XSimple SNumber) 1 (Some 1);
    PElement (tns_sidd100, "Resolution") (XComplex "common01.RangeAzimuthType") 0 (Some 1);
    PElement (tns_sidd100, "InputROI") (XComplex "sidd100.InputROIType") 0 (Some 1);
    PElement (tns_sidd100, "Polarization") (XComplex "sidd100.TxRcvPolarizationType") 0 None])
  None [].

(** schemas/sidd/SIDD_schema_V1.0.0_2011_08_31.xsd:816-852. *)
Definition x_sidd100_ExploitationFeaturesCollectionGeometryType : XClass := mkXClass "sidd100.ExploitationFeaturesCollectionGeometryType"
  (PSequence [
    PElement (tns_sidd100, "Azimuth") (XSimple SNumber) 0 (Some 1);
    PElement (tns_sidd100, "Slope") (XSimple s_common01_ZeroTo90Type) 0 (Some 1);
    PElement (tns_sidd100, "Squint") (XSimple s_common01_Neg180To180Type) 0 (Some 1);
    PElement (tns_sidd100, "Graze") (XSimple s_common01_ZeroTo90Type) 0 (Some 1);
    PElement (tns_sidd100, "Tilt") (XSimple s_common01_Neg180To180Type) 0 (Some 1);
    PElement (tns_sidd100, "Extension") (XComplex "common01.ParameterType") 0 None])
  None [].

(** schemas/sidd/SIDD_schema_V1.0.0_2011_08_31.xsd:853-884. *)
Definition x_sidd100_ExploitationFeaturesCollectionPhenomenologyType : XClass := mkXClass "sidd100.ExploitationFeaturesCollectionPhenomenologyType"
  (PSequence [
    PElement (tns_sidd100, "Shadow") (XComplex "common01.AngleMagnitudeType") 0 (Some 1);
    PElement (tns_sidd100, "Layover") (XComplex "common01.AngleMagnitudeType") 0 (Some 1);
    PElement (tns_sidd100, "MultiPath") (XSimple s_common01_Neg180To180Type) 0 (Some 1);
    PElement (tns_sidd100, "GroundTrack") (XSimple s_common01_Neg180To180Type) 0 (Some 1);
    PElement (tns_sidd100, "Extension") (XComplex "common01.ParameterType") 0 None])
  None [].

(** schemas/sidd/SIDD_schema_V1.0.0_2011_08_31.xsd:885-903. *)
Definition x_sidd100_ExploitationFeaturesCollectionType : XClass := mkXClass "sidd100.ExploitationFeaturesCollectionType"
  (PSequence [
    PElement (tns_sidd100, "Information") (XComplex "sidd100.ExploitationFeaturesCollectionInformationType") 1 (Some 1);
    PElement (tns_sidd100, "Geometry") (XComplex "sidd100.ExploitationFeaturesCollectionGeometryType") 0 (Some 1);
    PElement (tns_sidd100, "Phenomenology") (XComplex "sidd100.ExploitationFeaturesCollectionPhenomenologyType") 0 (Some 1)])
  None [].

(** schemas/sidd/SIDD_schema_V1.0.0_2011_08_31.xsd:713-719. *)
Definition x_sidd100_ExploitationFeaturesType_Collection : XClass := mkXClass "sidd100.ExploitationFeaturesType/Collection"
  (PSequence [
    PElement (tns_sidd100, "Information") (XComplex "sidd100.ExploitationFeaturesCollectionInformationType") 1 (Some 1);
    PElement (tns_sidd100, "Geometry") (XComplex "sidd100.ExploitationFeaturesCollectionGeometryType") 0 (Some 1);
    PElement (tns_sidd100, "Phenomenology") (XComplex "sidd100.ExploitationFeaturesCollectionPhenomenologyType") 0 (Some 1)])
  None [
    mkXAttribute ("", "identifier") SText true].

(** schemas/sidd/SIDD_schema_V1.0.0_2011_08_31.xsd:704-727. *)
Definition x_sidd100_ExploitationFeaturesType : XClass := mkXClass "sidd100.ExploitationFeaturesType"
  (PSequence [
    PElement (tns_sidd100, "Collection") (XComplex "sidd100.ExploitationFeaturesType/Collection") 1 None;
    PElement (tns_sidd100, "Product") (XComplex "sidd100.ExploitationFeaturesProductType") 1 (Some 1)])
  None [].

(** schemas/sidd/SIDD_schema_V1.0.0_2011_08_31.xsd:939-955. *)
Definition x_sidd100_AnnotationObjectType : XClass := mkXClass "sidd100.AnnotationObjectType"
  (PChoice [
    PElement (tns_sidd100, "Point") (XComplex "sfa.PointType") 1 (Some 1);
    PElement (tns_sidd100, "Line") (XComplex "sfa.LineType") 1 (Some 1);
    PElement (tns_sidd100, "LinearRing") (XComplex "sfa.LinearRingType") 1 (Some 1);
    PElement (tns_sidd100, "Polygon") (XComplex "sfa.PolygonType") 1 (Some 1);
    PElement (tns_sidd100, "PolyhedralSurface") (XComplex "sfa.PolyhedralSurfaceType") 1 (Some 1);
    PElement (tns_sidd100, "MultiPolygon") (XComplex "sfa.MultiPolygonType") 1 (Some 1);
    PElement (tns_sidd100, "MultiLineString") (XComplex "sfa.MultiLineStringType") 1 (Some 1);
    PElement (tns_sidd100, "MultiPoint") (XComplex "sfa.MultiPointType") 1 (Some 1)])
  None [].

(** schemas/sidd/SIDD_schema_V1.0.0_2011_08_31.xsd:956-982. *)
Definition x_sidd100_AnnotationType : XClass := mkXClass "sidd100.AnnotationType"
  (PSequence [
    PElement (tns_sidd100, "Identifier") (XSimple SText) 1 (Some 1);
    PElement (tns_sidd100, "SpatialReferenceSystem") (XComplex "sfa.ReferenceSystemType") 0 (Some 1);
    PElement (tns_sidd100, "Object") (XComplex "sidd100.AnnotationObjectType") 1 None])
  None [].

(** schemas/sidd/SIDD_schema_V1.0.0_2011_08_31.xsd:904-912. *)
Definition x_sidd100_AnnotationsType : XClass := mkXClass "sidd100.AnnotationsType"
  (PSequence [
    PElement (tns_sidd100, "Annotation") (XComplex "sidd100.AnnotationType") 1 None])
  None [].

(** schemas/sidd/SIDD_schema_V1.0.0_2011_08_31.xsd:987-1040. *)
Definition x_sidd100_SIDD_ : XClass := mkXClass "sidd100.SIDD/"
  (PSequence [
    PElement (tns_sidd100, "ProductCreation") (XComplex "sidd100.ProductCreationType") 1 (Some 1);
    PElement (tns_sidd100, "Display") (XComplex "sidd100.ProductDisplayType") 1 (Some 1);
    PElement (tns_sidd100, "GeographicAndTarget") (XComplex "sidd100.GeographicAndTargetType") 1 (Some 1);
    PElement (tns_sidd100, "Measurement") (XComplex "sidd100.MeasurementType") 1 (Some 1);
    PElement (tns_sidd100, "ExploitationFeatures") (XComplex "sidd100.ExploitationFeaturesType") 1 (Some 1);
    PElement (tns_sidd100, "ProductProcessing") (XComplex "sidd100.ProductProcessingType") 0 (Some 1);
    PElement (tns_sidd100, "DownstreamReprocessing") (XComplex "sidd100.DownstreamReprocessingType") 0 (Some 1);
    PElement (tns_sidd100, "ErrorStatistics") (XComplex "common01.ErrorStatisticsType") 0 (Some 1);
    PElement (tns_sidd100, "Radiometric") (XComplex "common01.RadiometricType") 0 (Some 1);
    PElement (tns_sidd100, "Annotations") (XComplex "sidd100.AnnotationsType") 0 (Some 1)])
  None [].

(** schemas/sidd/SIDD_schema_V2.0.0_2019_05_31.xsd:21-31. *)
Definition x_sidd200_Lookup3TableType : XClass := mkXClass "sidd200.Lookup3TableType"
  (PSequence [])
  (Some s_sidd200_LUT3ListType) [
    mkXAttribute ("", "size") SInt32 true].

(** schemas/sidd/SIDD_schema_V2.0.0_2019_05_31.xsd:32-42. *)
Definition x_sidd200_LookupTableType : XClass := mkXClass "sidd200.LookupTableType"
  (PSequence [])
  (Some s_sidd200_LUTListType) [
    mkXAttribute ("", "lut") SInt32 true].

(** schemas/sidd/SIDD_schema_V2.0.0_2019_05_31.xsd:43-54. *)
Definition x_sidd200_ColorDisplayRemapType : XClass := mkXClass "sidd200.ColorDisplayRemapType"
  (PSequence [
    PElement (tns_sidd200, "RemapLUT") (XComplex "sidd200.Lookup3TableType") 1 (Some 1)])
  None [].

(** schemas/sidd/SIDD_schema_V2.0.0_2019_05_31.xsd:55-84. *)
Definition x_sidd200_MonochromeDisplayRemapType : XClass := mkXClass "sidd200.MonochromeDisplayRemapType"
  (PSequence [
    PElement (tns_sidd200, "RemapType") (XSimple SText) 1 (Some 1);
    PElement (tns_sidd200, "RemapParameter") (XComplex "common10.ParameterType") 0 None])
  None [].

(** schemas/sidd/SIDD_schema_V2.0.0_2019_05_31.xsd:85-98. *)
Definition x_sidd200_RemapChoiceType : XClass := mkXClass "sidd200.RemapChoiceType"
  (PChoice [
    PElement (tns_sidd200, "ColorDisplayRemap") (XComplex "sidd200.ColorDisplayRemapType") 1 (Some 1);
    PElement (tns_sidd200, "MonochromeDisplayRemap") (XComplex "sidd200.MonochromeDisplayRemapType") 1 (Some 1)])
  None [].

(** schemas/sidd/SIDD_schema_V2.0.0_2019_05_31.xsd:99-112. *)
Definition x_sidd200_DRAHistogramOverridesType : XClass := mkXClass "sidd200.DRAHistogramOverridesType"
  (PSequence [
    PElement (tns_sidd200, "ClipMin") (XSimple SInt32) 1 (Some 1);
    PElement (tns_sidd200, "ClipMax") (XSimple SInt32) 1 (Some 1)])
  None [].

(** schemas/sidd/SIDD_schema_V2.0.0_2019_05_31.xsd:355-381. *)
Definition x_sidd200_PredefinedLookupType : XClass := mkXClass "sidd200.PredefinedLookupType"
  (PChoice [
    PElement (tns_sidd200, "DatabaseName") (XSimple SText) 1 (Some 1);
    PSequence [
    PElement (tns_sidd200, "RemapFamily") (XSimple SInt32) 1 (Some 1);
    PElement (tns_sidd200, "RemapMember") (XSimple SInt32) 1 (Some 1)]])
  None [].

(** schemas/sidd/SIDD_schema_V2.0.0_2019_05_31.xsd:382-388. *)
Definition x_sidd200_LUTInfoType : XClass := mkXClass "sidd200.LUTInfoType"
  (PSequence [
    PElement (tns_sidd200, "LUTValues") (XComplex "sidd200.LookupTableType") 1 None])
  None [
    mkXAttribute ("", "numLuts") SInt32 true;
    mkXAttribute ("", "size") SInt32 true].

(** schemas/sidd/SIDD_schema_V2.0.0_2019_05_31.xsd:389-393. *)
Definition x_sidd200_CustomLookupType : XClass := mkXClass "sidd200.CustomLookupType"
  (PSequence [
    PElement (tns_sidd200, "LUTInfo") (XComplex "sidd200.LUTInfoType") 1 (Some 1)])
  None [].

(** schemas/sidd/SIDD_schema_V2.0.0_2019_05_31.xsd:346-354. *)
Definition x_sidd200_NewLookupTableType : XClass := mkXClass "sidd200.NewLookupTableType"
  (PSequence [
    PElement (tns_sidd200, "LUTName") (XSimple SText) 1 (Some 1);
    PChoice [
    PElement (tns_sidd200, "Predefined") (XComplex "sidd200.PredefinedLookupType") 1 (Some 1);
    PElement (tns_sidd200, "Custom") (XComplex "sidd200.CustomLookupType") 1 (Some 1)]])
  None [].

(** schemas/sidd/SIDD_schema_V2.0.0_2019_05_31.xsd:336-342. *)
Definition x_sidd200_BandEqualizationType_BandLUT : XClass := mkXClass "sidd200.BandEqualizationType/BandLUT"
  (PSequence [
    PElement (tns_sidd200, "LUTName") (XSimple SText) 1 (Some 1);
    PChoice [
    PElement (tns_sidd200, "Predefined") (XComplex "sidd200.PredefinedLookupType") 1 (Some 1);
    PElement (tns_sidd200, "Custom") (XComplex "sidd200.CustomLookupType") 1 (Some 1)]])
  None [
    mkXAttribute ("", "k") (SInt (Some 1%Z) None) true].

(** schemas/sidd/SIDD_schema_V2.0.0_2019_05_31.xsd:322-345. *)
Definition x_sidd200_BandEqualizationType : XClass := mkXClass "sidd200.BandEqualizationType"
  (PSequence [
    PElement (tns_sidd200, "Algorithm") (XSimple s_sidd200_EqualizationAlgorithmType) 1 (Some 1);
    PElement (tns_sidd200, "BandLUT") (XComplex "sidd200.BandEqualizationType/BandLUT") 1 None])
  None [].

(** schemas/sidd/SIDD_schema_V2.0.0_2019_05_31.xsd:256-264. *)
Definition x_sidd200_PredefinedFilterType : XClass := mkXClass "sidd200.PredefinedFilterType"
  (PChoice [
    PElement (tns_sidd200, "DatabaseName") (XSimple s_sidd200_FilterDatabaseNameType) 1 (Some 1);
    PSequence [
    PElement (tns_sidd200, "FilterFamily") (XSimple SInt32) 1 (Some 1);
    PElement (tns_sidd200, "FilterMember") (XSimple SInt32) 1 (Some 1)]])
  None [].

(** schemas/sidd/SIDD_schema_V2.0.0_2019_05_31.xsd:279-286. *)
Definition x_sidd200_FilterKernelCoefType_Coef : XClass := mkXClass "sidd200.FilterKernelCoefType/Coef"
  (PSequence [])
  (Some SNumber) [
    mkXAttribute ("", "row") SInt32 true;
    mkXAttribute ("", "col") SInt32 true].

(** schemas/sidd/SIDD_schema_V2.0.0_2019_05_31.xsd:276-291. *)
Definition x_sidd200_FilterKernelCoefType : XClass := mkXClass "sidd200.FilterKernelCoefType"
  (PSequence [
    PElement (tns_sidd200, "Coef") (XComplex "sidd200.FilterKernelCoefType/Coef") 1 None])
  None [
    mkXAttribute ("", "numRows") SInt32 true;
    mkXAttribute ("", "numCols") SInt32 true].

(** schemas/sidd/SIDD_schema_V2.0.0_2019_05_31.xsd:265-269. *)
Definition x_sidd200_KernelCustomType : XClass := mkXClass "sidd200.KernelCustomType"
  (PSequence [
    PElement (tns_sidd200, "FilterCoefficients") (XComplex "sidd200.FilterKernelCoefType") 1 (Some 1)])
  None [].

(** schemas/sidd/SIDD_schema_V2.0.0_2019_05_31.xsd:239-244. *)
Definition x_sidd200_FilterKernelType : XClass := mkXClass "sidd200.FilterKernelType"
  (PChoice [
    PElement (tns_sidd200, "Predefined") (XComplex "sidd200.PredefinedFilterType") 1 (Some 1);
    PElement (tns_sidd200, "Custom") (XComplex "sidd200.KernelCustomType") 1 (Some 1)])
  None [].

(** schemas/sidd/SIDD_schema_V2.0.0_2019_05_31.xsd:295-302. *)
Definition x_sidd200_FilterBankCoefType_Coef : XClass := mkXClass "sidd200.FilterBankCoefType/Coef"
  (PSequence [])
  (Some SNumber) [
    mkXAttribute ("", "phasing") SInt32 true;
    mkXAttribute ("", "point") SInt32 true].

(** schemas/sidd/SIDD_schema_V2.0.0_2019_05_31.xsd:292-307. *)
Definition x_sidd200_FilterBankCoefType : XClass := mkXClass "sidd200.FilterBankCoefType"
  (PSequence [
    PElement (tns_sidd200, "Coef") (XComplex "sidd200.FilterBankCoefType/Coef") 1 None])
  None [
    mkXAttribute ("", "numPhasings") SInt32 true;
    mkXAttribute ("", "numPoints") SInt32 true].

(** schemas/sidd/SIDD_schema_V2.0.0_2019_05_31.xsd:251-255. *)
Definition x_sidd200_BankCustomType : XClass := mkXClass "sidd200.BankCustomType"
  (PSequence [
    PElement (tns_sidd200, "FilterCoefficients") (XComplex "sidd200.FilterBankCoefType") 1 (Some 1)])
  None [].

(** schemas/sidd/SIDD_schema_V2.0.0_2019_05_31.xsd:245-250. *)
Definition x_sidd200_FilterBankType : XClass := mkXClass "sidd200.FilterBankType"
  (PChoice [
    PElement (tns_sidd200, "Predefined") (XComplex "sidd200.PredefinedFilterType") 1 (Some 1);
    PElement (tns_sidd200, "Custom") (XComplex "sidd200.BankCustomType") 1 (Some 1)])
  None [].

(** schemas/sidd/SIDD_schema_V2.0.0_2019_05_31.xsd:229-238. *)
Definition x_sidd200_FilterType : XClass := mkXClass "sidd200.FilterType"
  (PSequence [
    PElement (tns_sidd200, "FilterName") (XSimple SText) 1 (Some 1);
    PChoice [
    PElement (tns_sidd200, "FilterKernel") (XComplex "sidd200.FilterKernelType") 1 (Some 1);
    PElement (tns_sidd200, "FilterBank") (XComplex "sidd200.FilterBankType") 1 (Some 1)];
    PElement (tns_sidd200, "Operation") (XSimple s_sidd200_FilterOperationType) 1 (Some 1)])
  None [].

(** schemas/sidd/SIDD_schema_V2.0.0_2019_05_31.xsd:170-199. *)
Definition x_sidd200_ProductGenerationOptionsType : XClass := mkXClass "sidd200.ProductGenerationOptionsType"
  (PSequence [
    PElement (tns_sidd200, "BandEqualization") (XComplex "sidd200.BandEqualizationType") 0 (Some 1);
    PElement (tns_sidd200, "ModularTransferFunctionRestoration") (XComplex "sidd200.FilterType") 0 (Some 1);
    PElement (tns_sidd200, "DataRemapping") (XComplex "sidd200.NewLookupTableType") 1 (Some 1);
    PElement (tns_sidd200, "AsymmetricPixelCorrection") (XComplex "sidd200.FilterType") 0 (Some 1)])
  None [].

(** schemas/sidd/SIDD_schema_V2.0.0_2019_05_31.xsd:210-228. *)
Definition x_sidd200_RRDSType : XClass := mkXClass "sidd200.RRDSType"
  (PSequence [
    PElement (tns_sidd200, "DownsamplingMethod") (XSimple s_sidd200_DownsamplingMethodType) 1 (Some 1);
    PElement (tns_sidd200, "AntiAlias") (XComplex "sidd200.FilterType") 0 (Some 1);
    PElement (tns_sidd200, "Interpolation") (XComplex "sidd200.FilterType") 0 (Some 1)])
  None [].

(** schemas/sidd/SIDD_schema_V2.0.0_2019_05_31.xsd:150-169. *)
Definition x_sidd200_NonInteractiveProcessingType : XClass := mkXClass "sidd200.NonInteractiveProcessingType"
  (PSequence [
    PElement (tns_sidd200, "ProductGenerationOptions") (XComplex "sidd200.ProductGenerationOptionsType") 1 (Some 1);
    PElement (tns_sidd200, "RRDS") (XComplex "sidd200.RRDSType") 1 (Some 1)])
  None [
    mkXAttribute ("", "band") (SInt (Some 1%Z) None) true].

(** schemas/sidd/SIDD_schema_V2.0.0_2019_05_31.xsd:445-464. *)
Definition x_sidd200_ScalingType : XClass := mkXClass "sidd200.ScalingType"
  (PSequence [
    PElement (tns_sidd200, "AntiAlias") (XComplex "sidd200.FilterType") 1 (Some 1);
    PElement (tns_sidd200, "Interpolation") (XComplex "sidd200.FilterType") 1 (Some 1)])
  None [].

(** schemas/sidd/SIDD_schema_V2.0.0_2019_05_31.xsd:465-478. *)
Definition x_sidd200_Orientation : XClass := mkXClass "sidd200.Orientation"
  (PSequence [
    PElement (tns_sidd200, "ShadowDirection") (XSimple s_sidd200_ShadowDirectionType) 1 (Some 1)])
  None [].

(** schemas/sidd/SIDD_schema_V2.0.0_2019_05_31.xsd:427-444. *)
Definition x_sidd200_GeometricTransformType : XClass := mkXClass "sidd200.GeometricTransformType"
  (PSequence [
    PElement (tns_sidd200, "Scaling") (XComplex "sidd200.ScalingType") 1 (Some 1);
    PElement (tns_sidd200, "Orientation") (XComplex "sidd200.Orientation") 1 (Some 1)])
  None [].

(** schemas/sidd/SIDD_schema_V2.0.0_2019_05_31.xsd:491-504. *)
Definition x_sidd200_SharpnessEnhancementType : XClass := mkXClass "sidd200.SharpnessEnhancementType"
  (PChoice [
    PElement (tns_sidd200, "ModularTransferFunctionCompensation") (XComplex "sidd200.FilterType") 1 (Some 1);
    PElement (tns_sidd200, "ModularTransferFunctionEnhancement") (XComplex "sidd200.FilterType") 1 (Some 1)])
  None [].

(** schemas/sidd/SIDD_schema_V2.0.0_2019_05_31.xsd:514-536. *)
Definition x_sidd200_ColorManagementModuleType : XClass := mkXClass "sidd200.ColorManagementModuleType"
  (PSequence [
    PElement (tns_sidd200, "RenderingIntent") (XSimple s_sidd200_RenderingIntentType) 1 (Some 1);
    PElement (tns_sidd200, "SourceProfile") (XSimple SText) 1 (Some 1);
    PElement (tns_sidd200, "DisplayProfile") (XSimple SText) 0 (Some 1);
    PElement (tns_sidd200, "ICCProfileSignature") (XSimple SText) 0 (Some 1)])
  None [].

(** schemas/sidd/SIDD_schema_V2.0.0_2019_05_31.xsd:505-513. *)
Definition x_sidd200_ColorSpaceTransformType : XClass := mkXClass "sidd200.ColorSpaceTransformType"
  (PSequence [
    PElement (tns_sidd200, "ColorManagementModule") (XComplex "sidd200.ColorManagementModuleType") 1 (Some 1)])
  None [].

(** schemas/sidd/SIDD_schema_V2.0.0_2019_05_31.xsd:566-593. *)
Definition x_sidd200_DRAParameters : XClass := mkXClass "sidd200.DRAParameters"
  (PSequence [
    PElement (tns_sidd200, "Pmin") (XSimple SNumber) 1 (Some 1);
    PElement (tns_sidd200, "Pmax") (XSimple SNumber) 1 (Some 1);
    PElement (tns_sidd200, "EminModifier") (XSimple SNumber) 1 (Some 1);
    PElement (tns_sidd200, "EmaxModifier") (XSimple SNumber) 1 (Some 1)])
  None [].

(** schemas/sidd/SIDD_schema_V2.0.0_2019_05_31.xsd:604-617. *)
Definition x_sidd200_DRAOverrides : XClass := mkXClass "sidd200.DRAOverrides"
  (PSequence [
    PElement (tns_sidd200, "Subtractor") (XSimple SNumber) 1 (Some 1);
    PElement (tns_sidd200, "Multiplier") (XSimple SNumber) 1 (Some 1)])
  None [].

(** schemas/sidd/SIDD_schema_V2.0.0_2019_05_31.xsd:545-565. *)
Definition x_sidd200_DynamicRangeAdjustmentType : XClass := mkXClass "sidd200.DynamicRangeAdjustmentType"
  (PSequence [
    PElement (tns_sidd200, "AlgorithmType") (XSimple s_sidd200_RangeAdjustmentAlgorithmType) 1 (Some 1);
    PElement (tns_sidd200, "BandStatsSource") (XSimple SInt32) 1 (Some 1);
    PElement (tns_sidd200, "DRAParameters") (XComplex "sidd200.DRAParameters") 0 (Some 1);
    PElement (tns_sidd200, "DRAOverrides") (XComplex "sidd200.DRAOverrides") 0 (Some 1)])
  None [].

(** schemas/sidd/SIDD_schema_V2.0.0_2019_05_31.xsd:399-426. *)
Definition x_sidd200_InteractiveProcessingType : XClass := mkXClass "sidd200.InteractiveProcessingType"
  (PSequence [
    PElement (tns_sidd200, "GeometricTransform") (XComplex "sidd200.GeometricTransformType") 1 (Some 1);
    PElement (tns_sidd200, "SharpnessEnhancement") (XComplex "sidd200.SharpnessEnhancementType") 1 (Some 1);
    PElement (tns_sidd200, "ColorSpaceTransform") (XComplex "sidd200.ColorSpaceTransformType") 0 (Some 1);
    PElement (tns_sidd200, "DynamicRangeAdjustment") (XComplex "sidd200.DynamicRangeAdjustmentType") 1 (Some 1);
    PElement (tns_sidd200, "TonalTransferCurve") (XComplex "sidd200.NewLookupTableType") 0 (Some 1)])
  None [
    mkXAttribute ("", "band") (SInt (Some 1%Z) None) true].

(** schemas/sidd/SIDD_schema_V2.0.0_2019_05_31.xsd:113-149. *)
Definition x_sidd200_ProductDisplayType : XClass := mkXClass "sidd200.ProductDisplayType"
  (PSequence [
    PElement (tns_sidd200, "PixelType") (XSimple s_sidd200_PixelType) 1 (Some 1);
    PElement (tns_sidd200, "NumBands") (XSimple SInt32) 1 (Some 1);
    PElement (tns_sidd200, "DefaultBandDisplay") (XSimple SInt32) 0 (Some 1);
    PElement (tns_sidd200, "NonInteractiveProcessing") (XComplex "sidd200.NonInteractiveProcessingType") 1 None;
    PElement (tns_sidd200, "InteractiveProcessing") (XComplex "sidd200.InteractiveProcessingType") 1 None;
    PElement (tns_sidd200, "DisplayExtension") (XComplex "common10.ParameterType") 0 None])
  None [].

(** schemas/sidd/SIDD_schema_V2.0.0_2019_05_31.xsd:618-634. *)
Definition x_sidd200_ProductPlaneType : XClass := mkXClass "sidd200.ProductPlaneType"
  (PSequence [
    PElement (tns_sidd200, "RowUnitVector") (XComplex "common10.XYZType") 1 (Some 1);
    PElement (tns_sidd200, "ColUnitVector") (XComplex "common10.XYZType") 1 (Some 1)])
  None [].

(** schemas/sidd/SIDD_schema_V2.0.0_2019_05_31.xsd:635-643. *)
Definition x_sidd200_BaseProjectionType : XClass := mkXClass "sidd200.BaseProjectionType"
  (PSequence [
    PElement (tns_sidd200, "ReferencePoint") (XComplex "common10.ReferencePointType") 1 (Some 1)])
  None [].

(** schemas/sidd/SIDD_schema_V2.0.0_2019_05_31.xsd:644-661. *)
Definition x_sidd200_MeasurableProjectionType : XClass := mkXClass "sidd200.MeasurableProjectionType"
  (PSequence [
    PSequence [
    PElement (tns_sidd200, "ReferencePoint") (XComplex "common10.ReferencePointType") 1 (Some 1)];
    PSequence [
    PElement (tns_sidd200, "SampleSpacing") (XComplex "common10.RowColDoubleType") 1 (Some 1);
    PElement (tns_sidd200, "TimeCOAPoly") (XComplex "common10.Poly2DType") 1 (Some 1)]])
  None [].

(** schemas/sidd/SIDD_schema_V2.0.0_2019_05_31.xsd:662-677. *)
Definition x_sidd200_PlaneProjectionType : XClass := mkXClass "sidd200.PlaneProjectionType"
  (PSequence [
    PSequence [
    PElement (tns_sidd200, "ReferencePoint") (XComplex "common10.ReferencePointType") 1 (Some 1)];
    PSequence [
    PElement (tns_sidd200, "SampleSpacing") (XComplex "common10.RowColDoubleType") 1 (Some 1);
    PElement (tns_sidd200, "TimeCOAPoly") (XComplex "common10.Poly2DType") 1 (Some 1)];
    PSequence [
    PElement (tns_sidd200, "ProductPlane") (XComplex "sidd200.ProductPlaneType") 1 (Some 1)]])
  None [].

(** schemas/sidd/SIDD_schema_V2.0.0_2019_05_31.xsd:678-713. *)
Definition x_sidd200_PolynomialProjectionType : XClass := mkXClass "sidd200.PolynomialProjectionType"
  (PSequence [
    PSequence [
    PElement (tns_sidd200, "ReferencePoint") (XComplex "common10.ReferencePointType") 1 (Some 1)];
    PSequence [
    PElement (tns_sidd200, "RowColToLat") (XComplex "common10.Poly2DType") 1 (Some 1);
    PElement (tns_sidd200, "RowColToLon") (XComplex "common10.Poly2DType") 1 (Some 1);
    PElement (tns_sidd200, "RowColToAlt") (XComplex "common10.Poly2DType") 0 (Some 1);
    PElement (tns_sidd200, "LatLonToRow") (XComplex "common10.Poly2DType") 1 (Some 1);
    PElement (tns_sidd200, "LatLonToCol") (XComplex "common10.Poly2DType") 1 (Some 1)]])
  None [].

(** schemas/sidd/SIDD_schema_V2.0.0_2019_05_31.xsd:714-721. *)
Definition x_sidd200_GeographicProjectionType : XClass := mkXClass "sidd200.GeographicProjectionType"
  (PSequence [
    PSequence [
    PElement (tns_sidd200, "ReferencePoint") (XComplex "common10.ReferencePointType") 1 (Some 1)];
    PSequence [
    PElement (tns_sidd200, "SampleSpacing") (XComplex "common10.RowColDoubleType") 1 (Some 1);
    PElement (tns_sidd200, "TimeCOAPoly") (XComplex "common10.Poly2DType") 1 (Some 1)]])
  None [].

(** schemas/sidd/SIDD_schema_V2.0.0_2019_05_31.xsd:722-742. *)
Definition x_sidd200_CylindricalProjectionType : XClass := mkXClass "sidd200.CylindricalProjectionType"
  (PSequence [
    PSequence [
    PElement (tns_sidd200, "ReferencePoint") (XComplex "common10.ReferencePointType") 1 (Some 1)];
    PSequence [
    PElement (tns_sidd200, "SampleSpacing") (XComplex "common10.RowColDoubleType") 1 (Some 1);
    PElement (tns_sidd200, "TimeCOAPoly") (XComplex "common10.Poly2DType") 1 (Some 1)];
    PSequence [
    PElement (tns_sidd200, "StripmapDirection") (XComplex "common10.XYZType") 1 (Some 1);
    PElement (tns_sidd200, "CurvatureRadius") (XSimple SNumber) 0 (Some 1)]])
  None [].

(** schemas/sidd/SIDD_schema_V2.0.0_2019_05_31.xsd:1005-1023. *)
Definition x_sidd200_ValidDataType : XClass := mkXClass "sidd200.ValidDataType"
  (PSequence [
    PElement (tns_sidd200, "Vertex") (XComplex "common10.RowColVertexType") 3 None])
  None [
    mkXAttribute ("", "size") SInt32 true].

(** schemas/sidd/SIDD_schema_V2.0.0_2019_05_31.xsd:743-815. *)
Definition x_sidd200_MeasurementType : XClass := mkXClass "sidd200.MeasurementType"
  (PSequence [
    PChoice [
    PElement (tns_sidd200, "PolynomialProjection") (XComplex "sidd200.PolynomialProjectionType") 1 (Some 1);
    PElement (tns_sidd200, "GeographicProjection") (XComplex "sidd200.GeographicProjectionType") 1 (Some 1);
    PElement (tns_sidd200, "PlaneProjection") (XComplex "sidd200.PlaneProjectionType") 1 (Some 1);
    PElement (tns_sidd200, "CylindricalProjection") (XComplex "sidd200.CylindricalProjectionType") 1 (Some 1)];
    PElement (tns_sidd200, "PixelFootprint") (XComplex "common10.RowColIntType") 1 (Some 1);
    PElement (tns_sidd200, "ARPFlag") (XSimple (SEnum false ["REALTIME"; "PREDICTED"; "POST PROCESSED"])) 0 (Some 1);
    PElement (tns_sidd200, "ARPPoly") (XComplex "common10.XYZPolyType") 1 (Some 1);
    PElement (tns_sidd200, "ValidData") (XComplex "sidd200.ValidDataType") 1 (Some 1)])
  None [].

(** schemas/sidd/SIDD_schema_V2.0.0_2019_05_31.xsd:816-821. *)
Definition x_sidd200_AcheivedResolutionType : XClass := mkXClass "sidd200.AcheivedResolutionType"
  (PSequence [])
  None [].

(** schemas/sidd/SIDD_schema_V2.0.0_2019_05_31.xsd:831-847. *)
Definition x_sidd200_ClassificationGuidanceType : XClass := mkXClass "sidd200.ClassificationGuidanceType"
  (PSequence [
    PElement (tns_sidd200, "Authority") (XSimple SText) 1 (Some 1);
    PElement (tns_sidd200, "Date") (XSimple SDate) 1 (Some 1)])
  None [].

(** schemas/sidd/SIDD_schema_V2.0.0_2019_05_31.xsd:848-861. *)
Definition x_sidd200_ProductClassificationType : XClass := mkXClass "sidd200.ProductClassificationType"
  (PSequence [
    PElement (tns_sidd200, "SecurityExtension") (XComplex "common10.ParameterType") 0 None])
  None [
    mkXAttribute (tns_ism13, "DESVersion") s_ism13_ShortStringType true;
    mkXAttribute (tns_ism13, "ISMCATCESVersion") s_ism13_ShortStringType true;
    mkXAttribute (tns_ism13, "resourceElement") (SBoolean None) true;
    mkXAttribute (tns_ism13, "compliesWith") s_cvenum_ism_complieswith_CVEnumISMCompliesWith true;
    mkXAttribute (tns_ism13, "createDate") SDate true;
    mkXAttribute (tns_ism13, "exemptFrom") s_cvenum_ism_exemptfrom_CVEnumISMExemptFrom false;
    mkXAttribute (tns_ism13, "classification") s_cvenum_ism_classification_all_CVEnumISMClassificationAll true;
    mkXAttribute (tns_ism13, "ownerProducer") s_cvenum_ismcat_ownerproducer_CVEnumISMCATOwnerProducer true;
    mkXAttribute (tns_ism13, "joint") (SBoolean None) false;
    mkXAttribute (tns_ism13, "SCIcontrols") s_cvenum_ism_scicontrols_CVEnumISMSCIControls false;
    mkXAttribute (tns_ism13, "SARIdentifier") s_cvenum_ism_sar_CVEnumISMSAR false;
    mkXAttribute (tns_ism13, "atomicEnergyMarkings") s_cvenum_ism_atomicEnergyMarkings_CVEnumISMatomicEnergyMarkings false;
    mkXAttribute (tns_ism13, "disseminationControls") s_cvenum_ism_dissem_CVEnumISMDissem false;
    mkXAttribute (tns_ism13, "displayOnlyTo") s_cvenum_ismcat_relto_CVEnumISMCATRelTo false;
    mkXAttribute (tns_ism13, "FGIsourceOpen") s_cvenum_ismcat_fgiopen_CVEnumISMCATFGIOpen false;
    mkXAttribute (tns_ism13, "FGIsourceProtected") s_cvenum_ismcat_fgiprotected_CVEnumISMCATFGIProtected false;
    mkXAttribute (tns_ism13, "releasableTo") s_cvenum_ismcat_relto_CVEnumISMCATRelTo false;
    mkXAttribute (tns_ism13, "nonICmarkings") s_cvenum_ism_nonic_CVEnumISMNonIC false;
    mkXAttribute (tns_ism13, "classifiedBy") (SString false (Some 1024%nat) []) false;
    mkXAttribute (tns_ism13, "compilationReason") (SString false (Some 1024%nat) []) false;
    mkXAttribute (tns_ism13, "derivativelyClassifiedBy") (SString false (Some 1024%nat) []) false;
    mkXAttribute (tns_ism13, "classificationReason") (SString false (Some 4096%nat) []) false;
    mkXAttribute (tns_ism13, "nonUSControls") s_cvenum_ism_nonuscontrols_CVEnumISMNonUSControls false;
    mkXAttribute (tns_ism13, "derivedFrom") (SString false (Some 1024%nat) []) false;
    mkXAttribute (tns_ism13, "declassDate") SDate false;
    mkXAttribute (tns_ism13, "declassEvent") (SString false (Some 1024%nat) []) false;
    mkXAttribute (tns_ism13, "declassException") s_cvenum_ism_25x_CVEnumISM25X false;
    mkXAttribute (tns_ism13, "noticeType") s_cvenum_ism_notice_CVEnumISMNotice false;
    mkXAttribute (tns_ism13, "noticeReason") (SString false (Some 2048%nat) []) false;
    mkXAttribute (tns_ism13, "noticeDate") SDate false;
    mkXAttribute (tns_ism13, "unregisteredNoticeType") (SString false (Some 2048%nat) []) false;
    mkXAttribute (tns_ism13, "externalNotice") (SBoolean None) false].

(** schemas/sidd/SIDD_schema_V2.0.0_2019_05_31.xsd:862-885. *)
Definition x_sidd200_ProcessorInformationType : XClass := mkXClass "sidd200.ProcessorInformationType"
  (PSequence [
    PElement (tns_sidd200, "Application") (XSimple SText) 1 (Some 1);
    PElement (tns_sidd200, "ProcessingDateTime") (XSimple SDateTime) 1 (Some 1);
    PElement (tns_sidd200, "Site") (XSimple SText) 1 (Some 1);
    PElement (tns_sidd200, "Profile") (XSimple SText) 0 (Some 1)])
  None [].

(** schemas/sidd/SIDD_schema_V2.0.0_2019_05_31.xsd:886-922. *)
Definition x_sidd200_ProductCreationType : XClass := mkXClass "sidd200.ProductCreationType"
  (PSequence [
    PElement (tns_sidd200, "ProcessorInformation") (XComplex "sidd200.ProcessorInformationType") 1 (Some 1);
    PElement (tns_sidd200, "Classification") (XComplex "sidd200.ProductClassificationType") 1 (Some 1);
    PElement (tns_sidd200, "ProductName") (XSimple SText) 1 (Some 1);
    PElement (tns_sidd200, "ProductClass") (XSimple SText) 1 (Some 1);
    PElement (tns_sidd200, "ProductType") (XSimple SText) 0 (Some 1);
    PElement (tns_sidd200, "ProductCreationExtension") (XComplex "common10.ParameterType") 0 None])
  None [].

(** schemas/sidd/SIDD_schema_V2.0.0_2019_05_31.xsd:976-982. *)
Definition x_sidd200_ImageCornersType_ICP : XClass := mkXClass "sidd200.ImageCornersType/ICP"
  (PSequence [
    PElement (tns_common10, "Lat") (XSimple SNumber) 1 (Some 1);
    PElement (tns_common10, "Lon") (XSimple SNumber) 1 (Some 1)])
  None [
    mkXAttribute ("", "index") s_common10_CornerStringType true].

(** schemas/sidd/SIDD_schema_V2.0.0_2019_05_31.xsd:964-985. *)
Definition x_sidd200_ImageCornersType : XClass := mkXClass "sidd200.ImageCornersType"
  (PSequence [
    PElement (tns_sidd200, "ICP") (XComplex "sidd200.ImageCornersType/ICP") 4 (Some 4)])
  None [].

(** schemas/sidd/SIDD_schema_V2.0.0_2019_05_31.xsd:986-1004. *)
Definition x_sidd200_PolygonType : XClass := mkXClass "sidd200.PolygonType"
  (PSequence [
    PElement (tns_sidd200, "Vertex") (XComplex "common10.LatLonVertexType") 3 None])
  None [
    mkXAttribute ("", "size") SInt32 true].

(** schemas/sidd/SIDD_schema_V2.0.0_2019_05_31.xsd:923-955. *)
Definition x_sidd200_GeoDataType : XClass := mkXClass "sidd200.GeoDataType"
  (PSequence [
    PElement (tns_sidd200, "EarthModel") (XSimple s_sidd200_EarthModelType) 1 (Some 1);
    PElement (tns_sidd200, "ImageCorners") (XComplex "sidd200.ImageCornersType") 1 (Some 1);
    PElement (tns_sidd200, "ValidData") (XComplex "sidd200.PolygonType") 1 (Some 1);
    PElement (tns_common10, "GeoInfo") (XComplex "common10.GeoInfoType") 0 None])
  None [].

(** schemas/sidd/SIDD_schema_V2.0.0_2019_05_31.xsd:1024-1060. *)
Definition x_sidd200_GeometricChipType : XClass := mkXClass "sidd200.GeometricChipType"
  (PSequence [
    PElement (tns_sidd200, "ChipSize") (XComplex "common10.RowColIntType") 1 (Some 1);
    PElement (tns_sidd200, "OriginalUpperLeftCoordinate") (XComplex "common10.RowColDoubleType") 1 (Some 1);
    PElement (tns_sidd200, "OriginalUpperRightCoordinate") (XComplex "common10.RowColDoubleType") 1 (Some 1);
    PElement (tns_sidd200, "OriginalLowerLeftCoordinate") (XComplex "common10.RowColDoubleType") 1 (Some 1);
    PElement (tns_sidd200, "OriginalLowerRightCoordinate") (XComplex "common10.RowColDoubleType") 1 (Some 1)])
  None [].

(** schemas/sidd/SIDD_schema_V2.0.0_2019_05_31.xsd:1061-1087. *)
Definition x_sidd200_ProcessingEventType : XClass := mkXClass "sidd200.ProcessingEventType"
  (PSequence [
    PElement (tns_sidd200, "ApplicationName") (XSimple SText) 1 (Some 1);
    PElement (tns_sidd200, "AppliedDateTime") (XSimple SDateTime) 1 (Some 1);
    PElement (tns_sidd200, "InterpolationMethod") (XSimple SText) 0 (Some 1);
    PElement (tns_sidd200, "Descriptor") (XComplex "common10.ParameterType") 0 None])
  None [].

(** schemas/sidd/SIDD_schema_V2.0.0_2019_05_31.xsd:1088-1104. *)
Definition x_sidd200_DownstreamReprocessingType : XClass := mkXClass "sidd200.DownstreamReprocessingType"
  (PSequence [
    PElement (tns_sidd200, "GeometricChip") (XComplex "sidd200.GeometricChipType") 0 (Some 1);
    PElement (tns_sidd200, "ProcessingEvent") (XComplex "sidd200.ProcessingEventType") 0 None])
  None [].

(** schemas/sidd/SIDD_schema_V2.0.0_2019_05_31.xsd:1119-1142. *)
Definition x_sidd200_ProcessingModuleType : XClass := mkXClass "sidd200.ProcessingModuleType"
  (PSequence [
    PElement (tns_sidd200, "ModuleName") (XComplex "common10.ParameterType") 1 (Some 1);
    POptional (PChoice [
    PElement (tns_sidd200, "ModuleParameter") (XComplex "common10.ParameterType") 1 None;
    PElement (tns_sidd200, "ProcessingModule") (XComplex "sidd200.ProcessingModuleType") 1 None])])
  None [].

(** schemas/sidd/SIDD_schema_V2.0.0_2019_05_31.xsd:1105-1118. *)
Definition x_sidd200_ProductProcessingType : XClass := mkXClass "sidd200.ProductProcessingType"
  (PSequence [
    PElement (tns_sidd200, "ProcessingModule") (XComplex "sidd200.ProcessingModuleType") 1 None])
  None [].

(** schemas/sidd/SIDD_schema_V2.0.0_2019_05_31.xsd:1235-1248. *)
Definition x_sidd200_ProcTxRcvPolarizationType : XClass := mkXClass "sidd200.ProcTxRcvPolarizationType"
  (PSequence [
    PElement (tns_sidd200, "TxPolarizationProc") (XSimple s_common10_Polarization1Type) 1 (Some 1);
    PElement (tns_sidd200, "RcvPolarizationProc") (XSimple s_common10_Polarization1Type) 1 (Some 1)])
  None [].

(** schemas/sidd/SIDD_schema_V2.0.0_2019_05_31.xsd:1143-1174. *)
Definition x_sidd200_ExploitationFeaturesProductType : XClass := mkXClass "sidd200.ExploitationFeaturesProductType"
  (PSequence [
    PElement (tns_sidd200, "Resolution") (XComplex "common10.RowColDoubleType") 1 (Some 1);
    PElement (tns_sidd200, "Ellipticity") (XSimple SNumber) 1 (Some 1);
    PElement (tns_sidd200, "Polarization") (XComplex "sidd200.ProcTxRcvPolarizationType") 1 None;
    PElement (tns_sidd200, "North") (XSimple s_common10_Neg180To180Type) 0 (Some 1);
    PElement (tns_sidd200, "Extension") (XComplex "common10.ParameterType") 0 None])
  None [].

(** schemas/sidd/SIDD_schema_V2.0.0_2019_05_31.xsd:1199-1215. *)
Definition x_sidd200_InputROIType : XClass := mkXClass "sidd200.InputROIType"
  (PSequence [
    PElement (tns_sidd200, "Size") (XComplex "common10.RowColIntType") 1 (Some 1);
    PElement (tns_sidd200, "UpperLeft") (XComplex "common10.RowColIntType") 1 (Some 1)])
  None [].

(** schemas/sidd/SIDD_schema_V2.0.0_2019_05_31.xsd:1216-1234. *)
Definition x_sidd200_TxRcvPolarizationType : XClass := mkXClass "sidd200.TxRcvPolarizationType"
  (PSequence [
    PElement (tns_sidd200, "TxPolarization") (XSimple s_common10_Polarization1Type) 1 (Some 1);
    PElement (tns_sidd200, "RcvPolarization") (XSimple s_common10_Polarization1Type) 1 (Some 1);
    PElement (tns_sidd200, "RcvPolarizationOffset") (XSimple s_common10_Neg180To180Type) 0 (Some 1)])
  None [].

(** schemas/sidd/SIDD_schema_V2.0.0_2019_05_31.xsd:1249-1295. *)
Definition x_sidd200_ExploitationFeaturesCollectionInformationType : XClass := mkXClass "sidd200.ExploitationFeaturesCollectionInformationType"
  (PSequence [
    PElement (tns_sidd200, "SensorName") (XSimple SText) 1 (Some 1);
    PElement (tns_sidd200, "RadarMode") (XComplex "common10.RadarModeType") 1 (Some 1);
    PElement (tns_sidd200, "CollectionDateTime") (XSimple SDateTime) 1 (Some 1);
    PElement (tns_sidd200, "LocalDateTime") (XSimple SDateTime) 0 (Some 1);
    PElement (tns_sidd200, "CollectionDuration") (XSimple SNumber) 1 (Some 1);
    PElement (tns_sidd200, "Resolution") (XComplex "common10.RangeAzimuthType") 0 (Some 1);
    PElement (tns_sidd200, "InputROI") (XComplex "sidd200.InputROIType") 0 (Some 1);
    PElement (tns_sidd200, "Polarization") (XComplex "sidd200.TxRcvPolarizationType") 0 None])
  None [].

(** schemas/sidd/SIDD_schema_V2.0.0_2019_05_31.xsd:1296-1337. *)
Definition x_sidd200_ExploitationFeaturesCollectionGeometryType : XClass := mkXClass "sidd200.ExploitationFeaturesCollectionGeometryType"
  (PSequence [
    PElement (tns_sidd200, "Azimuth") (XSimple SNumber) 0 (Some 1);
    PElement (tns_sidd200, "Slope") (XSimple s_common10_ZeroTo90Type) 0 (Some 1);
    PElement (tns_sidd200, "Squint") (XSimple s_common10_Neg180To180Type) 0 (Some 1);
    PElement (tns_sidd200, "Graze") (XSimple s_common10_ZeroTo90Type) 0 (Some 1);
    PElement (tns_sidd200, "Tilt") (XSimple s_common10_Neg180To180Type) 0 (Some 1);
    PElement (tns_sidd200, "DopplerConeAngle") (XSimple s_common10_ZeroToExclusive180Type) 0 (Some 1);
    PElement (tns_sidd200, "Extension") (XComplex "common10.ParameterType") 0 None])
  None [].

(** schemas/sidd/SIDD_schema_V2.0.0_2019_05_31.xsd:1338-1369. *)
Definition x_sidd200_ExploitationFeaturesCollectionPhenomenologyType : XClass := mkXClass "sidd200.ExploitationFeaturesCollectionPhenomenologyType"
  (PSequence [
    PElement (tns_sidd200, "Shadow") (XComplex "common10.AngleMagnitudeType") 0 (Some 1);
    PElement (tns_sidd200, "Layover") (XComplex "common10.AngleMagnitudeType") 0 (Some 1);
    PElement (tns_sidd200, "MultiPath") (XSimple s_common10_Neg180To180Type) 0 (Some 1);
    PElement (tns_sidd200, "GroundTrack") (XSimple s_common10_Neg180To180Type) 0 (Some 1);
    PElement (tns_sidd200, "Extension") (XComplex "common10.ParameterType") 0 None])
  None [].

(** schemas/sidd/SIDD_schema_V2.0.0_2019_05_31.xsd:1370-1388. *)
Definition x_sidd200_ExploitationFeaturesCollectionType : XClass := mkXClass "sidd200.ExploitationFeaturesCollectionType"
  (PSequence [
    PElement (tns_sidd200, "Information") (XComplex "sidd200.ExploitationFeaturesCollectionInformationType") 1 (Some 1);
    PElement (tns_sidd200, "Geometry") (XComplex "sidd200.ExploitationFeaturesCollectionGeometryType") 0 (Some 1);
    PElement (tns_sidd200, "Phenomenology") (XComplex "sidd200.ExploitationFeaturesCollectionPhenomenologyType") 0 (Some 1)])
  None [].

(** schemas/sidd/SIDD_schema_V2.0.0_2019_05_31.xsd:1184-1190. *)
Definition x_sidd200_ExploitationFeaturesType_Collection : XClass := mkXClass "sidd200.ExploitationFeaturesType/Collection"
  (PSequence [
    PElement (tns_sidd200, "Information") (XComplex "sidd200.ExploitationFeaturesCollectionInformationType") 1 (Some 1);
    PElement (tns_sidd200, "Geometry") (XComplex "sidd200.ExploitationFeaturesCollectionGeometryType") 0 (Some 1);
    PElement (tns_sidd200, "Phenomenology") (XComplex "sidd200.ExploitationFeaturesCollectionPhenomenologyType") 0 (Some 1)])
  None [
    mkXAttribute ("", "identifier") SText true].

(** schemas/sidd/SIDD_schema_V2.0.0_2019_05_31.xsd:1175-1198. *)
Definition x_sidd200_ExploitationFeaturesType : XClass := mkXClass "sidd200.ExploitationFeaturesType"
  (PSequence [
    PElement (tns_sidd200, "Collection") (XComplex "sidd200.ExploitationFeaturesType/Collection") 1 None;
    PElement (tns_sidd200, "Product") (XComplex "sidd200.ExploitationFeaturesProductType") 1 None])
  None [].

(** schemas/sidd/SIDD_schema_V2.0.0_2019_05_31.xsd:1459-1471. *)
Definition x_sidd200_LayerType : XClass := mkXClass "sidd200.LayerType"
  (PSequence [
    PElement (tns_sidd200, "Bitrate") (XSimple SNumber) 1 (Some 1)])
  None [
    mkXAttribute ("", "index") (SInt (Some 1%Z) None) true].

(** schemas/sidd/SIDD_schema_V2.0.0_2019_05_31.xsd:1441-1458. *)
Definition x_sidd200_LayerInfoType : XClass := mkXClass "sidd200.LayerInfoType"
  (PSequence [
    PElement (tns_sidd200, "Layer") (XComplex "sidd200.LayerType") 1 None])
  None [
    mkXAttribute ("", "numLayers") SInt32 true].

(** schemas/sidd/SIDD_schema_V2.0.0_2019_05_31.xsd:1415-1440. *)
Definition x_sidd200_J2KSubtype : XClass := mkXClass "sidd200.J2KSubtype"
  (PSequence [
    PElement (tns_sidd200, "NumWaveletLevels") (XSimple SInt32) 1 (Some 1);
    PElement (tns_sidd200, "NumBands") (XSimple SInt32) 1 (Some 1);
    PElement (tns_sidd200, "LayerInfo") (XComplex "sidd200.LayerInfoType") 0 (Some 1)])
  None [].

(** schemas/sidd/SIDD_schema_V2.0.0_2019_05_31.xsd:1403-1414. *)
Definition x_sidd200_J2KType : XClass := mkXClass "sidd200.J2KType"
  (PSequence [
    PElement (tns_sidd200, "Original") (XComplex "sidd200.J2KSubtype") 1 (Some 1);
    PElement (tns_sidd200, "Parsed") (XComplex "sidd200.J2KSubtype") 0 (Some 1)])
  None [].

(** schemas/sidd/SIDD_schema_V2.0.0_2019_05_31.xsd:1389-1402. *)
Definition x_sidd200_CompressionType : XClass := mkXClass "sidd200.CompressionType"
  (PSequence [
    PElement (tns_sidd200, "J2K") (XComplex "sidd200.J2KType") 1 (Some 1)])
  None [].

(** schemas/sidd/SIDD_schema_V2.0.0_2019_05_31.xsd:1503-1532. *)
Definition x_sidd200_GeographicCoordinatesType : XClass := mkXClass "sidd200.GeographicCoordinatesType"
  (PSequence [
    PElement (tns_sidd200, "LongitudeDensity") (XSimple SNumber) 1 (Some 1);
    PElement (tns_sidd200, "LatitudeDensity") (XSimple SNumber) 1 (Some 1);
    PElement (tns_sidd200, "ReferenceOrigin") (XComplex "common10.LatLonType") 1 (Some 1)])
  None [].

(** schemas/sidd/SIDD_schema_V2.0.0_2019_05_31.xsd:1533-1589. *)
Definition x_sidd200_GeopositioningType : XClass := mkXClass "sidd200.GeopositioningType"
  (PSequence [
    PElement (tns_sidd200, "CoordinateSystemType") (XSimple (SEnum false ["GCS"; "UTM"])) 1 (Some 1);
    PElement (tns_sidd200, "GeodeticDatum") (XSimple (SEnum false ["World Geodetic System 1984"])) 1 (Some 1);
    PElement (tns_sidd200, "ReferenceEllipsoid") (XSimple (SEnum false ["World Geodetic System 1984"])) 1 (Some 1);
    PElement (tns_sidd200, "VerticalDatum") (XSimple (SEnum false ["Mean Sea Level"])) 1 (Some 1);
    PElement (tns_sidd200, "SoundingDatum") (XSimple (SEnum false ["Mean Sea Level"])) 1 (Some 1);
    PElement (tns_sidd200, "FalseOrigin") (XSimple SInt32) 1 (Some 1);
    PElement (tns_sidd200, "UTMGridZoneNumber") (XSimple SInt32) 0 (Some 1)])
  None [].

(** schemas/sidd/SIDD_schema_V2.0.0_2019_05_31.xsd:1608-1613. *)
Definition x_sidd200_AccuracyType : XClass := mkXClass "sidd200.AccuracyType"
  (PSequence [
    PElement (tns_sidd200, "Horizontal") (XSimple SNumber) 1 None;
    PElement (tns_sidd200, "Vertical") (XSimple SNumber) 1 None])
  None [].

(** schemas/sidd/SIDD_schema_V2.0.0_2019_05_31.xsd:1590-1607. *)
Definition x_sidd200_PositionalAccuracyType : XClass := mkXClass "sidd200.PositionalAccuracyType"
  (PSequence [
    PElement (tns_sidd200, "NumRegions") (XSimple SInt32) 1 (Some 1);
    PElement (tns_sidd200, "AbsoluteAccuracy") (XComplex "sidd200.AccuracyType") 1 (Some 1);
    PElement (tns_sidd200, "PointToPointAccuracy") (XComplex "sidd200.AccuracyType") 1 (Some 1)])
  None [].

(** schemas/sidd/SIDD_schema_V2.0.0_2019_05_31.xsd:1472-1502. *)
Definition x_sidd200_DigitalElevationDataType : XClass := mkXClass "sidd200.DigitalElevationDataType"
  (PSequence [
    PElement (tns_sidd200, "GeographicCoordinates") (XComplex "sidd200.GeographicCoordinatesType") 1 (Some 1);
    PElement (tns_sidd200, "Geopositioning") (XComplex "sidd200.GeopositioningType") 1 (Some 1);
    PElement (tns_sidd200, "PositionalAccuracy") (XComplex "sidd200.PositionalAccuracyType") 1 (Some 1);
    PElement (tns_sidd200, "NullValue") (XSimple SInt32) 0 (Some 1)])
  None [].

(** schemas/sidd/SIDD_schema_V2.0.0_2019_05_31.xsd:1623-1637. *)
Definition x_sidd200_AnnotationObjectType : XClass := mkXClass "sidd200.AnnotationObjectType"
  (PChoice [
    PElement (tns_sidd200, "Point") (XComplex "sfa.PointType") 1 (Some 1);
    PElement (tns_sidd200, "Line") (XComplex "sfa.LineType") 1 (Some 1);
    PElement (tns_sidd200, "LinearRing") (XComplex "sfa.LinearRingType") 1 (Some 1);
    PElement (tns_sidd200, "Polygon") (XComplex "sfa.PolygonType") 1 (Some 1);
    PElement (tns_sidd200, "PolyhedralSurface") (XComplex "sfa.PolyhedralSurfaceType") 1 (Some 1);
    PElement (tns_sidd200, "MultiPolygon") (XComplex "sfa.MultiPolygonType") 1 (Some 1);
    PElement (tns_sidd200, "MultiLineString") (XComplex "sfa.MultiLineStringType") 1 (Some 1);
    PElement (tns_sidd200, "MultiPoint") (XComplex "sfa.MultiPointType") 1 (Some 1)])
  None [].

(** schemas/sidd/SIDD_schema_V2.0.0_2019_05_31.xsd:1638-1659. *)
Definition x_sidd200_AnnotationType : XClass := mkXClass "sidd200.AnnotationType"
  (PSequence [
    PElement (tns_sidd200, "Identifier") (XSimple SText) 1 (Some 1);
    PElement (tns_sidd200, "SpatialReferenceSystem") (XComplex "sfa.ReferenceSystemType") 0 (Some 1);
    PElement (tns_sidd200, "Object") (XComplex "sidd200.AnnotationObjectType") 1 None])
  None [].

(** schemas/sidd/SIDD_schema_V2.0.0_2019_05_31.xsd:1614-1622. *)
Definition x_sidd200_AnnotationsType : XClass := mkXClass "sidd200.AnnotationsType"
  (PSequence [
    PElement (tns_sidd200, "Annotation") (XComplex "sidd200.AnnotationType") 1 None])
  None [].

(** schemas/sidd/SIDD_schema_V2.0.0_2019_05_31.xsd:1664-1738. *)
Definition x_sidd200_SIDD_ : XClass := mkXClass "sidd200.SIDD/"
  (PSequence [
    PElement (tns_sidd200, "ProductCreation") (XComplex "sidd200.ProductCreationType") 1 (Some 1);
    PElement (tns_sidd200, "Display") (XComplex "sidd200.ProductDisplayType") 1 (Some 1);
    PElement (tns_sidd200, "GeoData") (XComplex "sidd200.GeoDataType") 1 (Some 1);
    PElement (tns_sidd200, "Measurement") (XComplex "sidd200.MeasurementType") 1 (Some 1);
    PElement (tns_sidd200, "ExploitationFeatures") (XComplex "sidd200.ExploitationFeaturesType") 1 (Some 1);
    PElement (tns_sidd200, "DownstreamReprocessing") (XComplex "sidd200.DownstreamReprocessingType") 0 (Some 1);
    PElement (tns_sidd200, "ErrorStatistics") (XComplex "common10.ErrorStatisticsType") 0 (Some 1);
    PElement (tns_sidd200, "Radiometric") (XComplex "common10.RadiometricType") 0 (Some 1);
    PElement (tns_sidd200, "MatchInfo") (XComplex "common10.MatchInfoType") 0 (Some 1);
    PElement (tns_sidd200, "Compression") (XComplex "sidd200.CompressionType") 0 (Some 1);
    PElement (tns_sidd200, "DigitalElevationData") (XComplex "sidd200.DigitalElevationDataType") 0 (Some 1);
    PElement (tns_sidd200, "ProductProcessing") (XComplex "sidd200.ProductProcessingType") 0 (Some 1);
    PElement (tns_sidd200, "Annotations") (XComplex "sidd200.AnnotationsType") 0 (Some 1)])
  None [].

(** schemas/sidd/SIDD_schema_V3.0.0.xsd:21-31. *)
Definition x_sidd300_Lookup3TableType : XClass := mkXClass "sidd300.Lookup3TableType"
  (PSequence [])
  (Some s_sidd300_LUT3ListType) [
    mkXAttribute ("", "size") SInt32 true].

(** schemas/sidd/SIDD_schema_V3.0.0.xsd:32-42. *)
Definition x_sidd300_LookupTableType : XClass := mkXClass "sidd300.LookupTableType"
  (PSequence [])
  (Some s_sidd300_LUTListType) [
    mkXAttribute ("", "lut") SInt32 true].

(** schemas/sidd/SIDD_schema_V3.0.0.xsd:43-54. *)
Definition x_sidd300_ColorDisplayRemapType : XClass := mkXClass "sidd300.ColorDisplayRemapType"
  (PSequence [
    PElement (tns_sidd300, "RemapLUT") (XComplex "sidd300.Lookup3TableType") 1 (Some 1)])
  None [].

(** schemas/sidd/SIDD_schema_V3.0.0.xsd:55-84. *)
Definition x_sidd300_MonochromeDisplayRemapType : XClass := mkXClass "sidd300.MonochromeDisplayRemapType"
  (PSequence [
    PElement (tns_sidd300, "RemapType") (XSimple SText) 1 (Some 1);
    PElement (tns_sidd300, "RemapParameter") (XComplex "common10.ParameterType") 0 None])
  None [].

(** schemas/sidd/SIDD_schema_V3.0.0.xsd:85-98. *)
Definition x_sidd300_RemapChoiceType : XClass := mkXClass "sidd300.RemapChoiceType"
  (PChoice [
    PElement (tns_sidd300, "ColorDisplayRemap") (XComplex "sidd300.ColorDisplayRemapType") 1 (Some 1);
    PElement (tns_sidd300, "MonochromeDisplayRemap") (XComplex "sidd300.MonochromeDisplayRemapType") 1 (Some 1)])
  None [].

(** schemas/sidd/SIDD_schema_V3.0.0.xsd:99-112. *)
Definition x_sidd300_DRAHistogramOverridesType : XClass := mkXClass "sidd300.DRAHistogramOverridesType"
  (PSequence [
    PElement (tns_sidd300, "ClipMin") (XSimple SInt32) 1 (Some 1);
    PElement (tns_sidd300, "ClipMax") (XSimple SInt32) 1 (Some 1)])
  None [].

(** schemas/sidd/SIDD_schema_V3.0.0.xsd:355-381. *)
Definition x_sidd300_PredefinedLookupType : XClass := mkXClass "sidd300.PredefinedLookupType"
  (PChoice [
    PElement (tns_sidd300, "DatabaseName") (XSimple SText) 1 (Some 1);
    PSequence [
    PElement (tns_sidd300, "RemapFamily") (XSimple SInt32) 1 (Some 1);
    PElement (tns_sidd300, "RemapMember") (XSimple SInt32) 1 (Some 1)]])
  None [].

(** schemas/sidd/SIDD_schema_V3.0.0.xsd:382-388. *)
Definition x_sidd300_LUTInfoType : XClass := mkXClass "sidd300.LUTInfoType"
  (PSequence [
    PElement (tns_sidd300, "LUTValues") (XComplex "sidd300.LookupTableType") 1 None])
  None [
    mkXAttribute ("", "numLuts") SInt32 true;
    mkXAttribute ("", "size") SInt32 true].

(** schemas/sidd/SIDD_schema_V3.0.0.xsd:389-393. *)
Definition x_sidd300_CustomLookupType : XClass := mkXClass "sidd300.CustomLookupType"
  (PSequence [
    PElement (tns_sidd300, "LUTInfo") (XComplex "sidd300.LUTInfoType") 1 (Some 1)])
  None [].

(** schemas/sidd/SIDD_schema_V3.0.0.xsd:346-354. *)
Definition x_sidd300_NewLookupTableType : XClass := mkXClass "sidd300.NewLookupTableType"
  (PSequence [
    PElement (tns_sidd300, "LUTName") (XSimple SText) 1 (Some 1);
    PChoice [
    PElement (tns_sidd300, "Predefined") (XComplex "sidd300.PredefinedLookupType") 1 (Some 1);
    PElement (tns_sidd300, "Custom") (XComplex "sidd300.CustomLookupType") 1 (Some 1)]])
  None [].

(** schemas/sidd/SIDD_schema_V3.0.0.xsd:336-342. *)
Definition x_sidd300_BandEqualizationType_BandLUT : XClass := mkXClass "sidd300.BandEqualizationType/BandLUT"
  (PSequence [
    PElement (tns_sidd300, "LUTName") (XSimple SText) 1 (Some 1);
    PChoice [
    PElement (tns_sidd300, "Predefined") (XComplex "sidd300.PredefinedLookupType") 1 (Some 1);
    PElement (tns_sidd300, "Custom") (XComplex "sidd300.CustomLookupType") 1 (Some 1)]])
  None [
    mkXAttribute ("", "k") (SInt (Some 1%Z) None) true].

(** schemas/sidd/SIDD_schema_V3.0.0.xsd:322-345. *)
Definition x_sidd300_BandEqualizationType : XClass := mkXClass "sidd300.BandEqualizationType"
  (PSequence [
    PElement (tns_sidd300, "Algorithm") (XSimple s_sidd300_EqualizationAlgorithmType) 1 (Some 1);
    PElement (tns_sidd300, "BandLUT") (XComplex "sidd300.BandEqualizationType/BandLUT") 1 None])
  None [].

(** schemas/sidd/SIDD_schema_V3.0.0.xsd:256-264. *)
Definition x_sidd300_PredefinedFilterType : XClass := mkXClass "sidd300.PredefinedFilterType"
  (PChoice [
    PElement (tns_sidd300, "DatabaseName") (XSimple s_sidd300_FilterDatabaseNameType) 1 (Some 1);
    PSequence [
    PElement (tns_sidd300, "FilterFamily") (XSimple SInt32) 1 (Some 1);
    PElement (tns_sidd300, "FilterMember") (XSimple SInt32) 1 (Some 1)]])
  None [].

(** schemas/sidd/SIDD_schema_V3.0.0.xsd:279-286. *)
Definition x_sidd300_FilterKernelCoefType_Coef : XClass := mkXClass "sidd300.FilterKernelCoefType/Coef"
  (PSequence [])
  (Some SNumber) [
    mkXAttribute ("", "row") SInt32 true;
    mkXAttribute ("", "col") SInt32 true].

(** schemas/sidd/SIDD_schema_V3.0.0.xsd:276-291. *)
Definition x_sidd300_FilterKernelCoefType : XClass := mkXClass "sidd300.FilterKernelCoefType"
  (PSequence [
    PElement (tns_sidd300, "Coef") (XComplex "sidd300.FilterKernelCoefType/Coef") 1 None])
  None [
    mkXAttribute ("", "numRows") SInt32 true;
    mkXAttribute ("", "numCols") SInt32 true].

(** schemas/sidd/SIDD_schema_V3.0.0.xsd:265-269. *)
Definition x_sidd300_KernelCustomType : XClass := mkXClass "sidd300.KernelCustomType"
  (PSequence [
    PElement (tns_sidd300, "FilterCoefficients") (XComplex "sidd300.FilterKernelCoefType") 1 (Some 1)])
  None [].

(** schemas/sidd/SIDD_schema_V3.0.0.xsd:239-244. *)
Definition x_sidd300_FilterKernelType : XClass := mkXClass "sidd300.FilterKernelType"
  (PChoice [
    PElement (tns_sidd300, "Predefined") (XComplex "sidd300.PredefinedFilterType") 1 (Some 1);
    PElement (tns_sidd300, "Custom") (XComplex "sidd300.KernelCustomType") 1 (Some 1)])
  None [].

(** schemas/sidd/SIDD_schema_V3.0.0.xsd:295-302. *)
Definition x_sidd300_FilterBankCoefType_Coef : XClass := mkXClass "sidd300.FilterBankCoefType/Coef"
  (PSequence [])
  (Some SNumber) [
    mkXAttribute ("", "phasing") SInt32 true;
    mkXAttribute ("", "point") SInt32 true].

(** schemas/sidd/SIDD_schema_V3.0.0.xsd:292-307. *)
Definition x_sidd300_FilterBankCoefType : XClass := mkXClass "sidd300.FilterBankCoefType"
  (PSequence [
    PElement (tns_sidd300, "Coef") (XComplex "sidd300.FilterBankCoefType/Coef") 1 None])
  None [
    mkXAttribute ("", "numPhasings") SInt32 true;
    mkXAttribute ("", "numPoints") SInt32 true].

(** schemas/sidd/SIDD_schema_V3.0.0.xsd:251-255. *)
Definition x_sidd300_BankCustomType : XClass := mkXClass "sidd300.BankCustomType"
  (PSequence [
    PElement (tns_sidd300, "FilterCoefficients") (XComplex "sidd300.FilterBankCoefType") 1 (Some 1)])
  None [].

(** schemas/sidd/SIDD_schema_V3.0.0.xsd:245-250. *)
Definition x_sidd300_FilterBankType : XClass := mkXClass "sidd300.FilterBankType"
  (PChoice [
    PElement (tns_sidd300, "Predefined") (XComplex "sidd300.PredefinedFilterType") 1 (Some 1);
    PElement (tns_sidd300, "Custom") (XComplex "sidd300.BankCustomType") 1 (Some 1)])
  None [].

(** schemas/sidd/SIDD_schema_V3.0.0.xsd:229-238. *)
Definition x_sidd300_FilterType : XClass := mkXClass "sidd300.FilterType"
  (PSequence [
    PElement (tns_sidd300, "FilterName") (XSimple SText) 1 (Some 1);
    PChoice [
    PElement (tns_sidd300, "FilterKernel") (XComplex "sidd300.FilterKernelType") 1 (Some 1);
    PElement (tns_sidd300, "FilterBank") (XComplex "sidd300.FilterBankType") 1 (Some 1)];
    PElement (tns_sidd300, "Operation") (XSimple s_sidd300_FilterOperationType) 1 (Some 1)])
  None [].

(** schemas/sidd/SIDD_schema_V3.0.0.xsd:170-199. *)
Definition x_sidd300_ProductGenerationOptionsType : XClass := mkXClass "sidd300.ProductGenerationOptionsType"
  (PSequence [
    PElement (tns_sidd300, "BandEqualization") (XComplex "sidd300.BandEqualizationType") 0 (Some 1);
    PElement (tns_sidd300, "ModularTransferFunctionRestoration") (XComplex "sidd300.FilterType") 0 (Some 1);
    PElement (tns_sidd300, "DataRemapping") (XComplex "sidd300.NewLookupTableType") 1 (Some 1);
    PElement (tns_sidd300, "AsymmetricPixelCorrection") (XComplex "sidd300.FilterType") 0 (Some 1)])
  None [].

(** schemas/sidd/SIDD_schema_V3.0.0.xsd:210-228. *)
Definition x_sidd300_RRDSType : XClass := mkXClass "sidd300.RRDSType"
  (PSequence [
    PElement (tns_sidd300, "DownsamplingMethod") (XSimple s_sidd300_DownsamplingMethodType) 1 (Some 1);
    PElement (tns_sidd300, "AntiAlias") (XComplex "sidd300.FilterType") 0 (Some 1);
    PElement (tns_sidd300, "Interpolation") (XComplex "sidd300.FilterType") 0 (Some 1)])
  None [].

(** schemas/sidd/SIDD_schema_V3.0.0.xsd:150-169. *)
Definition x_sidd300_NonInteractiveProcessingType : XClass := mkXClass "sidd300.NonInteractiveProcessingType"
  (PSequence [
    PElement (tns_sidd300, "ProductGenerationOptions") (XComplex "sidd300.ProductGenerationOptionsType") 1 (Some 1);
    PElement (tns_sidd300, "RRDS") (XComplex "sidd300.RRDSType") 1 (Some 1)])
  None [
    mkXAttribute ("", "band") (SInt (Some 1%Z) None) true].

(** schemas/sidd/SIDD_schema_V3.0.0.xsd:445-464. *)
Definition x_sidd300_ScalingType : XClass := mkXClass "sidd300.ScalingType"
  (PSequence [
    PElement (tns_sidd300, "AntiAlias") (XComplex "sidd300.FilterType") 1 (Some 1);
    PElement (tns_sidd300, "Interpolation") (XComplex "sidd300.FilterType") 1 (Some 1)])
  None [].

(** schemas/sidd/SIDD_schema_V3.0.0.xsd:465-478. *)
Definition x_sidd300_Orientation : XClass := mkXClass "sidd300.Orientation"
  (PSequence [
    PElement (tns_sidd300, "ShadowDirection") (XSimple s_sidd300_ShadowDirectionType) 1 (Some 1)])
  None [].

(** schemas/sidd/SIDD_schema_V3.0.0.xsd:427-444. *)
Definition x_sidd300_GeometricTransformType : XClass := mkXClass "sidd300.GeometricTransformType"
  (PSequence [
    PElement (tns_sidd300, "Scaling") (XComplex "sidd300.ScalingType") 1 (Some 1);
    PElement (tns_sidd300, "Orientation") (XComplex "sidd300.Orientation") 1 (Some 1)])
  None [].

(** schemas/sidd/SIDD_schema_V3.0.0.xsd:491-504. *)
Definition x_sidd300_SharpnessEnhancementType : XClass := mkXClass "sidd300.SharpnessEnhancementType"
  (PChoice [
    PElement (tns_sidd300, "ModularTransferFunctionCompensation") (XComplex "sidd300.FilterType") 1 (Some 1);
    PElement (tns_sidd300, "ModularTransferFunctionEnhancement") (XComplex "sidd300.FilterType") 1 (Some 1)])
  None [].

(** schemas/sidd/SIDD_schema_V3.0.0.xsd:514-536. *)
Definition x_sidd300_ColorManagementModuleType : XClass := mkXClass "sidd300.ColorManagementModuleType"
  (PSequence [
    PElement (tns_sidd300, "RenderingIntent") (XSimple s_sidd300_RenderingIntentType) 1 (Some 1);
    PElement (tns_sidd300, "SourceProfile") (XSimple SText) 1 (Some 1);
    PElement (tns_sidd300, "DisplayProfile") (XSimple SText) 0 (Some 1);
    PElement (tns_sidd300, "ICCProfileSignature") (XSimple SText) 0 (Some 1)])
  None [].

(** schemas/sidd/SIDD_schema_V3.0.0.xsd:505-513. *)
Definition x_sidd300_ColorSpaceTransformType : XClass := mkXClass "sidd300.ColorSpaceTransformType"
  (PSequence [
    PElement (tns_sidd300, "ColorManagementModule") (XComplex "sidd300.ColorManagementModuleType") 1 (Some 1)])
  None [].

(** schemas/sidd/SIDD_schema_V3.0.0.xsd:566-593. *)
Definition x_sidd300_DRAParameters : XClass := mkXClass "sidd300.DRAParameters"
  (PSequence [
    PElement (tns_sidd300, "Pmin") (XSimple SNumber) 1 (Some 1);
    PElement (tns_sidd300, "Pmax") (XSimple SNumber) 1 (Some 1);
    PElement (tns_sidd300, "EminModifier") (XSimple SNumber) 1 (Some 1);
    PElement (tns_sidd300, "EmaxModifier") (XSimple SNumber) 1 (Some 1)])
  None [].

(** schemas/sidd/SIDD_schema_V3.0.0.xsd:604-617. *)
Definition x_sidd300_DRAOverrides : XClass := mkXClass "sidd300.DRAOverrides"
  (PSequence [
    PElement (tns_sidd300, "Subtractor") (XSimple SNumber) 1 (Some 1);
    PElement (tns_sidd300, "Multiplier") (XSimple SNumber) 1 (Some 1)])
  None [].

(** schemas/sidd/SIDD_schema_V3.0.0.xsd:545-565. *)
Definition x_sidd300_DynamicRangeAdjustmentType : XClass := mkXClass "sidd300.DynamicRangeAdjustmentType"
  (PSequence [
    PElement (tns_sidd300, "AlgorithmType") (XSimple s_sidd300_RangeAdjustmentAlgorithmType) 1 (Some 1);
    PElement (tns_sidd300, "BandStatsSource") (XSimple SInt32) 1 (Some 1);
    PElement (tns_sidd300, "DRAParameters") (XComplex "sidd300.DRAParameters") 0 (Some 1);
    PElement (tns_sidd300, "DRAOverrides") (XComplex "sidd300.DRAOverrides") 0 (Some 1)])
  None [].

(** schemas/sidd/SIDD_schema_V3.0.0.xsd:399-426. *)
Definition x_sidd300_InteractiveProcessingType : XClass := mkXClass "sidd300.InteractiveProcessingType"
  (PSequence [
    PElement (tns_sidd300, "GeometricTransform") (XComplex "sidd300.GeometricTransformType") 1 (Some 1);
    PElement (tns_sidd300, "SharpnessEnhancement") (XComplex "sidd300.SharpnessEnhancementType") 1 (Some 1);
    PElement (tns_sidd300, "ColorSpaceTransform") (XComplex "sidd300.ColorSpaceTransformType") 0 (Some 1);
    PElement (tns_sidd300, "DynamicRangeAdjustment") (XComplex "sidd300.DynamicRangeAdjustmentType") 1 (Some 1);
    PElement (tns_sidd300, "TonalTransferCurve") (XComplex "sidd300.NewLookupTableType") 0 (Some 1)])
  None [
    mkXAttribute ("", "band") (SInt (Some 1%Z) None) true].

(** schemas/sidd/SIDD_schema_V3.0.0.xsd:113-149. *)
Definition x_sidd300_ProductDisplayType : XClass := mkXClass "sidd300.ProductDisplayType"
  (PSequence [
    PElement (tns_sidd300, "PixelType") (XSimple s_sidd300_PixelType) 1 (Some 1);
    PElement (tns_sidd300, "NumBands") (XSimple SInt32) 1 (Some 1);
    PElement (tns_sidd300, "DefaultBandDisplay") (XSimple SInt32) 0 (Some 1);
    PElement (tns_sidd300, "NonInteractiveProcessing") (XComplex "sidd300.NonInteractiveProcessingType") 1 None;
    PElement (tns_sidd300, "InteractiveProcessing") (XComplex "sidd300.InteractiveProcessingType") 1 None;
    PElement (tns_sidd300, "DisplayExtension") (XComplex "common10.ParameterType") 0 None])
  None [].

(** schemas/sidd/SIDD_schema_V3.0.0.xsd:618-634. *)
Definition x_sidd300_ProductPlaneType : XClass := mkXClass "sidd300.ProductPlaneType"
  (PSequence [
    PElement (tns_sidd300, "RowUnitVector") (XComplex "common10.XYZType") 1 (Some 1);
    PElement (tns_sidd300, "ColUnitVector") (XComplex "common10.XYZType") 1 (Some 1)])
  None [].

(** schemas/sidd/SIDD_schema_V3.0.0.xsd:635-643. *)
Definition x_sidd300_BaseProjectionType : XClass := mkXClass "sidd300.BaseProjectionType"
  (PSequence [
    PElement (tns_sidd300, "ReferencePoint") (XComplex "common10.ReferencePointType") 1 (Some 1)])
  None [].

(** schemas/sidd/SIDD_schema_V3.0.0.xsd:644-661. *)
Definition x_sidd300_MeasurableProjectionType : XClass := mkXClass "sidd300.MeasurableProjectionType"
  (PSequence [
    PSequence [
    PElement (tns_sidd300, "ReferencePoint") (XComplex "common10.ReferencePointType") 1 (Some 1)];
    PSequence [
    PElement (tns_sidd300, "SampleSpacing") (XComplex "common10.RowColDoubleType") 1 (Some 1);
    PElement (tns_sidd300, "TimeCOAPoly") (XComplex "common10.Poly2DType") 1 (Some 1)]])
  None [].

(** schemas/sidd/SIDD_schema_V3.0.0.xsd:662-677. *)
Definition x_sidd300_PlaneProjectionType : XClass := mkXClass "sidd300.PlaneProjectionType"
  (PSequence [
    PSequence [
    PElement (tns_sidd300, "ReferencePoint") (XComplex "common10.ReferencePointType") 1 (Some 1)];
    PSequence [
    PElement (tns_sidd300, "SampleSpacing") (XComplex "common10.RowColDoubleType") 1 (Some 1);
    PElement (tns_sidd300, "TimeCOAPoly") (XComplex "common10.Poly2DType") 1 (Some 1)];
    PSequence [
    PElement (tns_sidd300, "ProductPlane") (XComplex "sidd300.ProductPlaneType") 1 (Some 1)]])
  None [].

(** schemas/sidd/SIDD_schema_V3.0.0.xsd:678-713. *)
Definition x_sidd300_PolynomialProjectionType : XClass := mkXClass "sidd300.PolynomialProjectionType"
  (PSequence [
    PSequence [
    PElement (tns_sidd300, "ReferencePoint") (XComplex "common10.ReferencePointType") 1 (Some 1)];
    PSequence [
    PElement (tns_sidd300, "RowColToLat") (XComplex "common10.Poly2DType") 1 (Some 1);
    PElement (tns_sidd300, "RowColToLon") (XComplex "common10.Poly2DType") 1 (Some 1);
    PElement (tns_sidd300, "RowColToAlt") (XComplex "common10.Poly2DType") 0 (Some 1);
    PElement (tns_sidd300, "LatLonToRow") (XComplex "common10.Poly2DType") 1 (Some 1);
    PElement (tns_sidd300, "LatLonToCol") (XComplex "common10.Poly2DType") 1 (Some 1)]])
  None [].

(** schemas/sidd/SIDD_schema_V3.0.0.xsd:714-721. *)
Definition x_sidd300_GeographicProjectionType : XClass := mkXClass "sidd300.GeographicProjectionType"
  (PSequence [
    PSequence [
    PElement (tns_sidd300, "ReferencePoint") (XComplex "common10.ReferencePointType") 1 (Some 1)];
    PSequence [
    PElement (tns_sidd300, "SampleSpacing") (XComplex "common10.RowColDoubleType") 1 (Some 1);
    PElement (tns_sidd300, "TimeCOAPoly") (XComplex "common10.Poly2DType") 1 (Some 1)]])
  None [].

(** schemas/sidd/SIDD_schema_V3.0.0.xsd:722-742. *)
Definition x_sidd300_CylindricalProjectionType : XClass := mkXClass "sidd300.CylindricalProjectionType"
  (PSequence [
    PSequence [
    PElement (tns_sidd300, "ReferencePoint") (XComplex "common10.ReferencePointType") 1 (Some 1)];
    PSequence [
    PElement (tns_sidd300, "SampleSpacing") (XComplex "common10.RowColDoubleType") 1 (Some 1);
    PElement (tns_sidd300, "TimeCOAPoly") (XComplex "common10.Poly2DType") 1 (Some 1)];
    PSequence [
    PElement (tns_sidd300, "StripmapDirection") (XComplex "common10.XYZType") 1 (Some 1);
    PElement (tns_sidd300, "CurvatureRadius") (XSimple SNumber) 0 (Some 1)]])
  None [].

(** schemas/sidd/SIDD_schema_V3.0.0.xsd:980-998. *)
Definition x_sidd300_ValidDataType : XClass := mkXClass "sidd300.ValidDataType"
  (PSequence [
    PElement (tns_sidd300, "Vertex") (XComplex "common10.RowColVertexType") 3 None])
  None [
    mkXAttribute ("", "size") SInt32 true].

(** schemas/sidd/SIDD_schema_V3.0.0.xsd:743-815. *)
Definition x_sidd300_MeasurementType : XClass := mkXClass "sidd300.MeasurementType"
  (PSequence [
    PChoice [
    PElement (tns_sidd300, "PolynomialProjection") (XComplex "sidd300.PolynomialProjectionType") 1 (Some 1);
    PElement (tns_sidd300, "GeographicProjection") (XComplex "sidd300.GeographicProjectionType") 1 (Some 1);
    PElement (tns_sidd300, "PlaneProjection") (XComplex "sidd300.PlaneProjectionType") 1 (Some 1);
    PElement (tns_sidd300, "CylindricalProjection") (XComplex "sidd300.CylindricalProjectionType") 1 (Some 1)];
    PElement (tns_sidd300, "PixelFootprint") (XComplex "common10.RowColIntType") 1 (Some 1);
    PElement (tns_sidd300, "ARPFlag") (XSimple (SEnum false ["REALTIME"; "PREDICTED"; "POST PROCESSED"])) 0 (Some 1);
    PElement (tns_sidd300, "ARPPoly") (XComplex "common10.XYZPolyType") 1 (Some 1);
    PElement (tns_sidd300, "ValidData") (XComplex "sidd300.ValidDataType") 1 (Some 1)])
  None [].

(** schemas/sidd/SIDD_schema_V3.0.0.xsd:816-821. *)
Definition x_sidd300_AcheivedResolutionType : XClass := mkXClass "sidd300.AcheivedResolutionType"
  (PSequence [])
  None [].

(** schemas/sidd/SIDD_schema_V3.0.0.xsd:831-847. *)
Definition x_sidd300_ClassificationGuidanceType : XClass := mkXClass "sidd300.ClassificationGuidanceType"
  (PSequence [
    PElement (tns_sidd300, "Authority") (XSimple SText) 1 (Some 1);
    PElement (tns_sidd300, "Date") (XSimple SDate) 1 (Some 1)])
  None [].

(** schemas/sidd/SIDD_schema_V3.0.0.xsd:848-861. *)
Definition x_sidd300_ProductClassificationType : XClass := mkXClass "sidd300.ProductClassificationType"
  (PSequence [
    PElement (tns_sidd300, "SecurityExtension") (XComplex "common10.ParameterType") 0 None])
  None [
    mkXAttribute (tns_ism13, "DESVersion") s_ism13_ShortStringType true;
    mkXAttribute (tns_ism13, "ISMCATCESVersion") s_ism13_ShortStringType true;
    mkXAttribute (tns_ism13, "resourceElement") (SBoolean None) true;
    mkXAttribute (tns_ism13, "compliesWith") s_cvenum_ism_complieswith_CVEnumISMCompliesWith true;
    mkXAttribute (tns_ism13, "createDate") SDate true;
    mkXAttribute (tns_ism13, "exemptFrom") s_cvenum_ism_exemptfrom_CVEnumISMExemptFrom false;
    mkXAttribute (tns_ism13, "classification") s_cvenum_ism_classification_all_CVEnumISMClassificationAll true;
    mkXAttribute (tns_ism13, "ownerProducer") s_cvenum_ismcat_ownerproducer_CVEnumISMCATOwnerProducer true;
    mkXAttribute (tns_ism13, "joint") (SBoolean None) false;
    mkXAttribute (tns_ism13, "SCIcontrols") s_cvenum_ism_scicontrols_CVEnumISMSCIControls false;
    mkXAttribute (tns_ism13, "SARIdentifier") s_cvenum_ism_sar_CVEnumISMSAR false;
    mkXAttribute (tns_ism13, "atomicEnergyMarkings") s_cvenum_ism_atomicEnergyMarkings_CVEnumISMatomicEnergyMarkings false;
    mkXAttribute (tns_ism13, "disseminationControls") s_cvenum_ism_dissem_CVEnumISMDissem false;
    mkXAttribute (tns_ism13, "displayOnlyTo") s_cvenum_ismcat_relto_CVEnumISMCATRelTo false;
    mkXAttribute (tns_ism13, "FGIsourceOpen") s_cvenum_ismcat_fgiopen_CVEnumISMCATFGIOpen false;
    mkXAttribute (tns_ism13, "FGIsourceProtected") s_cvenum_ismcat_fgiprotected_CVEnumISMCATFGIProtected false;
    mkXAttribute (tns_ism13, "releasableTo") s_cvenum_ismcat_relto_CVEnumISMCATRelTo false;
    mkXAttribute (tns_ism13, "nonICmarkings") s_cvenum_ism_nonic_CVEnumISMNonIC false;
    mkXAttribute (tns_ism13, "classifiedBy") (SString false (Some 1024%nat) []) false;
    mkXAttribute (tns_ism13, "compilationReason") (SString false (Some 1024%nat) []) false;
    mkXAttribute (tns_ism13, "derivativelyClassifiedBy") (SString false (Some 1024%nat) []) false;
    mkXAttribute (tns_ism13, "classificationReason") (SString false (Some 4096%nat) []) false;
    mkXAttribute (tns_ism13, "nonUSControls") s_cvenum_ism_nonuscontrols_CVEnumISMNonUSControls false;
    mkXAttribute (tns_ism13, "derivedFrom") (SString false (Some 1024%nat) []) false;
    mkXAttribute (tns_ism13, "declassDate") SDate false;
    mkXAttribute (tns_ism13, "declassEvent") (SString false (Some 1024%nat) []) false;
    mkXAttribute (tns_ism13, "declassException") s_cvenum_ism_25x_CVEnumISM25X false;
    mkXAttribute (tns_ism13, "noticeType") s_cvenum_ism_notice_CVEnumISMNotice false;
    mkXAttribute (tns_ism13, "noticeReason") (SString false (Some 2048%nat) []) false;
    mkXAttribute (tns_ism13, "noticeDate") SDate false;
    mkXAttribute (tns_ism13, "unregisteredNoticeType") (SString false (Some 2048%nat) []) false;
    mkXAttribute (tns_ism13, "externalNotice") (SBoolean None) false].

(** schemas/sidd/SIDD_schema_V3.0.0.xsd:862-885. *)
Definition x_sidd300_ProcessorInformationType : XClass := mkXClass "sidd300.ProcessorInformationType"
  (PSequence [
    PElement (tns_sidd300, "Application") (XSimple SText) 1 (Some 1);
    PElement (tns_sidd300, "ProcessingDateTime") (XSimple SDateTime) 1 (Some 1);
    PElement (tns_sidd300, "Site") (XSimple SText) 1 (Some 1);
    PElement (tns_sidd300, "Profile") (XSimple SText) 0 (Some 1)])
  None [].

(** schemas/sidd/SIDD_schema_V3.0.0.xsd:886-922. *)
Definition x_sidd300_ProductCreationType : XClass := mkXClass "sidd300.ProductCreationType"
  (PSequence [
    PElement (tns_sidd300, "ProcessorInformation") (XComplex "sidd300.ProcessorInformationType") 1 (Some 1);
    PElement (tns_sidd300, "Classification") (XComplex "sidd300.ProductClassificationType") 1 (Some 1);
    PElement (tns_sidd300, "ProductName") (XSimple SText) 1 (Some 1);
    PElement (tns_sidd300, "ProductClass") (XSimple SText) 1 (Some 1);
    PElement (tns_sidd300, "ProductType") (XSimple SText) 0 (Some 1);
    PElement (tns_sidd300, "ProductCreationExtension") (XComplex "common10.ParameterType") 0 None])
  None [].

(** schemas/sidd/SIDD_schema_V3.0.0.xsd:951-957. *)
Definition x_sidd300_ImageCornersType_ICP : XClass := mkXClass "sidd300.ImageCornersType/ICP"
  (PSequence [
    PElement (tns_common10, "Lat") (XSimple SNumber) 1 (Some 1);
    PElement (tns_common10, "Lon") (XSimple SNumber) 1 (Some 1)])
  None [
    mkXAttribute ("", "index") s_common10_CornerStringType true].

(** schemas/sidd/SIDD_schema_V3.0.0.xsd:939-960. *)
Definition x_sidd300_ImageCornersType : XClass := mkXClass "sidd300.ImageCornersType"
  (PSequence [
    PElement (tns_sidd300, "ICP") (XComplex "sidd300.ImageCornersType/ICP") 4 (Some 4)])
  None [].

(** schemas/sidd/SIDD_schema_V3.0.0.xsd:961-979. *)
Definition x_sidd300_PolygonType : XClass := mkXClass "sidd300.PolygonType"
  (PSequence [
    PElement (tns_sidd300, "Vertex") (XComplex "common10.LatLonVertexType") 3 None])
  None [
    mkXAttribute ("", "size") SInt32 true].

(** schemas/sidd/SIDD_schema_V3.0.0.xsd:923-930. *)
Definition x_sidd300_GeoDataType : XClass := mkXClass "sidd300.GeoDataType"
  (PSequence [
    PElement (tns_sidd300, "EarthModel") (XSimple s_sidd300_EarthModelType) 1 (Some 1);
    PElement (tns_sidd300, "ImageCorners") (XComplex "sidd300.ImageCornersType") 1 (Some 1);
    PElement (tns_sidd300, "ValidData") (XComplex "sidd300.PolygonType") 1 (Some 1);
    PElement (tns_common10, "GeoInfo") (XComplex "common10.GeoInfoType") 0 None])
  None [].

(** schemas/sidd/SIDD_schema_V3.0.0.xsd:999-1035. *)
Definition x_sidd300_GeometricChipType : XClass := mkXClass "sidd300.GeometricChipType"
  (PSequence [
    PElement (tns_sidd300, "ChipSize") (XComplex "common10.RowColIntType") 1 (Some 1);
    PElement (tns_sidd300, "OriginalUpperLeftCoordinate") (XComplex "common10.RowColDoubleType") 1 (Some 1);
    PElement (tns_sidd300, "OriginalUpperRightCoordinate") (XComplex "common10.RowColDoubleType") 1 (Some 1);
    PElement (tns_sidd300, "OriginalLowerLeftCoordinate") (XComplex "common10.RowColDoubleType") 1 (Some 1);
    PElement (tns_sidd300, "OriginalLowerRightCoordinate") (XComplex "common10.RowColDoubleType") 1 (Some 1)])
  None [].

(** schemas/sidd/SIDD_schema_V3.0.0.xsd:1036-1062. *)
Definition x_sidd300_ProcessingEventType : XClass := mkXClass "sidd300.ProcessingEventType"
  (PSequence [
    PElement (tns_sidd300, "ApplicationName") (XSimple SText) 1 (Some 1);
    PElement (tns_sidd300, "AppliedDateTime") (XSimple SDateTime) 1 (Some 1);
    PElement (tns_sidd300, "InterpolationMethod") (XSimple SText) 0 (Some 1);
    PElement (tns_sidd300, "Descriptor") (XComplex "common10.ParameterType") 0 None])
  None [].

(** schemas/sidd/SIDD_schema_V3.0.0.xsd:1063-1079. *)
Definition x_sidd300_DownstreamReprocessingType : XClass := mkXClass "sidd300.DownstreamReprocessingType"
  (PSequence [
    PElement (tns_sidd300, "GeometricChip") (XComplex "sidd300.GeometricChipType") 0 (Some 1);
    PElement (tns_sidd300, "ProcessingEvent") (XComplex "sidd300.ProcessingEventType") 0 None])
  None [].

(** schemas/sidd/SIDD_schema_V3.0.0.xsd:1094-1117. *)
Definition x_sidd300_ProcessingModuleType : XClass := mkXClass "sidd300.ProcessingModuleType"
  (PSequence [
    PElement (tns_sidd300, "ModuleName") (XComplex "common10.ParameterType") 1 (Some 1);
    POptional (PChoice [
    PElement (tns_sidd300, "ModuleParameter") (XComplex "common10.ParameterType") 1 None;
    PElement (tns_sidd300, "ProcessingModule") (XComplex "sidd300.ProcessingModuleType") 1 None])])
  None [].

(** schemas/sidd/SIDD_schema_V3.0.0.xsd:1080-1093. *)
Definition x_sidd300_ProductProcessingType : XClass := mkXClass "sidd300.ProductProcessingType"
  (PSequence [
    PElement (tns_sidd300, "ProcessingModule") (XComplex "sidd300.ProcessingModuleType") 1 None])
  None [].

(** schemas/sidd/SIDD_schema_V3.0.0.xsd:1210-1223. *)
Definition x_sidd300_ProcTxRcvPolarizationType : XClass := mkXClass "sidd300.ProcTxRcvPolarizationType"
  (PSequence [
    PElement (tns_sidd300, "TxPolarizationProc") (XSimple s_common10_Polarization1Type) 1 (Some 1);
    PElement (tns_sidd300, "RcvPolarizationProc") (XSimple s_common10_Polarization1Type) 1 (Some 1)])
  None [].

(** schemas/sidd/SIDD_schema_V3.0.0.xsd:1118-1149. *)
Definition x_sidd300_ExploitationFeaturesProductType : XClass := mkXClass "sidd300.ExploitationFeaturesProductType"
  (PSequence [
    PElement (tns_sidd300, "Resolution") (XComplex "common10.RowColDoubleType") 1 (Some 1);
    PElement (tns_sidd300, "Ellipticity") (XSimple SNumber) 1 (Some 1);
    PElement (tns_sidd300, "Polarization") (XComplex "sidd300.ProcTxRcvPolarizationType") 1 None;
    PElement (tns_sidd300, "North") (XSimple s_common10_ZeroToExclusive360Type) 0 (Some 1);
    PElement (tns_sidd300, "Extension") (XComplex "common10.ParameterType") 0 None])
  None [].

(** schemas/sidd/SIDD_schema_V3.0.0.xsd:1174-1190. *)
Definition x_sidd300_InputROIType : XClass := mkXClass "sidd300.InputROIType"
  (PSequence [
    PElement (tns_sidd300, "Size") (XComplex "common10.RowColIntType") 1 (Some 1);
    PElement (tns_sidd300, "UpperLeft") (XComplex "common10.RowColIntType") 1 (Some 1)])
  None [].

(** schemas/sidd/SIDD_schema_V3.0.0.xsd:1191-1209. *)
Definition x_sidd300_TxRcvPolarizationType : XClass := mkXClass "sidd300.TxRcvPolarizationType"
  (PSequence [
    PElement (tns_sidd300, "TxPolarization") (XSimple s_common10_Polarization1Type) 1 (Some 1);
    PElement (tns_sidd300, "RcvPolarization") (XSimple s_common10_Polarization1Type) 1 (Some 1);
    PElement (tns_sidd300, "RcvPolarizationOffset") (XSimple s_common10_Neg180To180Type) 0 (Some 1)])
  None [].

(** schemas/sidd/SIDD_schema_V3.0.0.xsd:1224-1270. *)
Definition x_sidd300_ExploitationFeaturesCollectionInformationType : XClass := mkXClass "sidd300.ExploitationFeaturesCollectionInformationType"
  (PSequence [
    PElement (tns_sidd300, "SensorName") (XSimple SText) 1 (Some 1);
    PElement (tns_sidd300, "RadarMode") (XComplex "common10.RadarModeType") 1 (Some 1);
    PElement (tns_sidd300, "CollectionDateTime") (XSimple SDateTime) 1 (Some 1);
    PElement (tns_sidd300, "LocalDateTime") (XSimple SDateTime) 0 (Some 1);
    PElement (tns_sidd300, "CollectionDuration") (XSimple SNumber) 1 (Some 1);
    PElement (tns_sidd300, "Resolution") (XComplex "common10.RangeAzimuthType") 0 (Some 1);
    PElement (tns_sidd300, "InputROI") (XComplex "sidd300.InputROIType") 0 (Some 1);
    PElement (tns_sidd300, "Polarization") (XComplex "sidd300.TxRcvPolarizationType") 0 None])
  None [].

(** schemas/sidd/SIDD_schema_V3.0.0.xsd:1271-1312. *)
Definition x_sidd300_ExploitationFeaturesCollectionGeometryType : XClass := mkXClass "sidd300.ExploitationFeaturesCollectionGeometryType"
  (PSequence [
    PElement (tns_sidd300, "Azimuth") (XSimple s_common10_ZeroToExclusive360Type) 0 (Some 1);
    PElement (tns_sidd300, "Slope") (XSimple s_common10_ZeroTo90Type) 0 (Some 1);
    PElement (tns_sidd300, "Squint") (XSimple s_common10_Neg180To180Type) 0 (Some 1);
    PElement (tns_sidd300, "Graze") (XSimple s_common10_ZeroTo90Type) 0 (Some 1);
    PElement (tns_sidd300, "Tilt") (XSimple s_common10_Neg180To180Type) 0 (Some 1);
    PElement (tns_sidd300, "DopplerConeAngle") (XSimple s_common10_ZeroToExclusive180Type) 0 (Some 1);
    PElement (tns_sidd300, "Extension") (XComplex "common10.ParameterType") 0 None])
  None [].

(** schemas/sidd/SIDD_schema_V3.0.0.xsd:1313-1344. *)
Definition x_sidd300_ExploitationFeaturesCollectionPhenomenologyType : XClass := mkXClass "sidd300.ExploitationFeaturesCollectionPhenomenologyType"
  (PSequence [
    PElement (tns_sidd300, "Shadow") (XComplex "common10.AngleZeroToExclusive360MagnitudeType") 0 (Some 1);
    PElement (tns_sidd300, "Layover") (XComplex "common10.AngleZeroToExclusive360MagnitudeType") 0 (Some 1);
    PElement (tns_sidd300, "MultiPath") (XSimple s_common10_ZeroToExclusive360Type) 0 (Some 1);
    PElement (tns_sidd300, "GroundTrack") (XSimple s_common10_ZeroToExclusive360Type) 0 (Some 1);
    PElement (tns_sidd300, "Extension") (XComplex "common10.ParameterType") 0 None])
  None [].

(** schemas/sidd/SIDD_schema_V3.0.0.xsd:1345-1363. *)
Definition x_sidd300_ExploitationFeaturesCollectionType : XClass := mkXClass "sidd300.ExploitationFeaturesCollectionType"
  (PSequence [
    PElement (tns_sidd300, "Information") (XComplex "sidd300.ExploitationFeaturesCollectionInformationType") 1 (Some 1);
    PElement (tns_sidd300, "Geometry") (XComplex "sidd300.ExploitationFeaturesCollectionGeometryType") 0 (Some 1);
    PElement (tns_sidd300, "Phenomenology") (XComplex "sidd300.ExploitationFeaturesCollectionPhenomenologyType") 0 (Some 1)])
  None [].

(** schemas/sidd/SIDD_schema_V3.0.0.xsd:1159-1165. *)
Definition x_sidd300_ExploitationFeaturesType_Collection : XClass := mkXClass "sidd300.ExploitationFeaturesType/Collection"
  (PSequence [
    PElement (tns_sidd300, "Information") (XComplex "sidd300.ExploitationFeaturesCollectionInformationType") 1 (Some 1);
    PElement (tns_sidd300, "Geometry") (XComplex "sidd300.ExploitationFeaturesCollectionGeometryType") 0 (Some 1);
    PElement (tns_sidd300, "Phenomenology") (XComplex "sidd300.ExploitationFeaturesCollectionPhenomenologyType") 0 (Some 1)])
  None [
    mkXAttribute ("", "identifier") SText true].

(** schemas/sidd/SIDD_schema_V3.0.0.xsd:1150-1173. *)
Definition x_sidd300_ExploitationFeaturesType : XClass := mkXClass "sidd300.ExploitationFeaturesType"
  (PSequence [
    PElement (tns_sidd300, "Collection") (XComplex "sidd300.ExploitationFeaturesType/Collection") 1 None;
    PElement (tns_sidd300, "Product") (XComplex "sidd300.ExploitationFeaturesProductType") 1 None])
  None [].

(** schemas/sidd/SIDD_schema_V3.0.0.xsd:1434-1446. *)
Definition x_sidd300_LayerType : XClass := mkXClass "sidd300.LayerType"
  (PSequence [
    PElement (tns_sidd300, "Bitrate") (XSimple SNumber) 1 (Some 1)])
  None [
    mkXAttribute ("", "index") (SInt (Some 1%Z) None) true].

(** schemas/sidd/SIDD_schema_V3.0.0.xsd:1416-1433. *)
Definition x_sidd300_LayerInfoType : XClass := mkXClass "sidd300.LayerInfoType"
  (PSequence [
    PElement (tns_sidd300, "Layer") (XComplex "sidd300.LayerType") 1 None])
  None [
    mkXAttribute ("", "numLayers") SInt32 true].

(** schemas/sidd/SIDD_schema_V3.0.0.xsd:1390-1415. *)
Definition x_sidd300_J2KSubtype : XClass := mkXClass "sidd300.J2KSubtype"
  (PSequence [
    PElement (tns_sidd300, "NumWaveletLevels") (XSimple SInt32) 1 (Some 1);
    PElement (tns_sidd300, "NumBands") (XSimple SInt32) 1 (Some 1);
    PElement (tns_sidd300, "LayerInfo") (XComplex "sidd300.LayerInfoType") 0 (Some 1)])
  None [].

(** schemas/sidd/SIDD_schema_V3.0.0.xsd:1378-1389. *)
Definition x_sidd300_J2KType : XClass := mkXClass "sidd300.J2KType"
  (PSequence [
    PElement (tns_sidd300, "Original") (XComplex "sidd300.J2KSubtype") 1 (Some 1);
    PElement (tns_sidd300, "Parsed") (XComplex "sidd300.J2KSubtype") 0 (Some 1)])
  None [].

(** schemas/sidd/SIDD_schema_V3.0.0.xsd:1364-1377. *)
Definition x_sidd300_CompressionType : XClass := mkXClass "sidd300.CompressionType"
  (PSequence [
    PElement (tns_sidd300, "J2K") (XComplex "sidd300.J2KType") 1 (Some 1)])
  None [].

(** schemas/sidd/SIDD_schema_V3.0.0.xsd:1478-1507. *)
Definition x_sidd300_GeographicCoordinatesType : XClass := mkXClass "sidd300.GeographicCoordinatesType"
  (PSequence [
    PElement (tns_sidd300, "LongitudeDensity") (XSimple SNumber) 1 (Some 1);
    PElement (tns_sidd300, "LatitudeDensity") (XSimple SNumber) 1 (Some 1);
    PElement (tns_sidd300, "ReferenceOrigin") (XComplex "common10.LatLonType") 1 (Some 1)])
  None [].

(** schemas/sidd/SIDD_schema_V3.0.0.xsd:1508-1564. *)
Definition x_sidd300_GeopositioningType : XClass := mkXClass "sidd300.GeopositioningType"
  (PSequence [
    PElement (tns_sidd300, "CoordinateSystemType") (XSimple (SEnum false ["GCS"; "UTM"])) 1 (Some 1);
    PElement (tns_sidd300, "GeodeticDatum") (XSimple (SEnum false ["World Geodetic System 1984"])) 1 (Some 1);
    PElement (tns_sidd300, "ReferenceEllipsoid") (XSimple (SEnum false ["World Geodetic System 1984"])) 1 (Some 1);
    PElement (tns_sidd300, "VerticalDatum") (XSimple (SEnum false ["Mean Sea Level"])) 1 (Some 1);
    PElement (tns_sidd300, "SoundingDatum") (XSimple (SEnum false ["Mean Sea Level"])) 1 (Some 1);
    PElement (tns_sidd300, "FalseOrigin") (XSimple SInt32) 1 (Some 1);
    PElement (tns_sidd300, "UTMGridZoneNumber") (XSimple SInt32) 0 (Some 1)])
  None [].

(** schemas/sidd/SIDD_schema_V3.0.0.xsd:1583-1588. *)
Definition x_sidd300_AccuracyType : XClass := mkXClass "sidd300.AccuracyType"
  (PSequence [
    PElement (tns_sidd300, "Horizontal") (XSimple SNumber) 1 None;
    PElement (tns_sidd300, "Vertical") (XSimple SNumber) 1 None])
  None [].

(** schemas/sidd/SIDD_schema_V3.0.0.xsd:1565-1582. *)
Definition x_sidd300_PositionalAccuracyType : XClass := mkXClass "sidd300.PositionalAccuracyType"
  (PSequence [
    PElement (tns_sidd300, "NumRegions") (XSimple SInt32) 1 (Some 1);
    PElement (tns_sidd300, "AbsoluteAccuracy") (XComplex "sidd300.AccuracyType") 1 (Some 1);
    PElement (tns_sidd300, "PointToPointAccuracy") (XComplex "sidd300.AccuracyType") 1 (Some 1)])
  None [].

(** schemas/sidd/SIDD_schema_V3.0.0.xsd:1447-1477. *)
Definition x_sidd300_DigitalElevationDataType : XClass := mkXClass "sidd300.DigitalElevationDataType"
  (PSequence [
    PElement (tns_sidd300, "GeographicCoordinates") (XComplex "sidd300.GeographicCoordinatesType") 1 (Some 1);
    PElement (tns_sidd300, "Geopositioning") (XComplex "sidd300.GeopositioningType") 1 (Some 1);
    PElement (tns_sidd300, "PositionalAccuracy") (XComplex "sidd300.PositionalAccuracyType") 1 (Some 1);
    PElement (tns_sidd300, "NullValue") (XSimple SInt32) 0 (Some 1)])
  None [].

(** schemas/sidd/SIDD_schema_V3.0.0.xsd:1598-1612. *)
Definition x_sidd300_AnnotationObjectType : XClass := mkXClass "sidd300.AnnotationObjectType"
  (PChoice [
    PElement (tns_sidd300, "Point") (XComplex "sfa.PointType") 1 (Some 1);
    PElement (tns_sidd300, "Line") (XComplex "sfa.LineType") 1 (Some 1);
    PElement (tns_sidd300, "LinearRing") (XComplex "sfa.LinearRingType") 1 (Some 1);
    PElement (tns_sidd300, "Polygon") (XComplex "sfa.PolygonType") 1 (Some 1);
    PElement (tns_sidd300, "PolyhedralSurface") (XComplex "sfa.PolyhedralSurfaceType") 1 (Some 1);
    PElement (tns_sidd300, "MultiPolygon") (XComplex "sfa.MultiPolygonType") 1 (Some 1);
    PElement (tns_sidd300, "MultiLineString") (XComplex "sfa.MultiLineStringType") 1 (Some 1);
    PElement (tns_sidd300, "MultiPoint") (XComplex "sfa.MultiPointType") 1 (Some 1)])
  None [].

(** schemas/sidd/SIDD_schema_V3.0.0.xsd:1613-1634. *)
Definition x_sidd300_AnnotationType : XClass := mkXClass "sidd300.AnnotationType"
  (PSequence [
    PElement (tns_sidd300, "Identifier") (XSimple SText) 1 (Some 1);
    PElement (tns_sidd300, "SpatialReferenceSystem") (XComplex "sfa.ReferenceSystemType") 0 (Some 1);
    PElement (tns_sidd300, "Object") (XComplex "sidd300.AnnotationObjectType") 1 None])
  None [].

(** schemas/sidd/SIDD_schema_V3.0.0.xsd:1589-1597. *)
Definition x_sidd300_AnnotationsType : XClass := mkXClass "sidd300.AnnotationsType"
  (PSequence [
    PElement (tns_sidd300, "Annotation") (XComplex "sidd300.AnnotationType") 1 None])
  None [].

(** schemas/sidd/SIDD_schema_V3.0.0.xsd:1639-1713. *)
Definition x_sidd300_SIDD_ : XClass := mkXClass "sidd300.SIDD/"
  (PSequence [
    PElement (tns_sidd300, "ProductCreation") (XComplex "sidd300.ProductCreationType") 1 (Some 1);
    PElement (tns_sidd300, "Display") (XComplex "sidd300.ProductDisplayType") 1 (Some 1);
    PElement (tns_sidd300, "GeoData") (XComplex "sidd300.GeoDataType") 1 (Some 1);
    PElement (tns_sidd300, "Measurement") (XComplex "sidd300.MeasurementType") 1 (Some 1);
    PElement (tns_sidd300, "ExploitationFeatures") (XComplex "sidd300.ExploitationFeaturesType") 1 (Some 1);
    PElement (tns_sidd300, "DownstreamReprocessing") (XComplex "sidd300.DownstreamReprocessingType") 0 (Some 1);
    PElement (tns_sidd300, "ErrorStatistics") (XComplex "common10.ErrorStatisticsType") 0 (Some 1);
    PElement (tns_sidd300, "Radiometric") (XComplex "common10.RadiometricType") 0 (Some 1);
    PElement (tns_sidd300, "MatchInfo") (XComplex "common10.MatchInfoType") 0 (Some 1);
    PElement (tns_sidd300, "Compression") (XComplex "sidd300.CompressionType") 0 (Some 1);
    PElement (tns_sidd300, "DigitalElevationData") (XComplex "sidd300.DigitalElevationDataType") 0 (Some 1);
    PElement (tns_sidd300, "ProductProcessing") (XComplex "sidd300.ProductProcessingType") 0 (Some 1);
    PElement (tns_sidd300, "Annotations") (XComplex "sidd300.AnnotationsType") 0 (Some 1)])
  None [].

Definition sidd_types : list XClass := [
  x_sidd100_Lookup3TableType; x_sidd100_LookupTableType; x_sidd100_ColorDisplayRemapType; x_sidd100_MonochromeDisplayRemapType;
  x_sidd100_MonitorCompensationAppliedType; x_sidd100_RemapChoiceType; x_sidd100_DRAHistogramOverridesType; x_sidd100_ProductDisplayType;
  x_sidd100_ProductPlaneType; x_sidd100_BaseProjectionType; x_sidd100_MeasurableProjectionType; x_sidd100_PlaneProjectionType;
  x_sidd100_PolynomialProjectionType; x_sidd100_GeographicProjectionType; x_sidd100_CylindricalProjectionType; x_sidd100_MeasurementType;
  x_sidd100_AcheivedResolutionType; x_sidd100_ClassificationGuidanceType; x_sidd100_ProductClassificationType; x_sidd100_ProcessorInformationType;
  x_sidd100_ProductCreationType; x_sidd100_FootprintType; x_sidd100_TargetInformationType; x_sidd100_GeographicInformationType;
  x_sidd100_GeographicCoverageType; x_sidd100_GeographicAndTargetType; x_sidd100_GeometricChipType; x_sidd100_ProcessingEventType;
  x_sidd100_DownstreamReprocessingType; x_sidd100_ProcessingModuleType; x_sidd100_ProductProcessingType; x_sidd100_ExploitationFeaturesProductType;
  x_sidd100_InputROIType; x_sidd100_TxRcvPolarizationType; x_sidd100_ExploitationFeaturesCollectionInformationType;
  x_sidd100_ExploitationFeaturesCollectionGeometryType; x_sidd100_ExploitationFeaturesCollectionPhenomenologyType;
  x_sidd100_ExploitationFeaturesCollectionType; x_sidd100_ExploitationFeaturesType_Collection; x_sidd100_ExploitationFeaturesType;
  x_sidd100_AnnotationObjectType; x_sidd100_AnnotationType; x_sidd100_AnnotationsType; x_sidd100_SIDD_; x_sidd200_Lookup3TableType;
  x_sidd200_LookupTableType; x_sidd200_ColorDisplayRemapType; x_sidd200_MonochromeDisplayRemapType; x_sidd200_RemapChoiceType;
  x_sidd200_DRAHistogramOverridesType; x_sidd200_PredefinedLookupType; x_sidd200_LUTInfoType; x_sidd200_CustomLookupType;
  x_sidd200_NewLookupTableType; x_sidd200_BandEqualizationType_BandLUT; x_sidd200_BandEqualizationType; x_sidd200_PredefinedFilterType;
  x_sidd200_FilterKernelCoefType_Coef; x_sidd200_FilterKernelCoefType; x_sidd200_KernelCustomType; x_sidd200_FilterKernelType;
  x_sidd200_FilterBankCoefType_Coef; x_sidd200_FilterBankCoefType; x_sidd200_BankCustomType; x_sidd200_FilterBankType; x_sidd200_FilterType;
  x_sidd200_ProductGenerationOptionsType; x_sidd200_RRDSType; x_sidd200_NonInteractiveProcessingType; x_sidd200_ScalingType; x_sidd200_Orientation;
  x_sidd200_GeometricTransformType; x_sidd200_SharpnessEnhancementType; x_sidd200_ColorManagementModuleType; x_sidd200_ColorSpaceTransformType;
  x_sidd200_DRAParameters; x_sidd200_DRAOverrides; x_sidd200_DynamicRangeAdjustmentType; x_sidd200_InteractiveProcessingType;
  x_sidd200_ProductDisplayType; x_sidd200_ProductPlaneType; x_sidd200_BaseProjectionType; x_sidd200_MeasurableProjectionType;
  x_sidd200_PlaneProjectionType; x_sidd200_PolynomialProjectionType; x_sidd200_GeographicProjectionType; x_sidd200_CylindricalProjectionType;
  x_sidd200_ValidDataType; x_sidd200_MeasurementType; x_sidd200_AcheivedResolutionType; x_sidd200_ClassificationGuidanceType;
  x_sidd200_ProductClassificationType; x_sidd200_ProcessorInformationType; x_sidd200_ProductCreationType; x_sidd200_ImageCornersType_ICP;
  x_sidd200_ImageCornersType; x_sidd200_PolygonType; x_sidd200_GeoDataType; x_sidd200_GeometricChipType; x_sidd200_ProcessingEventType;
  x_sidd200_DownstreamReprocessingType; x_sidd200_ProcessingModuleType; x_sidd200_ProductProcessingType; x_sidd200_ProcTxRcvPolarizationType;
  x_sidd200_ExploitationFeaturesProductType; x_sidd200_InputROIType; x_sidd200_TxRcvPolarizationType;
  x_sidd200_ExploitationFeaturesCollectionInformationType; x_sidd200_ExploitationFeaturesCollectionGeometryType;
  x_sidd200_ExploitationFeaturesCollectionPhenomenologyType; x_sidd200_ExploitationFeaturesCollectionType;
  x_sidd200_ExploitationFeaturesType_Collection; x_sidd200_ExploitationFeaturesType; x_sidd200_LayerType; x_sidd200_LayerInfoType;
  x_sidd200_J2KSubtype; x_sidd200_J2KType; x_sidd200_CompressionType; x_sidd200_GeographicCoordinatesType; x_sidd200_GeopositioningType;
  x_sidd200_AccuracyType; x_sidd200_PositionalAccuracyType; x_sidd200_DigitalElevationDataType; x_sidd200_AnnotationObjectType;
  x_sidd200_AnnotationType; x_sidd200_AnnotationsType; x_sidd200_SIDD_; x_sidd300_Lookup3TableType; x_sidd300_LookupTableType;
  x_sidd300_ColorDisplayRemapType; x_sidd300_MonochromeDisplayRemapType; x_sidd300_RemapChoiceType; x_sidd300_DRAHistogramOverridesType;
  x_sidd300_PredefinedLookupType; x_sidd300_LUTInfoType; x_sidd300_CustomLookupType; x_sidd300_NewLookupTableType;
  x_sidd300_BandEqualizationType_BandLUT; x_sidd300_BandEqualizationType; x_sidd300_PredefinedFilterType; x_sidd300_FilterKernelCoefType_Coef;
  x_sidd300_FilterKernelCoefType; x_sidd300_KernelCustomType; x_sidd300_FilterKernelType; x_sidd300_FilterBankCoefType_Coef;
  x_sidd300_FilterBankCoefType; x_sidd300_BankCustomType; x_sidd300_FilterBankType; x_sidd300_FilterType; x_sidd300_ProductGenerationOptionsType;
  x_sidd300_RRDSType; x_sidd300_NonInteractiveProcessingType; x_sidd300_ScalingType; x_sidd300_Orientation; x_sidd300_GeometricTransformType;
  x_sidd300_SharpnessEnhancementType; x_sidd300_ColorManagementModuleType; x_sidd300_ColorSpaceTransformType; x_sidd300_DRAParameters;
  x_sidd300_DRAOverrides; x_sidd300_DynamicRangeAdjustmentType; x_sidd300_InteractiveProcessingType; x_sidd300_ProductDisplayType;
  x_sidd300_ProductPlaneType; x_sidd300_BaseProjectionType; x_sidd300_MeasurableProjectionType; x_sidd300_PlaneProjectionType;
  x_sidd300_PolynomialProjectionType; x_sidd300_GeographicProjectionType; x_sidd300_CylindricalProjectionType; x_sidd300_ValidDataType;
  x_sidd300_MeasurementType; x_sidd300_AcheivedResolutionType; x_sidd300_ClassificationGuidanceType; x_sidd300_ProductClassificationType;
  x_sidd300_ProcessorInformationType; x_sidd300_ProductCreationType; x_sidd300_ImageCornersType_ICP; x_sidd300_ImageCornersType;
  x_sidd300_PolygonType; x_sidd300_GeoDataType; x_sidd300_GeometricChipType; x_sidd300_ProcessingEventType; x_sidd300_DownstreamReprocessingType;
  x_sidd300_ProcessingModuleType; x_sidd300_ProductProcessingType; x_sidd300_ProcTxRcvPolarizationType; x_sidd300_ExploitationFeaturesProductType;
  x_sidd300_InputROIType; x_sidd300_TxRcvPolarizationType; x_sidd300_ExploitationFeaturesCollectionInformationType;
  x_sidd300_ExploitationFeaturesCollectionGeometryType; x_sidd300_ExploitationFeaturesCollectionPhenomenologyType;
  x_sidd300_ExploitationFeaturesCollectionType; x_sidd300_ExploitationFeaturesType_Collection; x_sidd300_ExploitationFeaturesType;
  x_sidd300_LayerType; x_sidd300_LayerInfoType; x_sidd300_J2KSubtype; x_sidd300_J2KType; x_sidd300_CompressionType;
  x_sidd300_GeographicCoordinatesType; x_sidd300_GeopositioningType; x_sidd300_AccuracyType; x_sidd300_PositionalAccuracyType;
  x_sidd300_DigitalElevationDataType; x_sidd300_AnnotationObjectType; x_sidd300_AnnotationType; x_sidd300_AnnotationsType; x_sidd300_SIDD_].
