(** The dataclasses of src/aws/osml/formats/sidd/models/sidd_v1_0_0.py, sidd_v2_0_0.py and sidd_v3_0_0.py; a table made by a script from the Python source.
    Inherited fields come first, as in a dataclass; an element field without "namespace" has the namespace of the Meta class. *)
Require Import ZArith String List.
Require Import Verif.SchemaModel Verif.SchemaEnums.
Import ListNotations.
Local Open Scope string_scope.

(** sidd_v3_0_0.py:58-77. *)
Definition c_sidd300_AccuracyType : Class := mkClass "sidd300.AccuracyType" (ns_sidd300, "AccuracyType") [
    mkField "horizontal" Element (ns_sidd300, "Horizontal") (TPrim PFloat) Many true NoDefault;
    mkField "vertical" Element (ns_sidd300, "Vertical") (TPrim PFloat) Many true NoDefault].

(** sidd_v3_0_0.py:80-84. *)
Definition c_sidd300_AcheivedResolutionType : Class := mkClass "sidd300.AcheivedResolutionType" (ns_sidd300, "AcheivedResolutionType") [].

(** sidd_v3_0_0.py:87-113. *)
Definition c_sidd300_ClassificationGuidanceType : Class := mkClass "sidd300.ClassificationGuidanceType" (ns_sidd300, "ClassificationGuidanceType") [
    mkField "authority" Element (ns_sidd300, "Authority") (TPrim PStr) One true NoDefault;
    mkField "date" Element (ns_sidd300, "Date") (TPrim PDate) One true NoDefault].

(** sidd_v3_0_0.py:116-142. *)
Definition c_sidd300_DRAHistogramOverridesType : Class := mkClass "sidd300.DRAHistogramOverridesType" (ns_sidd300, "DRAHistogramOverridesType") [
    mkField "clip_min" Element (ns_sidd300, "ClipMin") (TPrim PInt) One true NoDefault;
    mkField "clip_max" Element (ns_sidd300, "ClipMax") (TPrim PInt) One true NoDefault].

(** sidd_v3_0_0.py:145-169. *)
Definition c_sidd300_DRAOverrides : Class := mkClass "sidd300.DRAOverrides" (ns_sidd300, "DRAOverrides") [
    mkField "subtractor" Element (ns_sidd300, "Subtractor") (TPrim PFloat) One true NoDefault;
    mkField "multiplier" Element (ns_sidd300, "Multiplier") (TPrim PFloat) One true NoDefault].

(** sidd_v3_0_0.py:172-220. *)
Definition c_sidd300_DRAParameters : Class := mkClass "sidd300.DRAParameters" (ns_sidd300, "DRAParameters") [
    mkField "pmin" Element (ns_sidd300, "Pmin") (TPrim PFloat) One true NoDefault;
    mkField "pmax" Element (ns_sidd300, "Pmax") (TPrim PFloat) One true NoDefault;
    mkField "emin_modifier" Element (ns_sidd300, "EminModifier") (TPrim PFloat) One true NoDefault;
    mkField "emax_modifier" Element (ns_sidd300, "EmaxModifier") (TPrim PFloat) One true NoDefault].

(** sidd_v3_0_0.py:246-295. *)
Definition c_sidd300_FilterBankCoefType : Class := mkClass "sidd300.FilterBankCoefType" (ns_sidd300, "FilterBankCoefType") [
    mkField "coef" Element (ns_sidd300, "Coef") (TClass "sidd300.FilterBankCoefType.Coef") Many true NoDefault;
    mkField "num_phasings" Attribute ("", "numPhasings") (TPrim PInt) One true NoDefault;
    mkField "num_points" Attribute ("", "numPoints") (TPrim PInt) One true NoDefault].

(** sidd_v3_0_0.py:274-295. *)
Definition c_sidd300_FilterBankCoefType_Coef : Class := mkClass "sidd300.FilterBankCoefType.Coef" (ns_sidd300, "Coef") [
    mkField "value" Content ("", "") (TPrim PFloat) One true NoDefault;
    mkField "phasing" Attribute ("", "phasing") (TPrim PInt) One true NoDefault;
    mkField "point" Attribute ("", "point") (TPrim PInt) One true NoDefault].

(** sidd_v3_0_0.py:305-354. *)
Definition c_sidd300_FilterKernelCoefType : Class := mkClass "sidd300.FilterKernelCoefType" (ns_sidd300, "FilterKernelCoefType") [
    mkField "coef" Element (ns_sidd300, "Coef") (TClass "sidd300.FilterKernelCoefType.Coef") Many true NoDefault;
    mkField "num_rows" Attribute ("", "numRows") (TPrim PInt) One true NoDefault;
    mkField "num_cols" Attribute ("", "numCols") (TPrim PInt) One true NoDefault].

(** sidd_v3_0_0.py:333-354. *)
Definition c_sidd300_FilterKernelCoefType_Coef : Class := mkClass "sidd300.FilterKernelCoefType.Coef" (ns_sidd300, "Coef") [
    mkField "value" Content ("", "") (TPrim PFloat) One true NoDefault;
    mkField "row" Attribute ("", "row") (TPrim PInt) One true NoDefault;
    mkField "col" Attribute ("", "col") (TPrim PInt) One true NoDefault].

(** sidd_v3_0_0.py:383-407. *)
Definition c_sidd300_LayerType : Class := mkClass "sidd300.LayerType" (ns_sidd300, "LayerType") [
    mkField "bitrate" Element (ns_sidd300, "Bitrate") (TPrim PFloat) One true NoDefault;
    mkField "index" Attribute ("", "index") (TPrim PInt) One true NoDefault].

(** sidd_v3_0_0.py:410-430. *)
Definition c_sidd300_Lookup3TableType : Class := mkClass "sidd300.Lookup3TableType" (ns_sidd300, "Lookup3TableType") [
    mkField "value" Content ("", "") (TPrim PStr) Tokens false NoDefault;
    mkField "size" Attribute ("", "size") (TPrim PInt) One true NoDefault].

(** sidd_v3_0_0.py:433-452. *)
Definition c_sidd300_LookupTableType : Class := mkClass "sidd300.LookupTableType" (ns_sidd300, "LookupTableType") [
    mkField "value" Content ("", "") (TPrim PInt) Tokens false NoDefault;
    mkField "lut" Attribute ("", "lut") (TPrim PInt) One true NoDefault].

(** sidd_v3_0_0.py:475-506. *)
Definition c_sidd300_PredefinedLookupType : Class := mkClass "sidd300.PredefinedLookupType" (ns_sidd300, "PredefinedLookupType") [
    mkField "database_name" Element (ns_sidd300, "DatabaseName") (TPrim PStr) One false NoDefault;
    mkField "remap_family" Element (ns_sidd300, "RemapFamily") (TPrim PInt) One false NoDefault;
    mkField "remap_member" Element (ns_sidd300, "RemapMember") (TPrim PInt) One false NoDefault].

(** sidd_v3_0_0.py:509-553. *)
Definition c_sidd300_ProcessorInformationType : Class := mkClass "sidd300.ProcessorInformationType" (ns_sidd300, "ProcessorInformationType") [
    mkField "application" Element (ns_sidd300, "Application") (TPrim PStr) One true NoDefault;
    mkField "processing_date_time" Element (ns_sidd300, "ProcessingDateTime") (TPrim PDateTime) One true NoDefault;
    mkField "site" Element (ns_sidd300, "Site") (TPrim PStr) One true NoDefault;
    mkField "profile" Element (ns_sidd300, "Profile") (TPrim PStr) One false NoDefault].

(** sidd_v3_0_0.py:585-654. *)
Definition c_sidd300_AnnotationObjectType : Class := mkClass "sidd300.AnnotationObjectType" (ns_sidd300, "AnnotationObjectType") [
    mkField "point" Element (ns_sidd300, "Point") (TClass "sfa.PointType") One false NoDefault;
    mkField "line" Element (ns_sidd300, "Line") (TClass "sfa.LineType") One false NoDefault;
    mkField "linear_ring" Element (ns_sidd300, "LinearRing") (TClass "sfa.LinearRingType") One false NoDefault;
    mkField "polygon" Element (ns_sidd300, "Polygon") (TClass "sfa.PolygonType") One false NoDefault;
    mkField "polyhedral_surface" Element (ns_sidd300, "PolyhedralSurface") (TClass "sfa.PolyhedralSurfaceType") One false NoDefault;
    mkField "multi_polygon" Element (ns_sidd300, "MultiPolygon") (TClass "sfa.MultiPolygonType") One false NoDefault;
    mkField "multi_line_string" Element (ns_sidd300, "MultiLineString") (TClass "sfa.MultiLineStringType") One false NoDefault;
    mkField "multi_point" Element (ns_sidd300, "MultiPoint") (TClass "sfa.MultiPointType") One false NoDefault].

(** sidd_v3_0_0.py:657-667. *)
Definition c_sidd300_BankCustomType : Class := mkClass "sidd300.BankCustomType" (ns_sidd300, "BankCustomType") [
    mkField "filter_coefficients" Element (ns_sidd300, "FilterCoefficients") (TClass "sidd300.FilterBankCoefType") One true NoDefault].

(** sidd_v3_0_0.py:670-684. *)
Definition c_sidd300_BaseProjectionType : Class := mkClass "sidd300.BaseProjectionType" (ns_sidd300, "BaseProjectionType") [
    mkField "reference_point" Element (ns_sidd300, "ReferencePoint") (TClass "common10.ReferencePointType") One true NoDefault].

(** sidd_v3_0_0.py:687-703. *)
Definition c_sidd300_ColorDisplayRemapType : Class := mkClass "sidd300.ColorDisplayRemapType" (ns_sidd300, "ColorDisplayRemapType") [
    mkField "remap_lut" Element (ns_sidd300, "RemapLUT") (TClass "sidd300.Lookup3TableType") One true NoDefault].

(** sidd_v3_0_0.py:706-750. *)
Definition c_sidd300_ColorManagementModuleType : Class := mkClass "sidd300.ColorManagementModuleType" (ns_sidd300, "ColorManagementModuleType") [
    mkField "rendering_intent" Element (ns_sidd300, "RenderingIntent") (TEnum "sidd300.RenderingIntentType") One true NoDefault;
    mkField "source_profile" Element (ns_sidd300, "SourceProfile") (TPrim PStr) One true NoDefault;
    mkField "display_profile" Element (ns_sidd300, "DisplayProfile") (TPrim PStr) One false NoDefault;
    mkField "iccprofile_signature" Element (ns_sidd300, "ICCProfileSignature") (TPrim PStr) One false NoDefault].

(** sidd_v3_0_0.py:753-798. *)
Definition c_sidd300_DynamicRangeAdjustmentType : Class := mkClass "sidd300.DynamicRangeAdjustmentType" (ns_sidd300, "DynamicRangeAdjustmentType") [
    mkField "algorithm_type" Element (ns_sidd300, "AlgorithmType") (TEnum "sidd300.RangeAdjustmentAlgorithmType") One true NoDefault;
    mkField "band_stats_source" Element (ns_sidd300, "BandStatsSource") (TPrim PInt) One true NoDefault;
    mkField "draparameters" Element (ns_sidd300, "DRAParameters") (TClass "sidd300.DRAParameters") One false NoDefault;
    mkField "draoverrides" Element (ns_sidd300, "DRAOverrides") (TClass "sidd300.DRAOverrides") One false NoDefault].

(** sidd_v3_0_0.py:801-886. *)
Definition c_sidd300_ExploitationFeaturesCollectionGeometryType : Class := mkClass "sidd300.ExploitationFeaturesCollectionGeometryType" (ns_sidd300, "ExploitationFeaturesCollectionGeometryType") [
    mkField "azimuth" Element (ns_sidd300, "Azimuth") (TPrim PFloat) One false NoDefault;
    mkField "slope" Element (ns_sidd300, "Slope") (TPrim PFloat) One false NoDefault;
    mkField "squint" Element (ns_sidd300, "Squint") (TPrim PFloat) One false NoDefault;
    mkField "graze" Element (ns_sidd300, "Graze") (TPrim PFloat) One false NoDefault;
    mkField "tilt" Element (ns_sidd300, "Tilt") (TPrim PFloat) One false NoDefault;
    mkField "doppler_cone_angle" Element (ns_sidd300, "DopplerConeAngle") (TPrim PFloat) One false NoDefault;
    mkField "extension" Element (ns_sidd300, "Extension") (TClass "common10.ParameterType") Many false NoDefault].

(** sidd_v3_0_0.py:889-947. *)
Definition c_sidd300_ExploitationFeaturesCollectionPhenomenologyType : Class := mkClass "sidd300.ExploitationFeaturesCollectionPhenomenologyType" (ns_sidd300, "ExploitationFeaturesCollectionPhenomenologyType") [
    mkField "shadow" Element (ns_sidd300, "Shadow") (TClass "common10.AngleZeroToExclusive360MagnitudeType") One false NoDefault;
    mkField "layover" Element (ns_sidd300, "Layover") (TClass "common10.AngleZeroToExclusive360MagnitudeType") One false NoDefault;
    mkField "multi_path" Element (ns_sidd300, "MultiPath") (TPrim PFloat) One false NoDefault;
    mkField "ground_track" Element (ns_sidd300, "GroundTrack") (TPrim PFloat) One false NoDefault;
    mkField "extension" Element (ns_sidd300, "Extension") (TClass "common10.ParameterType") Many false NoDefault].

(** sidd_v3_0_0.py:950-989. *)
Definition c_sidd300_GeographicCoordinatesType : Class := mkClass "sidd300.GeographicCoordinatesType" (ns_sidd300, "GeographicCoordinatesType") [
    mkField "longitude_density" Element (ns_sidd300, "LongitudeDensity") (TPrim PFloat) One true NoDefault;
    mkField "latitude_density" Element (ns_sidd300, "LatitudeDensity") (TPrim PFloat) One true NoDefault;
    mkField "reference_origin" Element (ns_sidd300, "ReferenceOrigin") (TClass "common10.LatLonType") One true NoDefault].

(** sidd_v3_0_0.py:992-1053. *)
Definition c_sidd300_GeometricChipType : Class := mkClass "sidd300.GeometricChipType" (ns_sidd300, "GeometricChipType") [
    mkField "chip_size" Element (ns_sidd300, "ChipSize") (TClass "common10.RowColIntType") One true NoDefault;
    mkField "original_upper_left_coordinate" Element (ns_sidd300, "OriginalUpperLeftCoordinate") (TClass "common10.RowColDoubleType") One true NoDefault;
    mkField "original_upper_right_coordinate" Element (ns_sidd300, "OriginalUpperRightCoordinate") (TClass "common10.RowColDoubleType") One true NoDefault;
    mkField "original_lower_left_coordinate" Element (ns_sidd300, "OriginalLowerLeftCoordinate") (TClass "common10.RowColDoubleType") One true NoDefault;
    mkField "original_lower_right_coordinate" Element (ns_sidd300, "OriginalLowerRightCoordinate") (TClass "common10.RowColDoubleType") One true NoDefault].

(** sidd_v3_0_0.py:1056-1132. *)
Definition c_sidd300_GeopositioningType : Class := mkClass "sidd300.GeopositioningType" (ns_sidd300, "GeopositioningType") [
    mkField "coordinate_system_type" Element (ns_sidd300, "CoordinateSystemType") (TEnum "sidd300.GeopositioningTypeCoordinateSystemType") One true NoDefault;
    mkField "geodetic_datum" Element (ns_sidd300, "GeodeticDatum") (TEnum "sidd300.GeopositioningTypeGeodeticDatum") One true NoDefault;
    mkField "reference_ellipsoid" Element (ns_sidd300, "ReferenceEllipsoid") (TEnum "sidd300.GeopositioningTypeReferenceEllipsoid") One true NoDefault;
    mkField "vertical_datum" Element (ns_sidd300, "VerticalDatum") (TEnum "sidd300.GeopositioningTypeVerticalDatum") One true NoDefault;
    mkField "sounding_datum" Element (ns_sidd300, "SoundingDatum") (TEnum "sidd300.GeopositioningTypeSoundingDatum") One true NoDefault;
    mkField "false_origin" Element (ns_sidd300, "FalseOrigin") (TPrim PInt) One true NoDefault;
    mkField "utmgrid_zone_number" Element (ns_sidd300, "UTMGridZoneNumber") (TPrim PInt) One false NoDefault].

(** sidd_v3_0_0.py:1135-1165. *)
Definition c_sidd300_ImageCornersType : Class := mkClass "sidd300.ImageCornersType" (ns_sidd300, "ImageCornersType") [
    mkField "icp" Element (ns_sidd300, "ICP") (TClass "sidd300.ImageCornersType.ICP") Many true NoDefault].

(** sidd_v3_0_0.py:1157-1165. *)
Definition c_sidd300_ImageCornersType_ICP : Class := mkClass "sidd300.ImageCornersType.ICP" (ns_sidd300, "ICP") [
    mkField "lat" Element (ns_common10, "Lat") (TPrim PFloat) One true NoDefault;
    mkField "lon" Element (ns_common10, "Lon") (TPrim PFloat) One true NoDefault;
    mkField "index" Attribute ("", "index") (TEnum "common10.CornerStringType") One true NoDefault].

(** sidd_v3_0_0.py:1168-1194. *)
Definition c_sidd300_InputROIType : Class := mkClass "sidd300.InputROIType" (ns_sidd300, "InputROIType") [
    mkField "size" Element (ns_sidd300, "Size") (TClass "common10.RowColIntType") One true NoDefault;
    mkField "upper_left" Element (ns_sidd300, "UpperLeft") (TClass "common10.RowColIntType") One true NoDefault].

(** sidd_v3_0_0.py:1197-1207. *)
Definition c_sidd300_KernelCustomType : Class := mkClass "sidd300.KernelCustomType" (ns_sidd300, "KernelCustomType") [
    mkField "filter_coefficients" Element (ns_sidd300, "FilterCoefficients") (TClass "sidd300.FilterKernelCoefType") One true NoDefault].

(** sidd_v3_0_0.py:1210-1235. *)
Definition c_sidd300_LUTInfoType : Class := mkClass "sidd300.LUTInfoType" (ns_sidd300, "LUTInfoType") [
    mkField "lutvalues" Element (ns_sidd300, "LUTValues") (TClass "sidd300.LookupTableType") Many true NoDefault;
    mkField "num_luts" Attribute ("", "numLuts") (TPrim PInt) One true NoDefault;
    mkField "size" Attribute ("", "size") (TPrim PInt) One true NoDefault].

(** sidd_v3_0_0.py:1238-1266. *)
Definition c_sidd300_LayerInfoType : Class := mkClass "sidd300.LayerInfoType" (ns_sidd300, "LayerInfoType") [
    mkField "layer" Element (ns_sidd300, "Layer") (TClass "sidd300.LayerType") Many true NoDefault;
    mkField "num_layers" Attribute ("", "numLayers") (TPrim PInt) One true NoDefault].

(** sidd_v3_0_0.py:1269-1308. *)
Definition c_sidd300_MonochromeDisplayRemapType : Class := mkClass "sidd300.MonochromeDisplayRemapType" (ns_sidd300, "MonochromeDisplayRemapType") [
    mkField "remap_type" Element (ns_sidd300, "RemapType") (TPrim PStr) One true NoDefault;
    mkField "remap_parameter" Element (ns_sidd300, "RemapParameter") (TClass "common10.ParameterType") Many false NoDefault].

(** sidd_v3_0_0.py:1311-1327. *)
Definition c_sidd300_Orientation : Class := mkClass "sidd300.Orientation" (ns_sidd300, "Orientation") [
    mkField "shadow_direction" Element (ns_sidd300, "ShadowDirection") (TEnum "sidd300.ShadowDirectionType") One true NoDefault].

(** sidd_v3_0_0.py:1330-1359. *)
Definition c_sidd300_PolygonType : Class := mkClass "sidd300.PolygonType" (ns_sidd300, "PolygonType") [
    mkField "vertex" Element (ns_sidd300, "Vertex") (TClass "common10.LatLonVertexType") Many true NoDefault;
    mkField "size" Attribute ("", "size") (TPrim PInt) One true NoDefault].

(** sidd_v3_0_0.py:1362-1399. *)
Definition c_sidd300_PositionalAccuracyType : Class := mkClass "sidd300.PositionalAccuracyType" (ns_sidd300, "PositionalAccuracyType") [
    mkField "num_regions" Element (ns_sidd300, "NumRegions") (TPrim PInt) One true NoDefault;
    mkField "absolute_accuracy" Element (ns_sidd300, "AbsoluteAccuracy") (TClass "sidd300.AccuracyType") One true NoDefault;
    mkField "point_to_point_accuracy" Element (ns_sidd300, "PointToPointAccuracy") (TClass "sidd300.AccuracyType") One true NoDefault].

(** sidd_v3_0_0.py:1402-1427. *)
Definition c_sidd300_PredefinedFilterType : Class := mkClass "sidd300.PredefinedFilterType" (ns_sidd300, "PredefinedFilterType") [
    mkField "database_name" Element (ns_sidd300, "DatabaseName") (TEnum "sidd300.FilterDatabaseNameType") One false NoDefault;
    mkField "filter_family" Element (ns_sidd300, "FilterFamily") (TPrim PInt) One false NoDefault;
    mkField "filter_member" Element (ns_sidd300, "FilterMember") (TPrim PInt) One false NoDefault].

(** sidd_v3_0_0.py:1430-1456. *)
Definition c_sidd300_ProcTxRcvPolarizationType : Class := mkClass "sidd300.ProcTxRcvPolarizationType" (ns_sidd300, "ProcTxRcvPolarizationType") [
    mkField "tx_polarization_proc" Element (ns_sidd300, "TxPolarizationProc") (TEnumOrStr "common10.Polarization1Typevalue") One true NoDefault;
    mkField "rcv_polarization_proc" Element (ns_sidd300, "RcvPolarizationProc") (TEnumOrStr "common10.Polarization1Typevalue") One true NoDefault].

(** sidd_v3_0_0.py:1459-1502. *)
Definition c_sidd300_ProcessingEventType : Class := mkClass "sidd300.ProcessingEventType" (ns_sidd300, "ProcessingEventType") [
    mkField "application_name" Element (ns_sidd300, "ApplicationName") (TPrim PStr) One true NoDefault;
    mkField "applied_date_time" Element (ns_sidd300, "AppliedDateTime") (TPrim PDateTime) One true NoDefault;
    mkField "interpolation_method" Element (ns_sidd300, "InterpolationMethod") (TPrim PStr) One false NoDefault;
    mkField "descriptor" Element (ns_sidd300, "Descriptor") (TClass "common10.ParameterType") Many false NoDefault].

(** sidd_v3_0_0.py:1505-1538. *)
Definition c_sidd300_ProcessingModuleType : Class := mkClass "sidd300.ProcessingModuleType" (ns_sidd300, "ProcessingModuleType") [
    mkField "module_name" Element (ns_sidd300, "ModuleName") (TClass "common10.ParameterType") One true NoDefault;
    mkField "module_parameter" Element (ns_sidd300, "ModuleParameter") (TClass "common10.ParameterType") Many false NoDefault;
    mkField "processing_module" Element (ns_sidd300, "ProcessingModule") (TClass "sidd300.ProcessingModuleType") Many false NoDefault].

(** sidd_v3_0_0.py:1541-1883. *)
Definition c_sidd300_ProductClassificationType : Class := mkClass "sidd300.ProductClassificationType" (ns_sidd300, "ProductClassificationType") [
    mkField "security_extension" Element (ns_sidd300, "SecurityExtension") (TClass "common10.ParameterType") Many false NoDefault;
    mkField "desversion" Attribute (ns_ism13, "DESVersion") (TPrim PStr) One true NoDefault;
    mkField "ismcatcesversion" Attribute (ns_ism13, "ISMCATCESVersion") (TPrim PStr) One true NoDefault;
    mkField "resource_element" Attribute (ns_ism13, "resourceElement") (TPrim PBool) One true NoDefault;
    mkField "complies_with" Attribute (ns_ism13, "compliesWith") (TEnum "ism13.CVEnumISMCompliesWithValues") Tokens true NoDefault;
    mkField "create_date" Attribute (ns_ism13, "createDate") (TPrim PDate) One true NoDefault;
    mkField "exempt_from" Attribute (ns_ism13, "exemptFrom") (TEnum "ism13.CVEnumISMExemptFromValues") Tokens false NoDefault;
    mkField "classification" Attribute (ns_ism13, "classification") (TEnum "ism13.CVEnumISMClassificationAll") One true NoDefault;
    mkField "owner_producer" Attribute (ns_ism13, "ownerProducer") (TEnumOrStr "ism13.CVEnumISMCATOwnerProducerValuesvalue") Tokens true NoDefault;
    mkField "joint" Attribute (ns_ism13, "joint") (TPrim PBool) One false NoDefault;
    mkField "scicontrols" Attribute (ns_ism13, "SCIcontrols") (TEnumOrStr "ism13.CVEnumISMSCIControlsValuesvalue") Tokens false NoDefault;
    mkField "saridentifier" Attribute (ns_ism13, "SARIdentifier") (TPrim PStr) Tokens false NoDefault;
    mkField "atomic_energy_markings" Attribute (ns_ism13, "atomicEnergyMarkings") (TEnumOrStr "ism13.CVEnumISMatomicEnergyMarkingsValuesvalue") Tokens false NoDefault;
    mkField "dissemination_controls" Attribute (ns_ism13, "disseminationControls") (TEnum "ism13.CVEnumISMDissemValues") Tokens false NoDefault;
    mkField "display_only_to" Attribute (ns_ism13, "displayOnlyTo") (TEnumOrStr "ism13.CVEnumISMCATRelToValuesvalue") Tokens false NoDefault;
    mkField "fgisource_open" Attribute (ns_ism13, "FGIsourceOpen") (TEnumOrStr "ism13.CVEnumISMCATFGIOpenValuesvalue") Tokens false NoDefault;
    mkField "fgisource_protected" Attribute (ns_ism13, "FGIsourceProtected") (TEnumOrStr "ism13.CVEnumISMCATFGIProtectedValuesvalue") Tokens false NoDefault;
    mkField "releasable_to" Attribute (ns_ism13, "releasableTo") (TEnumOrStr "ism13.CVEnumISMCATRelToValuesvalue") Tokens false NoDefault;
    mkField "non_icmarkings" Attribute (ns_ism13, "nonICmarkings") (TEnumOrStr "ism13.CVEnumISMNonICValuesvalue") Tokens false NoDefault;
    mkField "classified_by" Attribute (ns_ism13, "classifiedBy") (TPrim PStr) One false NoDefault;
    mkField "compilation_reason" Attribute (ns_ism13, "compilationReason") (TPrim PStr) One false NoDefault;
    mkField "derivatively_classified_by" Attribute (ns_ism13, "derivativelyClassifiedBy") (TPrim PStr) One false NoDefault;
    mkField "classification_reason" Attribute (ns_ism13, "classificationReason") (TPrim PStr) One false NoDefault;
    mkField "non_uscontrols" Attribute (ns_ism13, "nonUSControls") (TEnum "ism13.CVEnumISMNonUSControlsValues") Tokens false NoDefault;
    mkField "derived_from" Attribute (ns_ism13, "derivedFrom") (TPrim PStr) One false NoDefault;
    mkField "declass_date" Attribute (ns_ism13, "declassDate") (TPrim PDate) One false NoDefault;
    mkField "declass_event" Attribute (ns_ism13, "declassEvent") (TPrim PStr) One false NoDefault;
    mkField "declass_exception" Attribute (ns_ism13, "declassException") (TEnum "ism13.CVEnumISM25X") One false NoDefault;
    mkField "notice_type" Attribute (ns_ism13, "noticeType") (TEnum "ism13.CVEnumISMNoticeValues") Tokens false NoDefault;
    mkField "notice_reason" Attribute (ns_ism13, "noticeReason") (TPrim PStr) One false NoDefault;
    mkField "notice_date" Attribute (ns_ism13, "noticeDate") (TPrim PDate) One false NoDefault;
    mkField "unregistered_notice_type" Attribute (ns_ism13, "unregisteredNoticeType") (TPrim PStr) One false NoDefault;
    mkField "external_notice" Attribute (ns_ism13, "externalNotice") (TPrim PBool) One false NoDefault].

(** sidd_v3_0_0.py:1886-1914. *)
Definition c_sidd300_ProductPlaneType : Class := mkClass "sidd300.ProductPlaneType" (ns_sidd300, "ProductPlaneType") [
    mkField "row_unit_vector" Element (ns_sidd300, "RowUnitVector") (TClass "common10.XYZType") One true NoDefault;
    mkField "col_unit_vector" Element (ns_sidd300, "ColUnitVector") (TClass "common10.XYZType") One true NoDefault].

(** sidd_v3_0_0.py:1917-1954. *)
Definition c_sidd300_TxRcvPolarizationType : Class := mkClass "sidd300.TxRcvPolarizationType" (ns_sidd300, "TxRcvPolarizationType") [
    mkField "tx_polarization" Element (ns_sidd300, "TxPolarization") (TEnumOrStr "common10.Polarization1Typevalue") One true NoDefault;
    mkField "rcv_polarization" Element (ns_sidd300, "RcvPolarization") (TEnumOrStr "common10.Polarization1Typevalue") One true NoDefault;
    mkField "rcv_polarization_offset" Element (ns_sidd300, "RcvPolarizationOffset") (TPrim PFloat) One false NoDefault].

(** sidd_v3_0_0.py:1957-1986. *)
Definition c_sidd300_ValidDataType : Class := mkClass "sidd300.ValidDataType" (ns_sidd300, "ValidDataType") [
    mkField "vertex" Element (ns_sidd300, "Vertex") (TClass "common10.RowColVertexType") Many true NoDefault;
    mkField "size" Attribute ("", "size") (TPrim PInt) One true NoDefault].

(** sidd_v3_0_0.py:1989-2027. *)
Definition c_sidd300_AnnotationType : Class := mkClass "sidd300.AnnotationType" (ns_sidd300, "AnnotationType") [
    mkField "identifier" Element (ns_sidd300, "Identifier") (TPrim PStr) One true NoDefault;
    mkField "spatial_reference_system" Element (ns_sidd300, "SpatialReferenceSystem") (TClass "sfa.ReferenceSystemType") One false NoDefault;
    mkField "object_value" Element (ns_sidd300, "Object") (TClass "sidd300.AnnotationObjectType") Many true NoDefault].

(** sidd_v3_0_0.py:2030-2044. *)
Definition c_sidd300_ColorSpaceTransformType : Class := mkClass "sidd300.ColorSpaceTransformType" (ns_sidd300, "ColorSpaceTransformType") [
    mkField "color_management_module" Element (ns_sidd300, "ColorManagementModule") (TClass "sidd300.ColorManagementModuleType") One true NoDefault].

(** sidd_v3_0_0.py:2047-2057. *)
Definition c_sidd300_CustomLookupType : Class := mkClass "sidd300.CustomLookupType" (ns_sidd300, "CustomLookupType") [
    mkField "lutinfo" Element (ns_sidd300, "LUTInfo") (TClass "sidd300.LUTInfoType") One true NoDefault].

(** sidd_v3_0_0.py:2060-2107. *)
Definition c_sidd300_DigitalElevationDataType : Class := mkClass "sidd300.DigitalElevationDataType" (ns_sidd300, "DigitalElevationDataType") [
    mkField "geographic_coordinates" Element (ns_sidd300, "GeographicCoordinates") (TClass "sidd300.GeographicCoordinatesType") One true NoDefault;
    mkField "geopositioning" Element (ns_sidd300, "Geopositioning") (TClass "sidd300.GeopositioningType") One true NoDefault;
    mkField "positional_accuracy" Element (ns_sidd300, "PositionalAccuracy") (TClass "sidd300.PositionalAccuracyType") One true NoDefault;
    mkField "null_value" Element (ns_sidd300, "NullValue") (TPrim PInt) One false NoDefault].

(** sidd_v3_0_0.py:2110-2132. *)
Definition c_sidd300_DownstreamReprocessingType : Class := mkClass "sidd300.DownstreamReprocessingType" (ns_sidd300, "DownstreamReprocessingType") [
    mkField "geometric_chip" Element (ns_sidd300, "GeometricChip") (TClass "sidd300.GeometricChipType") One false NoDefault;
    mkField "processing_event" Element (ns_sidd300, "ProcessingEvent") (TClass "sidd300.ProcessingEventType") Many false NoDefault].

(** sidd_v3_0_0.py:2135-2219. *)
Definition c_sidd300_ExploitationFeaturesCollectionInformationType : Class := mkClass "sidd300.ExploitationFeaturesCollectionInformationType" (ns_sidd300, "ExploitationFeaturesCollectionInformationType") [
    mkField "sensor_name" Element (ns_sidd300, "SensorName") (TPrim PStr) One true NoDefault;
    mkField "radar_mode" Element (ns_sidd300, "RadarMode") (TClass "common10.RadarModeType") One true NoDefault;
    mkField "collection_date_time" Element (ns_sidd300, "CollectionDateTime") (TPrim PDateTime) One true NoDefault;
    mkField "local_date_time" Element (ns_sidd300, "LocalDateTime") (TPrim PDateTime) One false NoDefault;
    mkField "collection_duration" Element (ns_sidd300, "CollectionDuration") (TPrim PFloat) One true NoDefault;
    mkField "resolution" Element (ns_sidd300, "Resolution") (TClass "common10.RangeAzimuthType") One false NoDefault;
    mkField "input_roi" Element (ns_sidd300, "InputROI") (TClass "sidd300.InputROIType") One false NoDefault;
    mkField "polarization" Element (ns_sidd300, "Polarization") (TClass "sidd300.TxRcvPolarizationType") Many false NoDefault].

(** sidd_v3_0_0.py:2222-2279. *)
Definition c_sidd300_ExploitationFeaturesProductType : Class := mkClass "sidd300.ExploitationFeaturesProductType" (ns_sidd300, "ExploitationFeaturesProductType") [
    mkField "resolution" Element (ns_sidd300, "Resolution") (TClass "common10.RowColDoubleType") One true NoDefault;
    mkField "ellipticity" Element (ns_sidd300, "Ellipticity") (TPrim PFloat) One true NoDefault;
    mkField "polarization" Element (ns_sidd300, "Polarization") (TClass "sidd300.ProcTxRcvPolarizationType") Many true NoDefault;
    mkField "north" Element (ns_sidd300, "North") (TPrim PFloat) One false NoDefault;
    mkField "extension" Element (ns_sidd300, "Extension") (TClass "common10.ParameterType") Many false NoDefault].

(** sidd_v3_0_0.py:2282-2299. *)
Definition c_sidd300_FilterBankType : Class := mkClass "sidd300.FilterBankType" (ns_sidd300, "FilterBankType") [
    mkField "predefined" Element (ns_sidd300, "Predefined") (TClass "sidd300.PredefinedFilterType") One false NoDefault;
    mkField "custom" Element (ns_sidd300, "Custom") (TClass "sidd300.BankCustomType") One false NoDefault].

(** sidd_v3_0_0.py:2302-2319. *)
Definition c_sidd300_FilterKernelType : Class := mkClass "sidd300.FilterKernelType" (ns_sidd300, "FilterKernelType") [
    mkField "predefined" Element (ns_sidd300, "Predefined") (TClass "sidd300.PredefinedFilterType") One false NoDefault;
    mkField "custom" Element (ns_sidd300, "Custom") (TClass "sidd300.KernelCustomType") One false NoDefault].

(** sidd_v3_0_0.py:2322-2358. *)
Definition c_sidd300_GeoDataType : Class := mkClass "sidd300.GeoDataType" (ns_sidd300, "GeoDataType") [
    mkField "earth_model" Element (ns_sidd300, "EarthModel") (TEnum "sidd300.EarthModelType") One true NoDefault;
    mkField "image_corners" Element (ns_sidd300, "ImageCorners") (TClass "sidd300.ImageCornersType") One true NoDefault;
    mkField "valid_data" Element (ns_sidd300, "ValidData") (TClass "sidd300.PolygonType") One true NoDefault;
    mkField "geo_info" Element (ns_common10, "GeoInfo") (TClass "common10.GeoInfo") Many false NoDefault].

(** sidd_v3_0_0.py:2361-2396. *)
Definition c_sidd300_J2KSubtype : Class := mkClass "sidd300.J2KSubtype" (ns_sidd300, "J2KSubtype") [
    mkField "num_wavelet_levels" Element (ns_sidd300, "NumWaveletLevels") (TPrim PInt) One true NoDefault;
    mkField "num_bands" Element (ns_sidd300, "NumBands") (TPrim PInt) One true NoDefault;
    mkField "layer_info" Element (ns_sidd300, "LayerInfo") (TClass "sidd300.LayerInfoType") One false NoDefault].

(** sidd_v3_0_0.py:2399-2424. *)
Definition c_sidd300_MeasurableProjectionType : Class := mkClass "sidd300.MeasurableProjectionType" (ns_sidd300, "MeasurableProjectionType") [
    mkField "reference_point" Element (ns_sidd300, "ReferencePoint") (TClass "common10.ReferencePointType") One true NoDefault;
    mkField "sample_spacing" Element (ns_sidd300, "SampleSpacing") (TClass "common10.RowColDoubleType") One true NoDefault;
    mkField "time_coapoly" Element (ns_sidd300, "TimeCOAPoly") (TClass "common10.Poly2DType") One true NoDefault].

(** sidd_v3_0_0.py:2427-2485. *)
Definition c_sidd300_PolynomialProjectionType : Class := mkClass "sidd300.PolynomialProjectionType" (ns_sidd300, "PolynomialProjectionType") [
    mkField "reference_point" Element (ns_sidd300, "ReferencePoint") (TClass "common10.ReferencePointType") One true NoDefault;
    mkField "row_col_to_lat" Element (ns_sidd300, "RowColToLat") (TClass "common10.Poly2DType") One true NoDefault;
    mkField "row_col_to_lon" Element (ns_sidd300, "RowColToLon") (TClass "common10.Poly2DType") One true NoDefault;
    mkField "row_col_to_alt" Element (ns_sidd300, "RowColToAlt") (TClass "common10.Poly2DType") One false NoDefault;
    mkField "lat_lon_to_row" Element (ns_sidd300, "LatLonToRow") (TClass "common10.Poly2DType") One true NoDefault;
    mkField "lat_lon_to_col" Element (ns_sidd300, "LatLonToCol") (TClass "common10.Poly2DType") One true NoDefault].

(** sidd_v3_0_0.py:2488-2555. *)
Definition c_sidd300_ProductCreationType : Class := mkClass "sidd300.ProductCreationType" (ns_sidd300, "ProductCreationType") [
    mkField "processor_information" Element (ns_sidd300, "ProcessorInformation") (TClass "sidd300.ProcessorInformationType") One true NoDefault;
    mkField "classification" Element (ns_sidd300, "Classification") (TClass "sidd300.ProductClassificationType") One true NoDefault;
    mkField "product_name" Element (ns_sidd300, "ProductName") (TPrim PStr) One true NoDefault;
    mkField "product_class" Element (ns_sidd300, "ProductClass") (TPrim PStr) One true NoDefault;
    mkField "product_type" Element (ns_sidd300, "ProductType") (TPrim PStr) One false NoDefault;
    mkField "product_creation_extension" Element (ns_sidd300, "ProductCreationExtension") (TClass "common10.ParameterType") Many false NoDefault].

(** sidd_v3_0_0.py:2558-2576. *)
Definition c_sidd300_ProductProcessingType : Class := mkClass "sidd300.ProductProcessingType" (ns_sidd300, "ProductProcessingType") [
    mkField "processing_module" Element (ns_sidd300, "ProcessingModule") (TClass "sidd300.ProcessingModuleType") Many true NoDefault].

(** sidd_v3_0_0.py:2579-2601. *)
Definition c_sidd300_RemapChoiceType : Class := mkClass "sidd300.RemapChoiceType" (ns_sidd300, "RemapChoiceType") [
    mkField "color_display_remap" Element (ns_sidd300, "ColorDisplayRemap") (TClass "sidd300.ColorDisplayRemapType") One false NoDefault;
    mkField "monochrome_display_remap" Element (ns_sidd300, "MonochromeDisplayRemap") (TClass "sidd300.MonochromeDisplayRemapType") One false NoDefault].

(** sidd_v3_0_0.py:2604-2618. *)
Definition c_sidd300_AnnotationsType : Class := mkClass "sidd300.AnnotationsType" (ns_sidd300, "AnnotationsType") [
    mkField "annotation" Element (ns_sidd300, "Annotation") (TClass "sidd300.AnnotationType") Many true NoDefault].

(** sidd_v3_0_0.py:2621-2647. *)
Definition c_sidd300_CylindricalProjectionType : Class := mkClass "sidd300.CylindricalProjectionType" (ns_sidd300, "CylindricalProjectionType") [
    mkField "reference_point" Element (ns_sidd300, "ReferencePoint") (TClass "common10.ReferencePointType") One true NoDefault;
    mkField "sample_spacing" Element (ns_sidd300, "SampleSpacing") (TClass "common10.RowColDoubleType") One true NoDefault;
    mkField "time_coapoly" Element (ns_sidd300, "TimeCOAPoly") (TClass "common10.Poly2DType") One true NoDefault;
    mkField "stripmap_direction" Element (ns_sidd300, "StripmapDirection") (TClass "common10.XYZType") One true NoDefault;
    mkField "curvature_radius" Element (ns_sidd300, "CurvatureRadius") (TPrim PFloat) One false NoDefault].

(** sidd_v3_0_0.py:2650-2682. *)
Definition c_sidd300_ExploitationFeaturesCollectionType : Class := mkClass "sidd300.ExploitationFeaturesCollectionType" (ns_sidd300, "ExploitationFeaturesCollectionType") [
    mkField "information" Element (ns_sidd300, "Information") (TClass "sidd300.ExploitationFeaturesCollectionInformationType") One true NoDefault;
    mkField "geometry" Element (ns_sidd300, "Geometry") (TClass "sidd300.ExploitationFeaturesCollectionGeometryType") One false NoDefault;
    mkField "phenomenology" Element (ns_sidd300, "Phenomenology") (TClass "sidd300.ExploitationFeaturesCollectionPhenomenologyType") One false NoDefault].

(** sidd_v3_0_0.py:2685-2720. *)
Definition c_sidd300_FilterType : Class := mkClass "sidd300.FilterType" (ns_sidd300, "FilterType") [
    mkField "filter_name" Element (ns_sidd300, "FilterName") (TPrim PStr) One true NoDefault;
    mkField "filter_kernel" Element (ns_sidd300, "FilterKernel") (TClass "sidd300.FilterKernelType") One false NoDefault;
    mkField "filter_bank" Element (ns_sidd300, "FilterBank") (TClass "sidd300.FilterBankType") One false NoDefault;
    mkField "operation" Element (ns_sidd300, "Operation") (TEnum "sidd300.FilterOperationType") One true NoDefault].

(** sidd_v3_0_0.py:2723-2727. *)
Definition c_sidd300_GeographicProjectionType : Class := mkClass "sidd300.GeographicProjectionType" (ns_sidd300, "GeographicProjectionType") [
    mkField "reference_point" Element (ns_sidd300, "ReferencePoint") (TClass "common10.ReferencePointType") One true NoDefault;
    mkField "sample_spacing" Element (ns_sidd300, "SampleSpacing") (TClass "common10.RowColDoubleType") One true NoDefault;
    mkField "time_coapoly" Element (ns_sidd300, "TimeCOAPoly") (TClass "common10.Poly2DType") One true NoDefault].

(** sidd_v3_0_0.py:2730-2753. *)
Definition c_sidd300_J2KType : Class := mkClass "sidd300.J2KType" (ns_sidd300, "J2KType") [
    mkField "original" Element (ns_sidd300, "Original") (TClass "sidd300.J2KSubtype") One true NoDefault;
    mkField "parsed" Element (ns_sidd300, "Parsed") (TClass "sidd300.J2KSubtype") One false NoDefault].

(** sidd_v3_0_0.py:2756-2782. *)
Definition c_sidd300_NewLookupTableType : Class := mkClass "sidd300.NewLookupTableType" (ns_sidd300, "NewLookupTableType") [
    mkField "lutname" Element (ns_sidd300, "LUTName") (TPrim PStr) One true NoDefault;
    mkField "predefined" Element (ns_sidd300, "Predefined") (TClass "sidd300.PredefinedLookupType") One false NoDefault;
    mkField "custom" Element (ns_sidd300, "Custom") (TClass "sidd300.CustomLookupType") One false NoDefault].

(** sidd_v3_0_0.py:2785-2801. *)
Definition c_sidd300_PlaneProjectionType : Class := mkClass "sidd300.PlaneProjectionType" (ns_sidd300, "PlaneProjectionType") [
    mkField "reference_point" Element (ns_sidd300, "ReferencePoint") (TClass "common10.ReferencePointType") One true NoDefault;
    mkField "sample_spacing" Element (ns_sidd300, "SampleSpacing") (TClass "common10.RowColDoubleType") One true NoDefault;
    mkField "time_coapoly" Element (ns_sidd300, "TimeCOAPoly") (TClass "common10.Poly2DType") One true NoDefault;
    mkField "product_plane" Element (ns_sidd300, "ProductPlane") (TClass "sidd300.ProductPlaneType") One true NoDefault].

(** sidd_v3_0_0.py:2804-2842. *)
Definition c_sidd300_BandEqualizationType : Class := mkClass "sidd300.BandEqualizationType" (ns_sidd300, "BandEqualizationType") [
    mkField "algorithm" Element (ns_sidd300, "Algorithm") (TEnum "sidd300.EqualizationAlgorithmType") One true NoDefault;
    mkField "band_lut" Element (ns_sidd300, "BandLUT") (TClass "sidd300.BandEqualizationType.BandLUT") Many true NoDefault].

(** sidd_v3_0_0.py:2834-2842. *)
Definition c_sidd300_BandEqualizationType_BandLUT : Class := mkClass "sidd300.BandEqualizationType.BandLUT" (ns_sidd300, "BandLUT") [
    mkField "lutname" Element (ns_sidd300, "LUTName") (TPrim PStr) One true NoDefault;
    mkField "predefined" Element (ns_sidd300, "Predefined") (TClass "sidd300.PredefinedLookupType") One false NoDefault;
    mkField "custom" Element (ns_sidd300, "Custom") (TClass "sidd300.CustomLookupType") One false NoDefault;
    mkField "k" Attribute ("", "k") (TPrim PInt) One true NoDefault].

(** sidd_v3_0_0.py:2845-2862. *)
Definition c_sidd300_CompressionType : Class := mkClass "sidd300.CompressionType" (ns_sidd300, "CompressionType") [
    mkField "j2_k" Element (ns_sidd300, "J2K") (TClass "sidd300.J2KType") One true NoDefault].

(** sidd_v3_0_0.py:2865-2901. *)
Definition c_sidd300_ExploitationFeaturesType : Class := mkClass "sidd300.ExploitationFeaturesType" (ns_sidd300, "ExploitationFeaturesType") [
    mkField "collection" Element (ns_sidd300, "Collection") (TClass "sidd300.ExploitationFeaturesType.Collection") Many true NoDefault;
    mkField "product" Element (ns_sidd300, "Product") (TClass "sidd300.ExploitationFeaturesProductType") Many true NoDefault].

(** sidd_v3_0_0.py:2893-2901. *)
Definition c_sidd300_ExploitationFeaturesType_Collection : Class := mkClass "sidd300.ExploitationFeaturesType.Collection" (ns_sidd300, "Collection") [
    mkField "information" Element (ns_sidd300, "Information") (TClass "sidd300.ExploitationFeaturesCollectionInformationType") One true NoDefault;
    mkField "geometry" Element (ns_sidd300, "Geometry") (TClass "sidd300.ExploitationFeaturesCollectionGeometryType") One false NoDefault;
    mkField "phenomenology" Element (ns_sidd300, "Phenomenology") (TClass "sidd300.ExploitationFeaturesCollectionPhenomenologyType") One false NoDefault;
    mkField "identifier" Attribute ("", "identifier") (TPrim PStr) One true NoDefault].

(** sidd_v3_0_0.py:2904-2992. *)
Definition c_sidd300_MeasurementType : Class := mkClass "sidd300.MeasurementType" (ns_sidd300, "MeasurementType") [
    mkField "polynomial_projection" Element (ns_sidd300, "PolynomialProjection") (TClass "sidd300.PolynomialProjectionType") One false NoDefault;
    mkField "geographic_projection" Element (ns_sidd300, "GeographicProjection") (TClass "sidd300.GeographicProjectionType") One false NoDefault;
    mkField "plane_projection" Element (ns_sidd300, "PlaneProjection") (TClass "sidd300.PlaneProjectionType") One false NoDefault;
    mkField "cylindrical_projection" Element (ns_sidd300, "CylindricalProjection") (TClass "sidd300.CylindricalProjectionType") One false NoDefault;
    mkField "pixel_footprint" Element (ns_sidd300, "PixelFootprint") (TClass "common10.RowColIntType") One true NoDefault;
    mkField "arpflag" Element (ns_sidd300, "ARPFlag") (TEnum "sidd300.MeasurementTypeARPFlag") One false NoDefault;
    mkField "arppoly" Element (ns_sidd300, "ARPPoly") (TClass "common10.XYZPolyType") One true NoDefault;
    mkField "valid_data" Element (ns_sidd300, "ValidData") (TClass "sidd300.ValidDataType") One true NoDefault].

(** sidd_v3_0_0.py:2995-3027. *)
Definition c_sidd300_RRDSType : Class := mkClass "sidd300.RRDSType" (ns_sidd300, "RRDSType") [
    mkField "downsampling_method" Element (ns_sidd300, "DownsamplingMethod") (TEnum "sidd300.DownsamplingMethodType") One true NoDefault;
    mkField "anti_alias" Element (ns_sidd300, "AntiAlias") (TClass "sidd300.FilterType") One false NoDefault;
    mkField "interpolation" Element (ns_sidd300, "Interpolation") (TClass "sidd300.FilterType") One false NoDefault].

(** sidd_v3_0_0.py:3030-3056. *)
Definition c_sidd300_ScalingType : Class := mkClass "sidd300.ScalingType" (ns_sidd300, "ScalingType") [
    mkField "anti_alias" Element (ns_sidd300, "AntiAlias") (TClass "sidd300.FilterType") One true NoDefault;
    mkField "interpolation" Element (ns_sidd300, "Interpolation") (TClass "sidd300.FilterType") One true NoDefault].

(** sidd_v3_0_0.py:3059-3083. *)
Definition c_sidd300_SharpnessEnhancementType : Class := mkClass "sidd300.SharpnessEnhancementType" (ns_sidd300, "SharpnessEnhancementType") [
    mkField "modular_transfer_function_compensation" Element (ns_sidd300, "ModularTransferFunctionCompensation") (TClass "sidd300.FilterType") One false NoDefault;
    mkField "modular_transfer_function_enhancement" Element (ns_sidd300, "ModularTransferFunctionEnhancement") (TClass "sidd300.FilterType") One false NoDefault].

(** sidd_v3_0_0.py:3086-3110. *)
Definition c_sidd300_GeometricTransformType : Class := mkClass "sidd300.GeometricTransformType" (ns_sidd300, "GeometricTransformType") [
    mkField "scaling" Element (ns_sidd300, "Scaling") (TClass "sidd300.ScalingType") One true NoDefault;
    mkField "orientation" Element (ns_sidd300, "Orientation") (TClass "sidd300.Orientation") One true NoDefault].

(** sidd_v3_0_0.py:3113-3159. *)
Definition c_sidd300_ProductGenerationOptionsType : Class := mkClass "sidd300.ProductGenerationOptionsType" (ns_sidd300, "ProductGenerationOptionsType") [
    mkField "band_equalization" Element (ns_sidd300, "BandEqualization") (TClass "sidd300.BandEqualizationType") One false NoDefault;
    mkField "modular_transfer_function_restoration" Element (ns_sidd300, "ModularTransferFunctionRestoration") (TClass "sidd300.FilterType") One false NoDefault;
    mkField "data_remapping" Element (ns_sidd300, "DataRemapping") (TClass "sidd300.NewLookupTableType") One true NoDefault;
    mkField "asymmetric_pixel_correction" Element (ns_sidd300, "AsymmetricPixelCorrection") (TClass "sidd300.FilterType") One false NoDefault].

(** sidd_v3_0_0.py:3162-3226. *)
Definition c_sidd300_InteractiveProcessingType : Class := mkClass "sidd300.InteractiveProcessingType" (ns_sidd300, "InteractiveProcessingType") [
    mkField "geometric_transform" Element (ns_sidd300, "GeometricTransform") (TClass "sidd300.GeometricTransformType") One true NoDefault;
    mkField "sharpness_enhancement" Element (ns_sidd300, "SharpnessEnhancement") (TClass "sidd300.SharpnessEnhancementType") One true NoDefault;
    mkField "color_space_transform" Element (ns_sidd300, "ColorSpaceTransform") (TClass "sidd300.ColorSpaceTransformType") One false NoDefault;
    mkField "dynamic_range_adjustment" Element (ns_sidd300, "DynamicRangeAdjustment") (TClass "sidd300.DynamicRangeAdjustmentType") One true NoDefault;
    mkField "tonal_transfer_curve" Element (ns_sidd300, "TonalTransferCurve") (TClass "sidd300.NewLookupTableType") One false NoDefault;
    mkField "band" Attribute ("", "band") (TPrim PInt) One true NoDefault].

(** sidd_v3_0_0.py:3229-3263. *)
Definition c_sidd300_NonInteractiveProcessingType : Class := mkClass "sidd300.NonInteractiveProcessingType" (ns_sidd300, "NonInteractiveProcessingType") [
    mkField "product_generation_options" Element (ns_sidd300, "ProductGenerationOptions") (TClass "sidd300.ProductGenerationOptionsType") One true NoDefault;
    mkField "rrds" Element (ns_sidd300, "RRDS") (TClass "sidd300.RRDSType") One true NoDefault;
    mkField "band" Attribute ("", "band") (TPrim PInt) One true NoDefault].

(** sidd_v3_0_0.py:3266-3333. *)
Definition c_sidd300_ProductDisplayType : Class := mkClass "sidd300.ProductDisplayType" (ns_sidd300, "ProductDisplayType") [
    mkField "pixel_type" Element (ns_sidd300, "PixelType") (TEnum "sidd300.PixelType") One true NoDefault;
    mkField "num_bands" Element (ns_sidd300, "NumBands") (TPrim PInt) One true NoDefault;
    mkField "default_band_display" Element (ns_sidd300, "DefaultBandDisplay") (TPrim PInt) One false NoDefault;
    mkField "non_interactive_processing" Element (ns_sidd300, "NonInteractiveProcessing") (TClass "sidd300.NonInteractiveProcessingType") Many true NoDefault;
    mkField "interactive_processing" Element (ns_sidd300, "InteractiveProcessing") (TClass "sidd300.InteractiveProcessingType") Many true NoDefault;
    mkField "display_extension" Element (ns_sidd300, "DisplayExtension") (TClass "common10.ParameterType") Many false NoDefault].

(** sidd_v3_0_0.py:3336-3456. *)
Definition c_sidd300_SIDD : Class := mkClass "sidd300.SIDD" (ns_sidd300, "SIDD") [
    mkField "product_creation" Element (ns_sidd300, "ProductCreation") (TClass "sidd300.ProductCreationType") One true NoDefault;
    mkField "display" Element (ns_sidd300, "Display") (TClass "sidd300.ProductDisplayType") One true NoDefault;
    mkField "geo_data" Element (ns_sidd300, "GeoData") (TClass "sidd300.GeoDataType") One true NoDefault;
    mkField "measurement" Element (ns_sidd300, "Measurement") (TClass "sidd300.MeasurementType") One true NoDefault;
    mkField "exploitation_features" Element (ns_sidd300, "ExploitationFeatures") (TClass "sidd300.ExploitationFeaturesType") One true NoDefault;
    mkField "downstream_reprocessing" Element (ns_sidd300, "DownstreamReprocessing") (TClass "sidd300.DownstreamReprocessingType") One false NoDefault;
    mkField "error_statistics" Element (ns_sidd300, "ErrorStatistics") (TClass "common10.ErrorStatisticsType") One false NoDefault;
    mkField "radiometric" Element (ns_sidd300, "Radiometric") (TClass "common10.RadiometricType") One false NoDefault;
    mkField "match_info" Element (ns_sidd300, "MatchInfo") (TClass "common10.MatchInfoType") One false NoDefault;
    mkField "compression" Element (ns_sidd300, "Compression") (TClass "sidd300.CompressionType") One false NoDefault;
    mkField "digital_elevation_data" Element (ns_sidd300, "DigitalElevationData") (TClass "sidd300.DigitalElevationDataType") One false NoDefault;
    mkField "product_processing" Element (ns_sidd300, "ProductProcessing") (TClass "sidd300.ProductProcessingType") One false NoDefault;
    mkField "annotations" Element (ns_sidd300, "Annotations") (TClass "sidd300.AnnotationsType") One false NoDefault].

(** sidd_v2_0_0.py:58-77. *)
Definition c_sidd200_AccuracyType : Class := mkClass "sidd200.AccuracyType" (ns_sidd200, "AccuracyType") [
    mkField "horizontal" Element (ns_sidd200, "Horizontal") (TPrim PFloat) Many true NoDefault;
    mkField "vertical" Element (ns_sidd200, "Vertical") (TPrim PFloat) Many true NoDefault].

(** sidd_v2_0_0.py:80-84. *)
Definition c_sidd200_AcheivedResolutionType : Class := mkClass "sidd200.AcheivedResolutionType" (ns_sidd200, "AcheivedResolutionType") [].

(** sidd_v2_0_0.py:87-113. *)
Definition c_sidd200_ClassificationGuidanceType : Class := mkClass "sidd200.ClassificationGuidanceType" (ns_sidd200, "ClassificationGuidanceType") [
    mkField "authority" Element (ns_sidd200, "Authority") (TPrim PStr) One true NoDefault;
    mkField "date" Element (ns_sidd200, "Date") (TPrim PDate) One true NoDefault].

(** sidd_v2_0_0.py:116-142. *)
Definition c_sidd200_DRAHistogramOverridesType : Class := mkClass "sidd200.DRAHistogramOverridesType" (ns_sidd200, "DRAHistogramOverridesType") [
    mkField "clip_min" Element (ns_sidd200, "ClipMin") (TPrim PInt) One true NoDefault;
    mkField "clip_max" Element (ns_sidd200, "ClipMax") (TPrim PInt) One true NoDefault].

(** sidd_v2_0_0.py:145-169. *)
Definition c_sidd200_DRAOverrides : Class := mkClass "sidd200.DRAOverrides" (ns_sidd200, "DRAOverrides") [
    mkField "subtractor" Element (ns_sidd200, "Subtractor") (TPrim PFloat) One true NoDefault;
    mkField "multiplier" Element (ns_sidd200, "Multiplier") (TPrim PFloat) One true NoDefault].

(** sidd_v2_0_0.py:172-220. *)
Definition c_sidd200_DRAParameters : Class := mkClass "sidd200.DRAParameters" (ns_sidd200, "DRAParameters") [
    mkField "pmin" Element (ns_sidd200, "Pmin") (TPrim PFloat) One true NoDefault;
    mkField "pmax" Element (ns_sidd200, "Pmax") (TPrim PFloat) One true NoDefault;
    mkField "emin_modifier" Element (ns_sidd200, "EminModifier") (TPrim PFloat) One true NoDefault;
    mkField "emax_modifier" Element (ns_sidd200, "EmaxModifier") (TPrim PFloat) One true NoDefault].

(** sidd_v2_0_0.py:246-295. *)
Definition c_sidd200_FilterBankCoefType : Class := mkClass "sidd200.FilterBankCoefType" (ns_sidd200, "FilterBankCoefType") [
    mkField "coef" Element (ns_sidd200, "Coef") (TClass "sidd200.FilterBankCoefType.Coef") Many true NoDefault;
    mkField "num_phasings" Attribute ("", "numPhasings") (TPrim PInt) One true NoDefault;
    mkField "num_points" Attribute ("", "numPoints") (TPrim PInt) One true NoDefault].

(** sidd_v2_0_0.py:274-295. *)
Definition c_sidd200_FilterBankCoefType_Coef : Class := mkClass "sidd200.FilterBankCoefType.Coef" (ns_sidd200, "Coef") [
    mkField "value" Content ("", "") (TPrim PFloat) One true NoDefault;
    mkField "phasing" Attribute ("", "phasing") (TPrim PInt) One true NoDefault;
    mkField "point" Attribute ("", "point") (TPrim PInt) One true NoDefault].

(** sidd_v2_0_0.py:305-354. *)
Definition c_sidd200_FilterKernelCoefType : Class := mkClass "sidd200.FilterKernelCoefType" (ns_sidd200, "FilterKernelCoefType") [
    mkField "coef" Element (ns_sidd200, "Coef") (TClass "sidd200.FilterKernelCoefType.Coef") Many true NoDefault;
    mkField "num_rows" Attribute ("", "numRows") (TPrim PInt) One true NoDefault;
    mkField "num_cols" Attribute ("", "numCols") (TPrim PInt) One true NoDefault].

(** sidd_v2_0_0.py:333-354. *)
Definition c_sidd200_FilterKernelCoefType_Coef : Class := mkClass "sidd200.FilterKernelCoefType.Coef" (ns_sidd200, "Coef") [
    mkField "value" Content ("", "") (TPrim PFloat) One true NoDefault;
    mkField "row" Attribute ("", "row") (TPrim PInt) One true NoDefault;
    mkField "col" Attribute ("", "col") (TPrim PInt) One true NoDefault].

(** sidd_v2_0_0.py:383-407. *)
Definition c_sidd200_LayerType : Class := mkClass "sidd200.LayerType" (ns_sidd200, "LayerType") [
    mkField "bitrate" Element (ns_sidd200, "Bitrate") (TPrim PFloat) One true NoDefault;
    mkField "index" Attribute ("", "index") (TPrim PInt) One true NoDefault].

(** sidd_v2_0_0.py:410-430. *)
Definition c_sidd200_Lookup3TableType : Class := mkClass "sidd200.Lookup3TableType" (ns_sidd200, "Lookup3TableType") [
    mkField "value" Content ("", "") (TPrim PStr) Tokens false NoDefault;
    mkField "size" Attribute ("", "size") (TPrim PInt) One true NoDefault].

(** sidd_v2_0_0.py:433-452. *)
Definition c_sidd200_LookupTableType : Class := mkClass "sidd200.LookupTableType" (ns_sidd200, "LookupTableType") [
    mkField "value" Content ("", "") (TPrim PInt) Tokens false NoDefault;
    mkField "lut" Attribute ("", "lut") (TPrim PInt) One true NoDefault].

(** sidd_v2_0_0.py:475-506. *)
Definition c_sidd200_PredefinedLookupType : Class := mkClass "sidd200.PredefinedLookupType" (ns_sidd200, "PredefinedLookupType") [
    mkField "database_name" Element (ns_sidd200, "DatabaseName") (TPrim PStr) One false NoDefault;
    mkField "remap_family" Element (ns_sidd200, "RemapFamily") (TPrim PInt) One false NoDefault;
    mkField "remap_member" Element (ns_sidd200, "RemapMember") (TPrim PInt) One false NoDefault].

(** sidd_v2_0_0.py:509-553. *)
Definition c_sidd200_ProcessorInformationType : Class := mkClass "sidd200.ProcessorInformationType" (ns_sidd200, "ProcessorInformationType") [
    mkField "application" Element (ns_sidd200, "Application") (TPrim PStr) One true NoDefault;
    mkField "processing_date_time" Element (ns_sidd200, "ProcessingDateTime") (TPrim PDateTime) One true NoDefault;
    mkField "site" Element (ns_sidd200, "Site") (TPrim PStr) One true NoDefault;
    mkField "profile" Element (ns_sidd200, "Profile") (TPrim PStr) One false NoDefault].

(** sidd_v2_0_0.py:585-654. *)
Definition c_sidd200_AnnotationObjectType : Class := mkClass "sidd200.AnnotationObjectType" (ns_sidd200, "AnnotationObjectType") [
    mkField "point" Element (ns_sidd200, "Point") (TClass "sfa.PointType") One false NoDefault;
    mkField "line" Element (ns_sidd200, "Line") (TClass "sfa.LineType") One false NoDefault;
    mkField "linear_ring" Element (ns_sidd200, "LinearRing") (TClass "sfa.LinearRingType") One false NoDefault;
    mkField "polygon" Element (ns_sidd200, "Polygon") (TClass "sfa.PolygonType") One false NoDefault;
    mkField "polyhedral_surface" Element (ns_sidd200, "PolyhedralSurface") (TClass "sfa.PolyhedralSurfaceType") One false NoDefault;
    mkField "multi_polygon" Element (ns_sidd200, "MultiPolygon") (TClass "sfa.MultiPolygonType") One false NoDefault;
    mkField "multi_line_string" Element (ns_sidd200, "MultiLineString") (TClass "sfa.MultiLineStringType") One false NoDefault;
    mkField "multi_point" Element (ns_sidd200, "MultiPoint") (TClass "sfa.MultiPointType") One false NoDefault].

(** sidd_v2_0_0.py:657-667. *)
Definition c_sidd200_BankCustomType : Class := mkClass "sidd200.BankCustomType" (ns_sidd200, "BankCustomType") [
    mkField "filter_coefficients" Element (ns_sidd200, "FilterCoefficients") (TClass "sidd200.FilterBankCoefType") One true NoDefault].

(** sidd_v2_0_0.py:670-684. *)
Definition c_sidd200_BaseProjectionType : Class := mkClass "sidd200.BaseProjectionType" (ns_sidd200, "BaseProjectionType") [
    mkField "reference_point" Element (ns_sidd200, "ReferencePoint") (TClass "common10.ReferencePointType") One true NoDefault].

(** sidd_v2_0_0.py:687-703. *)
Definition c_sidd200_ColorDisplayRemapType : Class := mkClass "sidd200.ColorDisplayRemapType" (ns_sidd200, "ColorDisplayRemapType") [
    mkField "remap_lut" Element (ns_sidd200, "RemapLUT") (TClass "sidd200.Lookup3TableType") One true NoDefault].

(** sidd_v2_0_0.py:706-750. *)
Definition c_sidd200_ColorManagementModuleType : Class := mkClass "sidd200.ColorManagementModuleType" (ns_sidd200, "ColorManagementModuleType") [
    mkField "rendering_intent" Element (ns_sidd200, "RenderingIntent") (TEnum "sidd200.RenderingIntentType") One true NoDefault;
    mkField "source_profile" Element (ns_sidd200, "SourceProfile") (TPrim PStr) One true NoDefault;
    mkField "display_profile" Element (ns_sidd200, "DisplayProfile") (TPrim PStr) One false NoDefault;
    mkField "iccprofile_signature" Element (ns_sidd200, "ICCProfileSignature") (TPrim PStr) One false NoDefault].

(** sidd_v2_0_0.py:753-798. *)
Definition c_sidd200_DynamicRangeAdjustmentType : Class := mkClass "sidd200.DynamicRangeAdjustmentType" (ns_sidd200, "DynamicRangeAdjustmentType") [
    mkField "algorithm_type" Element (ns_sidd200, "AlgorithmType") (TEnum "sidd200.RangeAdjustmentAlgorithmType") One true NoDefault;
    mkField "band_stats_source" Element (ns_sidd200, "BandStatsSource") (TPrim PInt) One true NoDefault;
    mkField "draparameters" Element (ns_sidd200, "DRAParameters") (TClass "sidd200.DRAParameters") One false NoDefault;
    mkField "draoverrides" Element (ns_sidd200, "DRAOverrides") (TClass "sidd200.DRAOverrides") One false NoDefault].

(** sidd_v2_0_0.py:801-884. *)
Definition c_sidd200_ExploitationFeaturesCollectionGeometryType : Class := mkClass "sidd200.ExploitationFeaturesCollectionGeometryType" (ns_sidd200, "ExploitationFeaturesCollectionGeometryType") [
    mkField "azimuth" Element (ns_sidd200, "Azimuth") (TPrim PFloat) One false NoDefault;
    mkField "slope" Element (ns_sidd200, "Slope") (TPrim PFloat) One false NoDefault;
    mkField "squint" Element (ns_sidd200, "Squint") (TPrim PFloat) One false NoDefault;
    mkField "graze" Element (ns_sidd200, "Graze") (TPrim PFloat) One false NoDefault;
    mkField "tilt" Element (ns_sidd200, "Tilt") (TPrim PFloat) One false NoDefault;
    mkField "doppler_cone_angle" Element (ns_sidd200, "DopplerConeAngle") (TPrim PFloat) One false NoDefault;
    mkField "extension" Element (ns_sidd200, "Extension") (TClass "common10.ParameterType") Many false NoDefault].

(** sidd_v2_0_0.py:887-945. *)
Definition c_sidd200_ExploitationFeaturesCollectionPhenomenologyType : Class := mkClass "sidd200.ExploitationFeaturesCollectionPhenomenologyType" (ns_sidd200, "ExploitationFeaturesCollectionPhenomenologyType") [
    mkField "shadow" Element (ns_sidd200, "Shadow") (TClass "common10.AngleMagnitudeType") One false NoDefault;
    mkField "layover" Element (ns_sidd200, "Layover") (TClass "common10.AngleMagnitudeType") One false NoDefault;
    mkField "multi_path" Element (ns_sidd200, "MultiPath") (TPrim PFloat) One false NoDefault;
    mkField "ground_track" Element (ns_sidd200, "GroundTrack") (TPrim PFloat) One false NoDefault;
    mkField "extension" Element (ns_sidd200, "Extension") (TClass "common10.ParameterType") Many false NoDefault].

(** sidd_v2_0_0.py:948-987. *)
Definition c_sidd200_GeographicCoordinatesType : Class := mkClass "sidd200.GeographicCoordinatesType" (ns_sidd200, "GeographicCoordinatesType") [
    mkField "longitude_density" Element (ns_sidd200, "LongitudeDensity") (TPrim PFloat) One true NoDefault;
    mkField "latitude_density" Element (ns_sidd200, "LatitudeDensity") (TPrim PFloat) One true NoDefault;
    mkField "reference_origin" Element (ns_sidd200, "ReferenceOrigin") (TClass "common10.LatLonType") One true NoDefault].

(** sidd_v2_0_0.py:990-1051. *)
Definition c_sidd200_GeometricChipType : Class := mkClass "sidd200.GeometricChipType" (ns_sidd200, "GeometricChipType") [
    mkField "chip_size" Element (ns_sidd200, "ChipSize") (TClass "common10.RowColIntType") One true NoDefault;
    mkField "original_upper_left_coordinate" Element (ns_sidd200, "OriginalUpperLeftCoordinate") (TClass "common10.RowColDoubleType") One true NoDefault;
    mkField "original_upper_right_coordinate" Element (ns_sidd200, "OriginalUpperRightCoordinate") (TClass "common10.RowColDoubleType") One true NoDefault;
    mkField "original_lower_left_coordinate" Element (ns_sidd200, "OriginalLowerLeftCoordinate") (TClass "common10.RowColDoubleType") One true NoDefault;
    mkField "original_lower_right_coordinate" Element (ns_sidd200, "OriginalLowerRightCoordinate") (TClass "common10.RowColDoubleType") One true NoDefault].

(** sidd_v2_0_0.py:1054-1130. *)
Definition c_sidd200_GeopositioningType : Class := mkClass "sidd200.GeopositioningType" (ns_sidd200, "GeopositioningType") [
    mkField "coordinate_system_type" Element (ns_sidd200, "CoordinateSystemType") (TEnum "sidd200.GeopositioningTypeCoordinateSystemType") One true NoDefault;
    mkField "geodetic_datum" Element (ns_sidd200, "GeodeticDatum") (TEnum "sidd200.GeopositioningTypeGeodeticDatum") One true NoDefault;
    mkField "reference_ellipsoid" Element (ns_sidd200, "ReferenceEllipsoid") (TEnum "sidd200.GeopositioningTypeReferenceEllipsoid") One true NoDefault;
    mkField "vertical_datum" Element (ns_sidd200, "VerticalDatum") (TEnum "sidd200.GeopositioningTypeVerticalDatum") One true NoDefault;
    mkField "sounding_datum" Element (ns_sidd200, "SoundingDatum") (TEnum "sidd200.GeopositioningTypeSoundingDatum") One true NoDefault;
    mkField "false_origin" Element (ns_sidd200, "FalseOrigin") (TPrim PInt) One true NoDefault;
    mkField "utmgrid_zone_number" Element (ns_sidd200, "UTMGridZoneNumber") (TPrim PInt) One false NoDefault].

(** sidd_v2_0_0.py:1133-1163. *)
Definition c_sidd200_ImageCornersType : Class := mkClass "sidd200.ImageCornersType" (ns_sidd200, "ImageCornersType") [
    mkField "icp" Element (ns_sidd200, "ICP") (TClass "sidd200.ImageCornersType.ICP") Many true NoDefault].

(** sidd_v2_0_0.py:1155-1163. *)
Definition c_sidd200_ImageCornersType_ICP : Class := mkClass "sidd200.ImageCornersType.ICP" (ns_sidd200, "ICP") [
    mkField "lat" Element (ns_common10, "Lat") (TPrim PFloat) One true NoDefault;
    mkField "lon" Element (ns_common10, "Lon") (TPrim PFloat) One true NoDefault;
    mkField "index" Attribute ("", "index") (TEnum "common10.CornerStringType") One true NoDefault].

(** sidd_v2_0_0.py:1166-1192. *)
Definition c_sidd200_InputROIType : Class := mkClass "sidd200.InputROIType" (ns_sidd200, "InputROIType") [
    mkField "size" Element (ns_sidd200, "Size") (TClass "common10.RowColIntType") One true NoDefault;
    mkField "upper_left" Element (ns_sidd200, "UpperLeft") (TClass "common10.RowColIntType") One true NoDefault].

(** sidd_v2_0_0.py:1195-1205. *)
Definition c_sidd200_KernelCustomType : Class := mkClass "sidd200.KernelCustomType" (ns_sidd200, "KernelCustomType") [
    mkField "filter_coefficients" Element (ns_sidd200, "FilterCoefficients") (TClass "sidd200.FilterKernelCoefType") One true NoDefault].

(** sidd_v2_0_0.py:1208-1233. *)
Definition c_sidd200_LUTInfoType : Class := mkClass "sidd200.LUTInfoType" (ns_sidd200, "LUTInfoType") [
    mkField "lutvalues" Element (ns_sidd200, "LUTValues") (TClass "sidd200.LookupTableType") Many true NoDefault;
    mkField "num_luts" Attribute ("", "numLuts") (TPrim PInt) One true NoDefault;
    mkField "size" Attribute ("", "size") (TPrim PInt) One true NoDefault].

(** sidd_v2_0_0.py:1236-1264. *)
Definition c_sidd200_LayerInfoType : Class := mkClass "sidd200.LayerInfoType" (ns_sidd200, "LayerInfoType") [
    mkField "layer" Element (ns_sidd200, "Layer") (TClass "sidd200.LayerType") Many true NoDefault;
    mkField "num_layers" Attribute ("", "numLayers") (TPrim PInt) One true NoDefault].

(** sidd_v2_0_0.py:1267-1306. *)
Definition c_sidd200_MonochromeDisplayRemapType : Class := mkClass "sidd200.MonochromeDisplayRemapType" (ns_sidd200, "MonochromeDisplayRemapType") [
    mkField "remap_type" Element (ns_sidd200, "RemapType") (TPrim PStr) One true NoDefault;
    mkField "remap_parameter" Element (ns_sidd200, "RemapParameter") (TClass "common10.ParameterType") Many false NoDefault].

(** sidd_v2_0_0.py:1309-1325. *)
Definition c_sidd200_Orientation : Class := mkClass "sidd200.Orientation" (ns_sidd200, "Orientation") [
    mkField "shadow_direction" Element (ns_sidd200, "ShadowDirection") (TEnum "sidd200.ShadowDirectionType") One true NoDefault].

(** sidd_v2_0_0.py:1328-1357. *)
Definition c_sidd200_PolygonType : Class := mkClass "sidd200.PolygonType" (ns_sidd200, "PolygonType") [
    mkField "vertex" Element (ns_sidd200, "Vertex") (TClass "common10.LatLonVertexType") Many true NoDefault;
    mkField "size" Attribute ("", "size") (TPrim PInt) One true NoDefault].

(** sidd_v2_0_0.py:1360-1397. *)
Definition c_sidd200_PositionalAccuracyType : Class := mkClass "sidd200.PositionalAccuracyType" (ns_sidd200, "PositionalAccuracyType") [
    mkField "num_regions" Element (ns_sidd200, "NumRegions") (TPrim PInt) One true NoDefault;
    mkField "absolute_accuracy" Element (ns_sidd200, "AbsoluteAccuracy") (TClass "sidd200.AccuracyType") One true NoDefault;
    mkField "point_to_point_accuracy" Element (ns_sidd200, "PointToPointAccuracy") (TClass "sidd200.AccuracyType") One true NoDefault].

(** sidd_v2_0_0.py:1400-1425. *)
Definition c_sidd200_PredefinedFilterType : Class := mkClass "sidd200.PredefinedFilterType" (ns_sidd200, "PredefinedFilterType") [
    mkField "database_name" Element (ns_sidd200, "DatabaseName") (TEnum "sidd200.FilterDatabaseNameType") One false NoDefault;
    mkField "filter_family" Element (ns_sidd200, "FilterFamily") (TPrim PInt) One false NoDefault;
    mkField "filter_member" Element (ns_sidd200, "FilterMember") (TPrim PInt) One false NoDefault].

(** sidd_v2_0_0.py:1428-1454. *)
Definition c_sidd200_ProcTxRcvPolarizationType : Class := mkClass "sidd200.ProcTxRcvPolarizationType" (ns_sidd200, "ProcTxRcvPolarizationType") [
    mkField "tx_polarization_proc" Element (ns_sidd200, "TxPolarizationProc") (TEnumOrStr "common10.Polarization1Typevalue") One true NoDefault;
    mkField "rcv_polarization_proc" Element (ns_sidd200, "RcvPolarizationProc") (TEnumOrStr "common10.Polarization1Typevalue") One true NoDefault].

(** sidd_v2_0_0.py:1457-1500. *)
Definition c_sidd200_ProcessingEventType : Class := mkClass "sidd200.ProcessingEventType" (ns_sidd200, "ProcessingEventType") [
    mkField "application_name" Element (ns_sidd200, "ApplicationName") (TPrim PStr) One true NoDefault;
    mkField "applied_date_time" Element (ns_sidd200, "AppliedDateTime") (TPrim PDateTime) One true NoDefault;
    mkField "interpolation_method" Element (ns_sidd200, "InterpolationMethod") (TPrim PStr) One false NoDefault;
    mkField "descriptor" Element (ns_sidd200, "Descriptor") (TClass "common10.ParameterType") Many false NoDefault].

(** sidd_v2_0_0.py:1503-1536. *)
Definition c_sidd200_ProcessingModuleType : Class := mkClass "sidd200.ProcessingModuleType" (ns_sidd200, "ProcessingModuleType") [
    mkField "module_name" Element (ns_sidd200, "ModuleName") (TClass "common10.ParameterType") One true NoDefault;
    mkField "module_parameter" Element (ns_sidd200, "ModuleParameter") (TClass "common10.ParameterType") Many false NoDefault;
    mkField "processing_module" Element (ns_sidd200, "ProcessingModule") (TClass "sidd200.ProcessingModuleType") Many false NoDefault].

(** sidd_v2_0_0.py:1539-1881. *)
Definition c_sidd200_ProductClassificationType : Class := mkClass "sidd200.ProductClassificationType" (ns_sidd200, "ProductClassificationType") [
    mkField "security_extension" Element (ns_sidd200, "SecurityExtension") (TClass "common10.ParameterType") Many false NoDefault;
    mkField "desversion" Attribute (ns_ism13, "DESVersion") (TPrim PStr) One true NoDefault;
    mkField "ismcatcesversion" Attribute (ns_ism13, "ISMCATCESVersion") (TPrim PStr) One true NoDefault;
    mkField "resource_element" Attribute (ns_ism13, "resourceElement") (TPrim PBool) One true NoDefault;
    mkField "complies_with" Attribute (ns_ism13, "compliesWith") (TEnum "ism13.CVEnumISMCompliesWithValues") Tokens true NoDefault;
    mkField "create_date" Attribute (ns_ism13, "createDate") (TPrim PDate) One true NoDefault;
    mkField "exempt_from" Attribute (ns_ism13, "exemptFrom") (TEnum "ism13.CVEnumISMExemptFromValues") Tokens false NoDefault;
    mkField "classification" Attribute (ns_ism13, "classification") (TEnum "ism13.CVEnumISMClassificationAll") One true NoDefault;
    mkField "owner_producer" Attribute (ns_ism13, "ownerProducer") (TEnumOrStr "ism13.CVEnumISMCATOwnerProducerValuesvalue") Tokens true NoDefault;
    mkField "joint" Attribute (ns_ism13, "joint") (TPrim PBool) One false NoDefault;
    mkField "scicontrols" Attribute (ns_ism13, "SCIcontrols") (TEnumOrStr "ism13.CVEnumISMSCIControlsValuesvalue") Tokens false NoDefault;
    mkField "saridentifier" Attribute (ns_ism13, "SARIdentifier") (TPrim PStr) Tokens false NoDefault;
    mkField "atomic_energy_markings" Attribute (ns_ism13, "atomicEnergyMarkings") (TEnumOrStr "ism13.CVEnumISMatomicEnergyMarkingsValuesvalue") Tokens false NoDefault;
    mkField "dissemination_controls" Attribute (ns_ism13, "disseminationControls") (TEnum "ism13.CVEnumISMDissemValues") Tokens false NoDefault;
    mkField "display_only_to" Attribute (ns_ism13, "displayOnlyTo") (TEnumOrStr "ism13.CVEnumISMCATRelToValuesvalue") Tokens false NoDefault;
    mkField "fgisource_open" Attribute (ns_ism13, "FGIsourceOpen") (TEnumOrStr "ism13.CVEnumISMCATFGIOpenValuesvalue") Tokens false NoDefault;
    mkField "fgisource_protected" Attribute (ns_ism13, "FGIsourceProtected") (TEnumOrStr "ism13.CVEnumISMCATFGIProtectedValuesvalue") Tokens false NoDefault;
    mkField "releasable_to" Attribute (ns_ism13, "releasableTo") (TEnumOrStr "ism13.CVEnumISMCATRelToValuesvalue") Tokens false NoDefault;
    mkField "non_icmarkings" Attribute (ns_ism13, "nonICmarkings") (TEnumOrStr "ism13.CVEnumISMNonICValuesvalue") Tokens false NoDefault;
    mkField "classified_by" Attribute (ns_ism13, "classifiedBy") (TPrim PStr) One false NoDefault;
    mkField "compilation_reason" Attribute (ns_ism13, "compilationReason") (TPrim PStr) One false NoDefault;
    mkField "derivatively_classified_by" Attribute (ns_ism13, "derivativelyClassifiedBy") (TPrim PStr) One false NoDefault;
    mkField "classification_reason" Attribute (ns_ism13, "classificationReason") (TPrim PStr) One false NoDefault;
    mkField "non_uscontrols" Attribute (ns_ism13, "nonUSControls") (TEnum "ism13.CVEnumISMNonUSControlsValues") Tokens false NoDefault;
    mkField "derived_from" Attribute (ns_ism13, "derivedFrom") (TPrim PStr) One false NoDefault;
    mkField "declass_date" Attribute (ns_ism13, "declassDate") (TPrim PDate) One false NoDefault;
    mkField "declass_event" Attribute (ns_ism13, "declassEvent") (TPrim PStr) One false NoDefault;
    mkField "declass_exception" Attribute (ns_ism13, "declassException") (TEnum "ism13.CVEnumISM25X") One false NoDefault;
    mkField "notice_type" Attribute (ns_ism13, "noticeType") (TEnum "ism13.CVEnumISMNoticeValues") Tokens false NoDefault;
    mkField "notice_reason" Attribute (ns_ism13, "noticeReason") (TPrim PStr) One false NoDefault;
    mkField "notice_date" Attribute (ns_ism13, "noticeDate") (TPrim PDate) One false NoDefault;
    mkField "unregistered_notice_type" Attribute (ns_ism13, "unregisteredNoticeType") (TPrim PStr) One false NoDefault;
    mkField "external_notice" Attribute (ns_ism13, "externalNotice") (TPrim PBool) One false NoDefault].

(** sidd_v2_0_0.py:1884-1912. *)
Definition c_sidd200_ProductPlaneType : Class := mkClass "sidd200.ProductPlaneType" (ns_sidd200, "ProductPlaneType") [
    mkField "row_unit_vector" Element (ns_sidd200, "RowUnitVector") (TClass "common10.XYZType") One true NoDefault;
    mkField "col_unit_vector" Element (ns_sidd200, "ColUnitVector") (TClass "common10.XYZType") One true NoDefault].

(** sidd_v2_0_0.py:1915-1952. *)
Definition c_sidd200_TxRcvPolarizationType : Class := mkClass "sidd200.TxRcvPolarizationType" (ns_sidd200, "TxRcvPolarizationType") [
    mkField "tx_polarization" Element (ns_sidd200, "TxPolarization") (TEnumOrStr "common10.Polarization1Typevalue") One true NoDefault;
    mkField "rcv_polarization" Element (ns_sidd200, "RcvPolarization") (TEnumOrStr "common10.Polarization1Typevalue") One true NoDefault;
    mkField "rcv_polarization_offset" Element (ns_sidd200, "RcvPolarizationOffset") (TPrim PFloat) One false NoDefault].

(** sidd_v2_0_0.py:1955-1984. *)
Definition c_sidd200_ValidDataType : Class := mkClass "sidd200.ValidDataType" (ns_sidd200, "ValidDataType") [
    mkField "vertex" Element (ns_sidd200, "Vertex") (TClass "common10.RowColVertexType") Many true NoDefault;
    mkField "size" Attribute ("", "size") (TPrim PInt) One true NoDefault].

(** sidd_v2_0_0.py:1987-2025. *)
Definition c_sidd200_AnnotationType : Class := mkClass "sidd200.AnnotationType" (ns_sidd200, "AnnotationType") [
    mkField "identifier" Element (ns_sidd200, "Identifier") (TPrim PStr) One true NoDefault;
    mkField "spatial_reference_system" Element (ns_sidd200, "SpatialReferenceSystem") (TClass "sfa.ReferenceSystemType") One false NoDefault;
    mkField "object_value" Element (ns_sidd200, "Object") (TClass "sidd200.AnnotationObjectType") Many true NoDefault].

(** sidd_v2_0_0.py:2028-2042. *)
Definition c_sidd200_ColorSpaceTransformType : Class := mkClass "sidd200.ColorSpaceTransformType" (ns_sidd200, "ColorSpaceTransformType") [
    mkField "color_management_module" Element (ns_sidd200, "ColorManagementModule") (TClass "sidd200.ColorManagementModuleType") One true NoDefault].

(** sidd_v2_0_0.py:2045-2055. *)
Definition c_sidd200_CustomLookupType : Class := mkClass "sidd200.CustomLookupType" (ns_sidd200, "CustomLookupType") [
    mkField "lutinfo" Element (ns_sidd200, "LUTInfo") (TClass "sidd200.LUTInfoType") One true NoDefault].

(** sidd_v2_0_0.py:2058-2105. *)
Definition c_sidd200_DigitalElevationDataType : Class := mkClass "sidd200.DigitalElevationDataType" (ns_sidd200, "DigitalElevationDataType") [
    mkField "geographic_coordinates" Element (ns_sidd200, "GeographicCoordinates") (TClass "sidd200.GeographicCoordinatesType") One true NoDefault;
    mkField "geopositioning" Element (ns_sidd200, "Geopositioning") (TClass "sidd200.GeopositioningType") One true NoDefault;
    mkField "positional_accuracy" Element (ns_sidd200, "PositionalAccuracy") (TClass "sidd200.PositionalAccuracyType") One true NoDefault;
    mkField "null_value" Element (ns_sidd200, "NullValue") (TPrim PInt) One false NoDefault].

(** sidd_v2_0_0.py:2108-2130. *)
Definition c_sidd200_DownstreamReprocessingType : Class := mkClass "sidd200.DownstreamReprocessingType" (ns_sidd200, "DownstreamReprocessingType") [
    mkField "geometric_chip" Element (ns_sidd200, "GeometricChip") (TClass "sidd200.GeometricChipType") One false NoDefault;
    mkField "processing_event" Element (ns_sidd200, "ProcessingEvent") (TClass "sidd200.ProcessingEventType") Many false NoDefault].

(** sidd_v2_0_0.py:2133-2217. *)
Definition c_sidd200_ExploitationFeaturesCollectionInformationType : Class := mkClass "sidd200.ExploitationFeaturesCollectionInformationType" (ns_sidd200, "ExploitationFeaturesCollectionInformationType") [
    mkField "sensor_name" Element (ns_sidd200, "SensorName") (TPrim PStr) One true NoDefault;
    mkField "radar_mode" Element (ns_sidd200, "RadarMode") (TClass "common10.RadarModeType") One true NoDefault;
    mkField "collection_date_time" Element (ns_sidd200, "CollectionDateTime") (TPrim PDateTime) One true NoDefault;
    mkField "local_date_time" Element (ns_sidd200, "LocalDateTime") (TPrim PDateTime) One false NoDefault;
    mkField "collection_duration" Element (ns_sidd200, "CollectionDuration") (TPrim PFloat) One true NoDefault;
    mkField "resolution" Element (ns_sidd200, "Resolution") (TClass "common10.RangeAzimuthType") One false NoDefault;
    mkField "input_roi" Element (ns_sidd200, "InputROI") (TClass "sidd200.InputROIType") One false NoDefault;
    mkField "polarization" Element (ns_sidd200, "Polarization") (TClass "sidd200.TxRcvPolarizationType") Many false NoDefault].

(** sidd_v2_0_0.py:2220-2277. *)
Definition c_sidd200_ExploitationFeaturesProductType : Class := mkClass "sidd200.ExploitationFeaturesProductType" (ns_sidd200, "ExploitationFeaturesProductType") [
    mkField "resolution" Element (ns_sidd200, "Resolution") (TClass "common10.RowColDoubleType") One true NoDefault;
    mkField "ellipticity" Element (ns_sidd200, "Ellipticity") (TPrim PFloat) One true NoDefault;
    mkField "polarization" Element (ns_sidd200, "Polarization") (TClass "sidd200.ProcTxRcvPolarizationType") Many true NoDefault;
    mkField "north" Element (ns_sidd200, "North") (TPrim PFloat) One false NoDefault;
    mkField "extension" Element (ns_sidd200, "Extension") (TClass "common10.ParameterType") Many false NoDefault].

(** sidd_v2_0_0.py:2280-2297. *)
Definition c_sidd200_FilterBankType : Class := mkClass "sidd200.FilterBankType" (ns_sidd200, "FilterBankType") [
    mkField "predefined" Element (ns_sidd200, "Predefined") (TClass "sidd200.PredefinedFilterType") One false NoDefault;
    mkField "custom" Element (ns_sidd200, "Custom") (TClass "sidd200.BankCustomType") One false NoDefault].

(** sidd_v2_0_0.py:2300-2317. *)
Definition c_sidd200_FilterKernelType : Class := mkClass "sidd200.FilterKernelType" (ns_sidd200, "FilterKernelType") [
    mkField "predefined" Element (ns_sidd200, "Predefined") (TClass "sidd200.PredefinedFilterType") One false NoDefault;
    mkField "custom" Element (ns_sidd200, "Custom") (TClass "sidd200.KernelCustomType") One false NoDefault].

(** sidd_v2_0_0.py:2320-2371. *)
Definition c_sidd200_GeoDataType : Class := mkClass "sidd200.GeoDataType" (ns_sidd200, "GeoDataType") [
    mkField "earth_model" Element (ns_sidd200, "EarthModel") (TEnum "sidd200.EarthModelType") One true NoDefault;
    mkField "image_corners" Element (ns_sidd200, "ImageCorners") (TClass "sidd200.ImageCornersType") One true NoDefault;
    mkField "valid_data" Element (ns_sidd200, "ValidData") (TClass "sidd200.PolygonType") One true NoDefault;
    mkField "geo_info" Element (ns_common10, "GeoInfo") (TClass "common10.GeoInfo") Many false NoDefault].

(** sidd_v2_0_0.py:2374-2409. *)
Definition c_sidd200_J2KSubtype : Class := mkClass "sidd200.J2KSubtype" (ns_sidd200, "J2KSubtype") [
    mkField "num_wavelet_levels" Element (ns_sidd200, "NumWaveletLevels") (TPrim PInt) One true NoDefault;
    mkField "num_bands" Element (ns_sidd200, "NumBands") (TPrim PInt) One true NoDefault;
    mkField "layer_info" Element (ns_sidd200, "LayerInfo") (TClass "sidd200.LayerInfoType") One false NoDefault].

(** sidd_v2_0_0.py:2412-2437. *)
Definition c_sidd200_MeasurableProjectionType : Class := mkClass "sidd200.MeasurableProjectionType" (ns_sidd200, "MeasurableProjectionType") [
    mkField "reference_point" Element (ns_sidd200, "ReferencePoint") (TClass "common10.ReferencePointType") One true NoDefault;
    mkField "sample_spacing" Element (ns_sidd200, "SampleSpacing") (TClass "common10.RowColDoubleType") One true NoDefault;
    mkField "time_coapoly" Element (ns_sidd200, "TimeCOAPoly") (TClass "common10.Poly2DType") One true NoDefault].

(** sidd_v2_0_0.py:2440-2498. *)
Definition c_sidd200_PolynomialProjectionType : Class := mkClass "sidd200.PolynomialProjectionType" (ns_sidd200, "PolynomialProjectionType") [
    mkField "reference_point" Element (ns_sidd200, "ReferencePoint") (TClass "common10.ReferencePointType") One true NoDefault;
    mkField "row_col_to_lat" Element (ns_sidd200, "RowColToLat") (TClass "common10.Poly2DType") One true NoDefault;
    mkField "row_col_to_lon" Element (ns_sidd200, "RowColToLon") (TClass "common10.Poly2DType") One true NoDefault;
    mkField "row_col_to_alt" Element (ns_sidd200, "RowColToAlt") (TClass "common10.Poly2DType") One false NoDefault;
    mkField "lat_lon_to_row" Element (ns_sidd200, "LatLonToRow") (TClass "common10.Poly2DType") One true NoDefault;
    mkField "lat_lon_to_col" Element (ns_sidd200, "LatLonToCol") (TClass "common10.Poly2DType") One true NoDefault].

(** sidd_v2_0_0.py:2501-2568. *)
Definition c_sidd200_ProductCreationType : Class := mkClass "sidd200.ProductCreationType" (ns_sidd200, "ProductCreationType") [
    mkField "processor_information" Element (ns_sidd200, "ProcessorInformation") (TClass "sidd200.ProcessorInformationType") One true NoDefault;
    mkField "classification" Element (ns_sidd200, "Classification") (TClass "sidd200.ProductClassificationType") One true NoDefault;
    mkField "product_name" Element (ns_sidd200, "ProductName") (TPrim PStr) One true NoDefault;
    mkField "product_class" Element (ns_sidd200, "ProductClass") (TPrim PStr) One true NoDefault;
    mkField "product_type" Element (ns_sidd200, "ProductType") (TPrim PStr) One false NoDefault;
    mkField "product_creation_extension" Element (ns_sidd200, "ProductCreationExtension") (TClass "common10.ParameterType") Many false NoDefault].

(** sidd_v2_0_0.py:2571-2589. *)
Definition c_sidd200_ProductProcessingType : Class := mkClass "sidd200.ProductProcessingType" (ns_sidd200, "ProductProcessingType") [
    mkField "processing_module" Element (ns_sidd200, "ProcessingModule") (TClass "sidd200.ProcessingModuleType") Many true NoDefault].

(** sidd_v2_0_0.py:2592-2614. *)
Definition c_sidd200_RemapChoiceType : Class := mkClass "sidd200.RemapChoiceType" (ns_sidd200, "RemapChoiceType") [
    mkField "color_display_remap" Element (ns_sidd200, "ColorDisplayRemap") (TClass "sidd200.ColorDisplayRemapType") One false NoDefault;
    mkField "monochrome_display_remap" Element (ns_sidd200, "MonochromeDisplayRemap") (TClass "sidd200.MonochromeDisplayRemapType") One false NoDefault].

(** sidd_v2_0_0.py:2617-2631. *)
Definition c_sidd200_AnnotationsType : Class := mkClass "sidd200.AnnotationsType" (ns_sidd200, "AnnotationsType") [
    mkField "annotation" Element (ns_sidd200, "Annotation") (TClass "sidd200.AnnotationType") Many true NoDefault].

(** sidd_v2_0_0.py:2634-2660. *)
Definition c_sidd200_CylindricalProjectionType : Class := mkClass "sidd200.CylindricalProjectionType" (ns_sidd200, "CylindricalProjectionType") [
    mkField "reference_point" Element (ns_sidd200, "ReferencePoint") (TClass "common10.ReferencePointType") One true NoDefault;
    mkField "sample_spacing" Element (ns_sidd200, "SampleSpacing") (TClass "common10.RowColDoubleType") One true NoDefault;
    mkField "time_coapoly" Element (ns_sidd200, "TimeCOAPoly") (TClass "common10.Poly2DType") One true NoDefault;
    mkField "stripmap_direction" Element (ns_sidd200, "StripmapDirection") (TClass "common10.XYZType") One true NoDefault;
    mkField "curvature_radius" Element (ns_sidd200, "CurvatureRadius") (TPrim PFloat) One false NoDefault].

(** sidd_v2_0_0.py:2663-2695. *)
Definition c_sidd200_ExploitationFeaturesCollectionType : Class := mkClass "sidd200.ExploitationFeaturesCollectionType" (ns_sidd200, "ExploitationFeaturesCollectionType") [
    mkField "information" Element (ns_sidd200, "Information") (TClass "sidd200.ExploitationFeaturesCollectionInformationType") One true NoDefault;
    mkField "geometry" Element (ns_sidd200, "Geometry") (TClass "sidd200.ExploitationFeaturesCollectionGeometryType") One false NoDefault;
    mkField "phenomenology" Element (ns_sidd200, "Phenomenology") (TClass "sidd200.ExploitationFeaturesCollectionPhenomenologyType") One false NoDefault].

(** sidd_v2_0_0.py:2698-2733. *)
Definition c_sidd200_FilterType : Class := mkClass "sidd200.FilterType" (ns_sidd200, "FilterType") [
    mkField "filter_name" Element (ns_sidd200, "FilterName") (TPrim PStr) One true NoDefault;
    mkField "filter_kernel" Element (ns_sidd200, "FilterKernel") (TClass "sidd200.FilterKernelType") One false NoDefault;
    mkField "filter_bank" Element (ns_sidd200, "FilterBank") (TClass "sidd200.FilterBankType") One false NoDefault;
    mkField "operation" Element (ns_sidd200, "Operation") (TEnum "sidd200.FilterOperationType") One true NoDefault].

(** sidd_v2_0_0.py:2736-2740. *)
Definition c_sidd200_GeographicProjectionType : Class := mkClass "sidd200.GeographicProjectionType" (ns_sidd200, "GeographicProjectionType") [
    mkField "reference_point" Element (ns_sidd200, "ReferencePoint") (TClass "common10.ReferencePointType") One true NoDefault;
    mkField "sample_spacing" Element (ns_sidd200, "SampleSpacing") (TClass "common10.RowColDoubleType") One true NoDefault;
    mkField "time_coapoly" Element (ns_sidd200, "TimeCOAPoly") (TClass "common10.Poly2DType") One true NoDefault].

(** sidd_v2_0_0.py:2743-2766. *)
Definition c_sidd200_J2KType : Class := mkClass "sidd200.J2KType" (ns_sidd200, "J2KType") [
    mkField "original" Element (ns_sidd200, "Original") (TClass "sidd200.J2KSubtype") One true NoDefault;
    mkField "parsed" Element (ns_sidd200, "Parsed") (TClass "sidd200.J2KSubtype") One false NoDefault].

(** sidd_v2_0_0.py:2769-2795. *)
Definition c_sidd200_NewLookupTableType : Class := mkClass "sidd200.NewLookupTableType" (ns_sidd200, "NewLookupTableType") [
    mkField "lutname" Element (ns_sidd200, "LUTName") (TPrim PStr) One true NoDefault;
    mkField "predefined" Element (ns_sidd200, "Predefined") (TClass "sidd200.PredefinedLookupType") One false NoDefault;
    mkField "custom" Element (ns_sidd200, "Custom") (TClass "sidd200.CustomLookupType") One false NoDefault].

(** sidd_v2_0_0.py:2798-2814. *)
Definition c_sidd200_PlaneProjectionType : Class := mkClass "sidd200.PlaneProjectionType" (ns_sidd200, "PlaneProjectionType") [
    mkField "reference_point" Element (ns_sidd200, "ReferencePoint") (TClass "common10.ReferencePointType") One true NoDefault;
    mkField "sample_spacing" Element (ns_sidd200, "SampleSpacing") (TClass "common10.RowColDoubleType") One true NoDefault;
    mkField "time_coapoly" Element (ns_sidd200, "TimeCOAPoly") (TClass "common10.Poly2DType") One true NoDefault;
    mkField "product_plane" Element (ns_sidd200, "ProductPlane") (TClass "sidd200.ProductPlaneType") One true NoDefault].

(** sidd_v2_0_0.py:2817-2855. *)
Definition c_sidd200_BandEqualizationType : Class := mkClass "sidd200.BandEqualizationType" (ns_sidd200, "BandEqualizationType") [
    mkField "algorithm" Element (ns_sidd200, "Algorithm") (TEnum "sidd200.EqualizationAlgorithmType") One true NoDefault;
    mkField "band_lut" Element (ns_sidd200, "BandLUT") (TClass "sidd200.BandEqualizationType.BandLUT") Many true NoDefault].

(** sidd_v2_0_0.py:2847-2855. *)
Definition c_sidd200_BandEqualizationType_BandLUT : Class := mkClass "sidd200.BandEqualizationType.BandLUT" (ns_sidd200, "BandLUT") [
    mkField "lutname" Element (ns_sidd200, "LUTName") (TPrim PStr) One true NoDefault;
    mkField "predefined" Element (ns_sidd200, "Predefined") (TClass "sidd200.PredefinedLookupType") One false NoDefault;
    mkField "custom" Element (ns_sidd200, "Custom") (TClass "sidd200.CustomLookupType") One false NoDefault;
    mkField "k" Attribute ("", "k") (TPrim PInt) One true NoDefault].

(** sidd_v2_0_0.py:2858-2875. *)
Definition c_sidd200_CompressionType : Class := mkClass "sidd200.CompressionType" (ns_sidd200, "CompressionType") [
    mkField "j2_k" Element (ns_sidd200, "J2K") (TClass "sidd200.J2KType") One true NoDefault].

(** sidd_v2_0_0.py:2878-2914. *)
Definition c_sidd200_ExploitationFeaturesType : Class := mkClass "sidd200.ExploitationFeaturesType" (ns_sidd200, "ExploitationFeaturesType") [
    mkField "collection" Element (ns_sidd200, "Collection") (TClass "sidd200.ExploitationFeaturesType.Collection") Many true NoDefault;
    mkField "product" Element (ns_sidd200, "Product") (TClass "sidd200.ExploitationFeaturesProductType") Many true NoDefault].

(** sidd_v2_0_0.py:2906-2914. *)
Definition c_sidd200_ExploitationFeaturesType_Collection : Class := mkClass "sidd200.ExploitationFeaturesType.Collection" (ns_sidd200, "Collection") [
    mkField "information" Element (ns_sidd200, "Information") (TClass "sidd200.ExploitationFeaturesCollectionInformationType") One true NoDefault;
    mkField "geometry" Element (ns_sidd200, "Geometry") (TClass "sidd200.ExploitationFeaturesCollectionGeometryType") One false NoDefault;
    mkField "phenomenology" Element (ns_sidd200, "Phenomenology") (TClass "sidd200.ExploitationFeaturesCollectionPhenomenologyType") One false NoDefault;
    mkField "identifier" Attribute ("", "identifier") (TPrim PStr) One true NoDefault].

(** sidd_v2_0_0.py:2917-3005. *)
Definition c_sidd200_MeasurementType : Class := mkClass "sidd200.MeasurementType" (ns_sidd200, "MeasurementType") [
    mkField "polynomial_projection" Element (ns_sidd200, "PolynomialProjection") (TClass "sidd200.PolynomialProjectionType") One false NoDefault;
    mkField "geographic_projection" Element (ns_sidd200, "GeographicProjection") (TClass "sidd200.GeographicProjectionType") One false NoDefault;
    mkField "plane_projection" Element (ns_sidd200, "PlaneProjection") (TClass "sidd200.PlaneProjectionType") One false NoDefault;
    mkField "cylindrical_projection" Element (ns_sidd200, "CylindricalProjection") (TClass "sidd200.CylindricalProjectionType") One false NoDefault;
    mkField "pixel_footprint" Element (ns_sidd200, "PixelFootprint") (TClass "common10.RowColIntType") One true NoDefault;
    mkField "arpflag" Element (ns_sidd200, "ARPFlag") (TEnum "sidd200.MeasurementTypeARPFlag") One false NoDefault;
    mkField "arppoly" Element (ns_sidd200, "ARPPoly") (TClass "common10.XYZPolyType") One true NoDefault;
    mkField "valid_data" Element (ns_sidd200, "ValidData") (TClass "sidd200.ValidDataType") One true NoDefault].

(** sidd_v2_0_0.py:3008-3040. *)
Definition c_sidd200_RRDSType : Class := mkClass "sidd200.RRDSType" (ns_sidd200, "RRDSType") [
    mkField "downsampling_method" Element (ns_sidd200, "DownsamplingMethod") (TEnum "sidd200.DownsamplingMethodType") One true NoDefault;
    mkField "anti_alias" Element (ns_sidd200, "AntiAlias") (TClass "sidd200.FilterType") One false NoDefault;
    mkField "interpolation" Element (ns_sidd200, "Interpolation") (TClass "sidd200.FilterType") One false NoDefault].

(** sidd_v2_0_0.py:3043-3069. *)
Definition c_sidd200_ScalingType : Class := mkClass "sidd200.ScalingType" (ns_sidd200, "ScalingType") [
    mkField "anti_alias" Element (ns_sidd200, "AntiAlias") (TClass "sidd200.FilterType") One true NoDefault;
    mkField "interpolation" Element (ns_sidd200, "Interpolation") (TClass "sidd200.FilterType") One true NoDefault].

(** sidd_v2_0_0.py:3072-3096. *)
Definition c_sidd200_SharpnessEnhancementType : Class := mkClass "sidd200.SharpnessEnhancementType" (ns_sidd200, "SharpnessEnhancementType") [
    mkField "modular_transfer_function_compensation" Element (ns_sidd200, "ModularTransferFunctionCompensation") (TClass "sidd200.FilterType") One false NoDefault;
    mkField "modular_transfer_function_enhancement" Element (ns_sidd200, "ModularTransferFunctionEnhancement") (TClass "sidd200.FilterType") One false NoDefault].

(** sidd_v2_0_0.py:3099-3123. *)
Definition c_sidd200_GeometricTransformType : Class := mkClass "sidd200.GeometricTransformType" (ns_sidd200, "GeometricTransformType") [
    mkField "scaling" Element (ns_sidd200, "Scaling") (TClass "sidd200.ScalingType") One true NoDefault;
    mkField "orientation" Element (ns_sidd200, "Orientation") (TClass "sidd200.Orientation") One true NoDefault].

(** sidd_v2_0_0.py:3126-3172. *)
Definition c_sidd200_ProductGenerationOptionsType : Class := mkClass "sidd200.ProductGenerationOptionsType" (ns_sidd200, "ProductGenerationOptionsType") [
    mkField "band_equalization" Element (ns_sidd200, "BandEqualization") (TClass "sidd200.BandEqualizationType") One false NoDefault;
    mkField "modular_transfer_function_restoration" Element (ns_sidd200, "ModularTransferFunctionRestoration") (TClass "sidd200.FilterType") One false NoDefault;
    mkField "data_remapping" Element (ns_sidd200, "DataRemapping") (TClass "sidd200.NewLookupTableType") One true NoDefault;
    mkField "asymmetric_pixel_correction" Element (ns_sidd200, "AsymmetricPixelCorrection") (TClass "sidd200.FilterType") One false NoDefault].

(** sidd_v2_0_0.py:3175-3239. *)
Definition c_sidd200_InteractiveProcessingType : Class := mkClass "sidd200.InteractiveProcessingType" (ns_sidd200, "InteractiveProcessingType") [
    mkField "geometric_transform" Element (ns_sidd200, "GeometricTransform") (TClass "sidd200.GeometricTransformType") One true NoDefault;
    mkField "sharpness_enhancement" Element (ns_sidd200, "SharpnessEnhancement") (TClass "sidd200.SharpnessEnhancementType") One true NoDefault;
    mkField "color_space_transform" Element (ns_sidd200, "ColorSpaceTransform") (TClass "sidd200.ColorSpaceTransformType") One false NoDefault;
    mkField "dynamic_range_adjustment" Element (ns_sidd200, "DynamicRangeAdjustment") (TClass "sidd200.DynamicRangeAdjustmentType") One true NoDefault;
    mkField "tonal_transfer_curve" Element (ns_sidd200, "TonalTransferCurve") (TClass "sidd200.NewLookupTableType") One false NoDefault;
    mkField "band" Attribute ("", "band") (TPrim PInt) One true NoDefault].

(** sidd_v2_0_0.py:3242-3276. *)
Definition c_sidd200_NonInteractiveProcessingType : Class := mkClass "sidd200.NonInteractiveProcessingType" (ns_sidd200, "NonInteractiveProcessingType") [
    mkField "product_generation_options" Element (ns_sidd200, "ProductGenerationOptions") (TClass "sidd200.ProductGenerationOptionsType") One true NoDefault;
    mkField "rrds" Element (ns_sidd200, "RRDS") (TClass "sidd200.RRDSType") One true NoDefault;
    mkField "band" Attribute ("", "band") (TPrim PInt) One true NoDefault].

(** sidd_v2_0_0.py:3279-3346. *)
Definition c_sidd200_ProductDisplayType : Class := mkClass "sidd200.ProductDisplayType" (ns_sidd200, "ProductDisplayType") [
    mkField "pixel_type" Element (ns_sidd200, "PixelType") (TEnum "sidd200.PixelType") One true NoDefault;
    mkField "num_bands" Element (ns_sidd200, "NumBands") (TPrim PInt) One true NoDefault;
    mkField "default_band_display" Element (ns_sidd200, "DefaultBandDisplay") (TPrim PInt) One false NoDefault;
    mkField "non_interactive_processing" Element (ns_sidd200, "NonInteractiveProcessing") (TClass "sidd200.NonInteractiveProcessingType") Many true NoDefault;
    mkField "interactive_processing" Element (ns_sidd200, "InteractiveProcessing") (TClass "sidd200.InteractiveProcessingType") Many true NoDefault;
    mkField "display_extension" Element (ns_sidd200, "DisplayExtension") (TClass "common10.ParameterType") Many false NoDefault].

(** sidd_v2_0_0.py:3349-3469. *)
Definition c_sidd200_SIDD : Class := mkClass "sidd200.SIDD" (ns_sidd200, "SIDD") [
    mkField "product_creation" Element (ns_sidd200, "ProductCreation") (TClass "sidd200.ProductCreationType") One true NoDefault;
    mkField "display" Element (ns_sidd200, "Display") (TClass "sidd200.ProductDisplayType") One true NoDefault;
    mkField "geo_data" Element (ns_sidd200, "GeoData") (TClass "sidd200.GeoDataType") One true NoDefault;
    mkField "measurement" Element (ns_sidd200, "Measurement") (TClass "sidd200.MeasurementType") One true NoDefault;
    mkField "exploitation_features" Element (ns_sidd200, "ExploitationFeatures") (TClass "sidd200.ExploitationFeaturesType") One true NoDefault;
    mkField "downstream_reprocessing" Element (ns_sidd200, "DownstreamReprocessing") (TClass "sidd200.DownstreamReprocessingType") One false NoDefault;
    mkField "error_statistics" Element (ns_sidd200, "ErrorStatistics") (TClass "common10.ErrorStatisticsType") One false NoDefault;
    mkField "radiometric" Element (ns_sidd200, "Radiometric") (TClass "common10.RadiometricType") One false NoDefault;
    mkField "match_info" Element (ns_sidd200, "MatchInfo") (TClass "common10.MatchInfoType") One false NoDefault;
    mkField "compression" Element (ns_sidd200, "Compression") (TClass "sidd200.CompressionType") One false NoDefault;
    mkField "digital_elevation_data" Element (ns_sidd200, "DigitalElevationData") (TClass "sidd200.DigitalElevationDataType") One false NoDefault;
    mkField "product_processing" Element (ns_sidd200, "ProductProcessing") (TClass "sidd200.ProductProcessingType") One false NoDefault;
    mkField "annotations" Element (ns_sidd200, "Annotations") (TClass "sidd200.AnnotationsType") One false NoDefault].

(** sidd_v1_0_0.py:57-61. *)
Definition c_sidd100_AcheivedResolutionType : Class := mkClass "sidd100.AcheivedResolutionType" (ns_sidd100, "AcheivedResolutionType") [].

(** sidd_v1_0_0.py:64-90. *)
Definition c_sidd100_ClassificationGuidanceType : Class := mkClass "sidd100.ClassificationGuidanceType" (ns_sidd100, "ClassificationGuidanceType") [
    mkField "authority" Element (ns_sidd100, "Authority") (TPrim PStr) One true NoDefault;
    mkField "date" Element (ns_sidd100, "Date") (TPrim PDate) One true NoDefault].

(** sidd_v1_0_0.py:93-119. *)
Definition c_sidd100_DRAHistogramOverridesType : Class := mkClass "sidd100.DRAHistogramOverridesType" (ns_sidd100, "DRAHistogramOverridesType") [
    mkField "clip_min" Element (ns_sidd100, "ClipMin") (TPrim PInt) One true NoDefault;
    mkField "clip_max" Element (ns_sidd100, "ClipMax") (TPrim PInt) One true NoDefault].

(** sidd_v1_0_0.py:134-154. *)
Definition c_sidd100_Lookup3TableType : Class := mkClass "sidd100.Lookup3TableType" (ns_sidd100, "Lookup3TableType") [
    mkField "value" Content ("", "") (TPrim PStr) Tokens false NoDefault;
    mkField "size" Attribute ("", "size") (TPrim PInt) One true NoDefault].

(** sidd_v1_0_0.py:157-176. *)
Definition c_sidd100_LookupTableType : Class := mkClass "sidd100.LookupTableType" (ns_sidd100, "LookupTableType") [
    mkField "value" Content ("", "") (TPrim PInt) Tokens false NoDefault;
    mkField "size" Attribute ("", "size") (TPrim PInt) One true NoDefault].

(** sidd_v1_0_0.py:189-216. *)
Definition c_sidd100_MonitorCompensationAppliedType : Class := mkClass "sidd100.MonitorCompensationAppliedType" (ns_sidd100, "MonitorCompensationAppliedType") [
    mkField "gamma" Element (ns_sidd100, "Gamma") (TPrim PFloat) One true NoDefault;
    mkField "xmin" Element (ns_sidd100, "XMin") (TPrim PFloat) One true NoDefault].

(** sidd_v1_0_0.py:227-271. *)
Definition c_sidd100_ProcessorInformationType : Class := mkClass "sidd100.ProcessorInformationType" (ns_sidd100, "ProcessorInformationType") [
    mkField "application" Element (ns_sidd100, "Application") (TPrim PStr) One true NoDefault;
    mkField "processing_date_time" Element (ns_sidd100, "ProcessingDateTime") (TPrim PDateTime) One true NoDefault;
    mkField "site" Element (ns_sidd100, "Site") (TPrim PStr) One true NoDefault;
    mkField "profile" Element (ns_sidd100, "Profile") (TPrim PStr) One false NoDefault].

(** sidd_v1_0_0.py:274-343. *)
Definition c_sidd100_AnnotationObjectType : Class := mkClass "sidd100.AnnotationObjectType" (ns_sidd100, "AnnotationObjectType") [
    mkField "point" Element (ns_sidd100, "Point") (TClass "sfa.PointType") One false NoDefault;
    mkField "line" Element (ns_sidd100, "Line") (TClass "sfa.LineType") One false NoDefault;
    mkField "linear_ring" Element (ns_sidd100, "LinearRing") (TClass "sfa.LinearRingType") One false NoDefault;
    mkField "polygon" Element (ns_sidd100, "Polygon") (TClass "sfa.PolygonType") One false NoDefault;
    mkField "polyhedral_surface" Element (ns_sidd100, "PolyhedralSurface") (TClass "sfa.PolyhedralSurfaceType") One false NoDefault;
    mkField "multi_polygon" Element (ns_sidd100, "MultiPolygon") (TClass "sfa.MultiPolygonType") One false NoDefault;
    mkField "multi_line_string" Element (ns_sidd100, "MultiLineString") (TClass "sfa.MultiLineStringType") One false NoDefault;
    mkField "multi_point" Element (ns_sidd100, "MultiPoint") (TClass "sfa.MultiPointType") One false NoDefault].

(** sidd_v1_0_0.py:346-360. *)
Definition c_sidd100_BaseProjectionType : Class := mkClass "sidd100.BaseProjectionType" (ns_sidd100, "BaseProjectionType") [
    mkField "reference_point" Element (ns_sidd100, "ReferencePoint") (TClass "common01.ReferencePointType") One true NoDefault].

(** sidd_v1_0_0.py:363-379. *)
Definition c_sidd100_ColorDisplayRemapType : Class := mkClass "sidd100.ColorDisplayRemapType" (ns_sidd100, "ColorDisplayRemapType") [
    mkField "remap_lut" Element (ns_sidd100, "RemapLUT") (TClass "sidd100.Lookup3TableType") One true NoDefault].

(** sidd_v1_0_0.py:382-452. *)
Definition c_sidd100_ExploitationFeaturesCollectionGeometryType : Class := mkClass "sidd100.ExploitationFeaturesCollectionGeometryType" (ns_sidd100, "ExploitationFeaturesCollectionGeometryType") [
    mkField "azimuth" Element (ns_sidd100, "Azimuth") (TPrim PFloat) One false NoDefault;
    mkField "slope" Element (ns_sidd100, "Slope") (TPrim PFloat) One false NoDefault;
    mkField "squint" Element (ns_sidd100, "Squint") (TPrim PFloat) One false NoDefault;
    mkField "graze" Element (ns_sidd100, "Graze") (TPrim PFloat) One false NoDefault;
    mkField "tilt" Element (ns_sidd100, "Tilt") (TPrim PFloat) One false NoDefault;
    mkField "extension" Element (ns_sidd100, "Extension") (TClass "common01.ParameterType") Many false NoDefault].

(** sidd_v1_0_0.py:455-512. *)
Definition c_sidd100_ExploitationFeaturesCollectionPhenomenologyType : Class := mkClass "sidd100.ExploitationFeaturesCollectionPhenomenologyType" (ns_sidd100, "ExploitationFeaturesCollectionPhenomenologyType") [
    mkField "shadow" Element (ns_sidd100, "Shadow") (TClass "common01.AngleMagnitudeType") One false NoDefault;
    mkField "layover" Element (ns_sidd100, "Layover") (TClass "common01.AngleMagnitudeType") One false NoDefault;
    mkField "multi_path" Element (ns_sidd100, "MultiPath") (TPrim PFloat) One false NoDefault;
    mkField "ground_track" Element (ns_sidd100, "GroundTrack") (TPrim PFloat) One false NoDefault;
    mkField "extension" Element (ns_sidd100, "Extension") (TClass "common01.ParameterType") Many false NoDefault].

(** sidd_v1_0_0.py:515-551. *)
Definition c_sidd100_ExploitationFeaturesProductType : Class := mkClass "sidd100.ExploitationFeaturesProductType" (ns_sidd100, "ExploitationFeaturesProductType") [
    mkField "resolution" Element (ns_sidd100, "Resolution") (TClass "common01.RowColDoubleType") One true NoDefault;
    mkField "north" Element (ns_sidd100, "North") (TPrim PFloat) One false NoDefault;
    mkField "extension" Element (ns_sidd100, "Extension") (TClass "common01.ParameterType") Many false NoDefault].

(** sidd_v1_0_0.py:554-572. *)
Definition c_sidd100_FootprintType : Class := mkClass "sidd100.FootprintType" (ns_sidd100, "FootprintType") [
    mkField "vertex" Element (ns_sidd100, "Vertex") (TClass "common01.LatLonVertexType") Many true NoDefault;
    mkField "size" Attribute ("", "size") (TPrim PInt) One true NoDefault].

(** sidd_v1_0_0.py:575-607. *)
Definition c_sidd100_GeographicInformationType : Class := mkClass "sidd100.GeographicInformationType" (ns_sidd100, "GeographicInformationType") [
    mkField "country_code" Element (ns_sidd100, "CountryCode") (TPrim PStr) Many false NoDefault;
    mkField "security_info" Element (ns_sidd100, "SecurityInfo") (TPrim PStr) One false NoDefault;
    mkField "geographic_info_extension" Element (ns_sidd100, "GeographicInfoExtension") (TClass "common01.ParameterType") Many false NoDefault].

(** sidd_v1_0_0.py:610-664. *)
Definition c_sidd100_GeometricChipType : Class := mkClass "sidd100.GeometricChipType" (ns_sidd100, "GeometricChipType") [
    mkField "chip_size" Element (ns_sidd100, "ChipSize") (TClass "common01.RowColIntType") One true NoDefault;
    mkField "original_upper_left_coordinate" Element (ns_sidd100, "OriginalUpperLeftCoordinate") (TClass "common01.RowColDoubleType") One true NoDefault;
    mkField "original_upper_right_coordinate" Element (ns_sidd100, "OriginalUpperRightCoordinate") (TClass "common01.RowColDoubleType") One true NoDefault;
    mkField "original_lower_left_coordinate" Element (ns_sidd100, "OriginalLowerLeftCoordinate") (TClass "common01.RowColDoubleType") One true NoDefault;
    mkField "original_lower_right_coordinate" Element (ns_sidd100, "OriginalLowerRightCoordinate") (TClass "common01.RowColDoubleType") One true NoDefault].

(** sidd_v1_0_0.py:667-693. *)
Definition c_sidd100_InputROIType : Class := mkClass "sidd100.InputROIType" (ns_sidd100, "InputROIType") [
    mkField "size" Element (ns_sidd100, "Size") (TClass "common01.RowColIntType") One true NoDefault;
    mkField "upper_left" Element (ns_sidd100, "UpperLeft") (TClass "common01.RowColIntType") One true NoDefault].

(** sidd_v1_0_0.py:696-745. *)
Definition c_sidd100_MonochromeDisplayRemapType : Class := mkClass "sidd100.MonochromeDisplayRemapType" (ns_sidd100, "MonochromeDisplayRemapType") [
    mkField "remap_type" Element (ns_sidd100, "RemapType") (TPrim PStr) One true NoDefault;
    mkField "remap_lut" Element (ns_sidd100, "RemapLUT") (TClass "sidd100.LookupTableType") One false NoDefault;
    mkField "remap_parameter" Element (ns_sidd100, "RemapParameter") (TClass "common01.ParameterType") Many false NoDefault].

(** sidd_v1_0_0.py:748-791. *)
Definition c_sidd100_ProcessingEventType : Class := mkClass "sidd100.ProcessingEventType" (ns_sidd100, "ProcessingEventType") [
    mkField "application_name" Element (ns_sidd100, "ApplicationName") (TPrim PStr) One true NoDefault;
    mkField "applied_date_time" Element (ns_sidd100, "AppliedDateTime") (TPrim PDateTime) One true NoDefault;
    mkField "interpolation_method" Element (ns_sidd100, "InterpolationMethod") (TPrim PStr) One false NoDefault;
    mkField "descriptor" Element (ns_sidd100, "Descriptor") (TClass "common01.ParameterType") Many false NoDefault].

(** sidd_v1_0_0.py:794-827. *)
Definition c_sidd100_ProcessingModuleType : Class := mkClass "sidd100.ProcessingModuleType" (ns_sidd100, "ProcessingModuleType") [
    mkField "module_name" Element (ns_sidd100, "ModuleName") (TClass "common01.ParameterType") One true NoDefault;
    mkField "module_parameter" Element (ns_sidd100, "ModuleParameter") (TClass "common01.ParameterType") Many false NoDefault;
    mkField "processing_module" Element (ns_sidd100, "ProcessingModule") (TClass "sidd100.ProcessingModuleType") Many false NoDefault].

(** sidd_v1_0_0.py:830-1088. *)
Definition c_sidd100_ProductClassificationType : Class := mkClass "sidd100.ProductClassificationType" (ns_sidd100, "ProductClassificationType") [
    mkField "security_extension" Element (ns_sidd100, "SecurityExtension") (TClass "common01.ParameterType") Many false NoDefault;
    mkField "desversion" Attribute (ns_ism, "DESVersion") (TPrim PInt) One true (FixedInt 4);
    mkField "resource_element" Attribute (ns_ism, "resourceElement") (TPrim PBool) One true (FixedBool true);
    mkField "create_date" Attribute (ns_ism, "createDate") (TPrim PDate) One true NoDefault;
    mkField "complies_with" Attribute (ns_ism, "compliesWith") (TEnum "ism.CVEnumISMCompliesWithValues") Tokens false NoDefault;
    mkField "classification" Attribute (ns_ism, "classification") (TEnum "ism.CVEnumISMClassificationAll") One true NoDefault;
    mkField "owner_producer" Attribute (ns_ism, "ownerProducer") (TEnum "ism.CVEnumISMOwnerProducerValues") Tokens true NoDefault;
    mkField "scicontrols" Attribute (ns_ism, "SCIcontrols") (TEnumOrStr "ism.CVEnumISMSCIControlsValuesvalue") Tokens false NoDefault;
    mkField "saridentifier" Attribute (ns_ism, "SARIdentifier") (TPrim PStr) Tokens false NoDefault;
    mkField "dissemination_controls" Attribute (ns_ism, "disseminationControls") (TEnumOrStr "ism.CVEnumISMDissemValuesvalue") Tokens false NoDefault;
    mkField "fgisource_open" Attribute (ns_ism, "FGIsourceOpen") (TEnum "ism.CVEnumISMFGIOpenValues") Tokens false NoDefault;
    mkField "fgisource_protected" Attribute (ns_ism, "FGIsourceProtected") (TEnum "ism.CVEnumISMFGIProtectedValues") Tokens false NoDefault;
    mkField "releasable_to" Attribute (ns_ism, "releasableTo") (TEnum "ism.CVEnumISMRelToValues") Tokens false NoDefault;
    mkField "non_icmarkings" Attribute (ns_ism, "nonICmarkings") (TEnum "ism.CVEnumISMNonICValues") Tokens false NoDefault;
    mkField "classified_by" Attribute (ns_ism, "classifiedBy") (TPrim PStr) One false NoDefault;
    mkField "compilation_reason" Attribute (ns_ism, "compilationReason") (TPrim PStr) One false NoDefault;
    mkField "derivatively_classified_by" Attribute (ns_ism, "derivativelyClassifiedBy") (TPrim PStr) One false NoDefault;
    mkField "classification_reason" Attribute (ns_ism, "classificationReason") (TPrim PStr) One false NoDefault;
    mkField "non_uscontrols" Attribute (ns_ism, "nonUSControls") (TEnum "ism.CVEnumISMNonUSControlsValues") Tokens false NoDefault;
    mkField "derived_from" Attribute (ns_ism, "derivedFrom") (TPrim PStr) One false NoDefault;
    mkField "declass_date" Attribute (ns_ism, "declassDate") (TPrim PDate) One false NoDefault;
    mkField "declass_event" Attribute (ns_ism, "declassEvent") (TPrim PStr) One false NoDefault;
    mkField "declass_exception" Attribute (ns_ism, "declassException") (TEnum "ism.CVEnumISM25X") One false NoDefault;
    mkField "type_of_exempted_source" Attribute (ns_ism, "typeOfExemptedSource") (TEnum "ism.CVEnumISMSourceMarked") One false NoDefault;
    mkField "date_of_exempted_source" Attribute (ns_ism, "dateOfExemptedSource") (TPrim PDate) One false NoDefault].

(** sidd_v1_0_0.py:1091-1119. *)
Definition c_sidd100_ProductPlaneType : Class := mkClass "sidd100.ProductPlaneType" (ns_sidd100, "ProductPlaneType") [
    mkField "row_unit_vector" Element (ns_sidd100, "RowUnitVector") (TClass "common01.XYZType") One true NoDefault;
    mkField "col_unit_vector" Element (ns_sidd100, "ColUnitVector") (TClass "common01.XYZType") One true NoDefault].

(** sidd_v1_0_0.py:1122-1167. *)
Definition c_sidd100_TxRcvPolarizationType : Class := mkClass "sidd100.TxRcvPolarizationType" (ns_sidd100, "TxRcvPolarizationType") [
    mkField "tx_polarization" Element (ns_sidd100, "TxPolarization") (TEnum "common01.PolarizationType") One true NoDefault;
    mkField "rcv_polarization" Element (ns_sidd100, "RcvPolarization") (TEnum "common01.PolarizationType") One true NoDefault;
    mkField "rcv_polarization_offset" Element (ns_sidd100, "RcvPolarizationOffset") (TPrim PFloat) One false NoDefault;
    mkField "processed" Element (ns_sidd100, "Processed") (TPrim PBool) One false NoDefault].

(** sidd_v1_0_0.py:1170-1208. *)
Definition c_sidd100_AnnotationType : Class := mkClass "sidd100.AnnotationType" (ns_sidd100, "AnnotationType") [
    mkField "identifier" Element (ns_sidd100, "Identifier") (TPrim PStr) One true NoDefault;
    mkField "spatial_reference_system" Element (ns_sidd100, "SpatialReferenceSystem") (TClass "sfa.ReferenceSystemType") One false NoDefault;
    mkField "object_value" Element (ns_sidd100, "Object") (TClass "sidd100.AnnotationObjectType") Many true NoDefault].

(** sidd_v1_0_0.py:1211-1233. *)
Definition c_sidd100_DownstreamReprocessingType : Class := mkClass "sidd100.DownstreamReprocessingType" (ns_sidd100, "DownstreamReprocessingType") [
    mkField "geometric_chip" Element (ns_sidd100, "GeometricChip") (TClass "sidd100.GeometricChipType") One false NoDefault;
    mkField "processing_event" Element (ns_sidd100, "ProcessingEvent") (TClass "sidd100.ProcessingEventType") Many false NoDefault].

(** sidd_v1_0_0.py:1236-1320. *)
Definition c_sidd100_ExploitationFeaturesCollectionInformationType : Class := mkClass "sidd100.ExploitationFeaturesCollectionInformationType" (ns_sidd100, "ExploitationFeaturesCollectionInformationType") [
    mkField "sensor_name" Element (ns_sidd100, "SensorName") (TPrim PStr) One true NoDefault;
    mkField "radar_mode" Element (ns_sidd100, "RadarMode") (TClass "common01.RadarModeType") One true NoDefault;
    mkField "collection_date_time" Element (ns_sidd100, "CollectionDateTime") (TPrim PDateTime) One true NoDefault;
    mkField "local_date_time" Element (ns_sidd100, "LocalDateTime") (TPrim PDateTime) One false NoDefault;
    mkField "collection_duration" Element (ns_sidd100, "CollectionDuration") (TPrim PFloat) One true NoDefault;
    mkField "resolution" Element (ns_sidd100, "Resolution") (TClass "common01.RangeAzimuthType") One false NoDefault;
    mkField "input_roi" Element (ns_sidd100, "InputROI") (TClass "sidd100.InputROIType") One false NoDefault;
    mkField "polarization" Element (ns_sidd100, "Polarization") (TClass "sidd100.TxRcvPolarizationType") Many false NoDefault].

(** sidd_v1_0_0.py:1323-1364. *)
Definition c_sidd100_GeographicCoverageType : Class := mkClass "sidd100.GeographicCoverageType" (ns_sidd100, "GeographicCoverageType") [
    mkField "georegion_identifier" Element (ns_sidd100, "GeoregionIdentifier") (TClass "common01.ParameterType") Many false NoDefault;
    mkField "footprint" Element (ns_sidd100, "Footprint") (TClass "sidd100.FootprintType") One true NoDefault;
    mkField "sub_region" Element (ns_sidd100, "SubRegion") (TClass "sidd100.GeographicCoverageType") Many false NoDefault;
    mkField "geographic_info" Element (ns_sidd100, "GeographicInfo") (TClass "sidd100.GeographicInformationType") One false NoDefault].

(** sidd_v1_0_0.py:1367-1392. *)
Definition c_sidd100_MeasurableProjectionType : Class := mkClass "sidd100.MeasurableProjectionType" (ns_sidd100, "MeasurableProjectionType") [
    mkField "reference_point" Element (ns_sidd100, "ReferencePoint") (TClass "common01.ReferencePointType") One true NoDefault;
    mkField "sample_spacing" Element (ns_sidd100, "SampleSpacing") (TClass "common01.RowColDoubleType") One true NoDefault;
    mkField "time_coapoly" Element (ns_sidd100, "TimeCOAPoly") (TClass "common01.Poly2DType") One true NoDefault].

(** sidd_v1_0_0.py:1395-1453. *)
Definition c_sidd100_PolynomialProjectionType : Class := mkClass "sidd100.PolynomialProjectionType" (ns_sidd100, "PolynomialProjectionType") [
    mkField "reference_point" Element (ns_sidd100, "ReferencePoint") (TClass "common01.ReferencePointType") One true NoDefault;
    mkField "row_col_to_lat" Element (ns_sidd100, "RowColToLat") (TClass "common01.Poly2DType") One true NoDefault;
    mkField "row_col_to_lon" Element (ns_sidd100, "RowColToLon") (TClass "common01.Poly2DType") One true NoDefault;
    mkField "row_col_to_alt" Element (ns_sidd100, "RowColToAlt") (TClass "common01.Poly2DType") One false NoDefault;
    mkField "lat_lon_to_row" Element (ns_sidd100, "LatLonToRow") (TClass "common01.Poly2DType") One true NoDefault;
    mkField "lat_lon_to_col" Element (ns_sidd100, "LatLonToCol") (TClass "common01.Poly2DType") One true NoDefault].

(** sidd_v1_0_0.py:1456-1523. *)
Definition c_sidd100_ProductCreationType : Class := mkClass "sidd100.ProductCreationType" (ns_sidd100, "ProductCreationType") [
    mkField "processor_information" Element (ns_sidd100, "ProcessorInformation") (TClass "sidd100.ProcessorInformationType") One true NoDefault;
    mkField "classification" Element (ns_sidd100, "Classification") (TClass "sidd100.ProductClassificationType") One true NoDefault;
    mkField "product_name" Element (ns_sidd100, "ProductName") (TPrim PStr) One true NoDefault;
    mkField "product_class" Element (ns_sidd100, "ProductClass") (TPrim PStr) One true NoDefault;
    mkField "product_type" Element (ns_sidd100, "ProductType") (TPrim PStr) One false NoDefault;
    mkField "product_creation_extension" Element (ns_sidd100, "ProductCreationExtension") (TClass "common01.ParameterType") Many false NoDefault].

(** sidd_v1_0_0.py:1526-1541. *)
Definition c_sidd100_ProductProcessingType : Class := mkClass "sidd100.ProductProcessingType" (ns_sidd100, "ProductProcessingType") [
    mkField "processing_module" Element (ns_sidd100, "ProcessingModule") (TClass "sidd100.ProcessingModuleType") Many true NoDefault].

(** sidd_v1_0_0.py:1544-1566. *)
Definition c_sidd100_RemapChoiceType : Class := mkClass "sidd100.RemapChoiceType" (ns_sidd100, "RemapChoiceType") [
    mkField "color_display_remap" Element (ns_sidd100, "ColorDisplayRemap") (TClass "sidd100.ColorDisplayRemapType") One false NoDefault;
    mkField "monochrome_display_remap" Element (ns_sidd100, "MonochromeDisplayRemap") (TClass "sidd100.MonochromeDisplayRemapType") One false NoDefault].

(** sidd_v1_0_0.py:1569-1603. *)
Definition c_sidd100_TargetInformationType : Class := mkClass "sidd100.TargetInformationType" (ns_sidd100, "TargetInformationType") [
    mkField "identifier" Element (ns_sidd100, "Identifier") (TClass "common01.ParameterType") Many true NoDefault;
    mkField "footprint" Element (ns_sidd100, "Footprint") (TClass "sidd100.FootprintType") One false NoDefault;
    mkField "target_information_extension" Element (ns_sidd100, "TargetInformationExtension") (TClass "common01.ParameterType") Many false NoDefault].

(** sidd_v1_0_0.py:1606-1620. *)
Definition c_sidd100_AnnotationsType : Class := mkClass "sidd100.AnnotationsType" (ns_sidd100, "AnnotationsType") [
    mkField "annotation" Element (ns_sidd100, "Annotation") (TClass "sidd100.AnnotationType") Many true NoDefault].

(** sidd_v1_0_0.py:1623-1649. *)
Definition c_sidd100_CylindricalProjectionType : Class := mkClass "sidd100.CylindricalProjectionType" (ns_sidd100, "CylindricalProjectionType") [
    mkField "reference_point" Element (ns_sidd100, "ReferencePoint") (TClass "common01.ReferencePointType") One true NoDefault;
    mkField "sample_spacing" Element (ns_sidd100, "SampleSpacing") (TClass "common01.RowColDoubleType") One true NoDefault;
    mkField "time_coapoly" Element (ns_sidd100, "TimeCOAPoly") (TClass "common01.Poly2DType") One true NoDefault;
    mkField "stripmap_direction" Element (ns_sidd100, "StripmapDirection") (TClass "common01.XYZType") One true NoDefault;
    mkField "curvature_radius" Element (ns_sidd100, "CurvatureRadius") (TPrim PFloat) One false NoDefault].

(** sidd_v1_0_0.py:1652-1684. *)
Definition c_sidd100_ExploitationFeaturesCollectionType : Class := mkClass "sidd100.ExploitationFeaturesCollectionType" (ns_sidd100, "ExploitationFeaturesCollectionType") [
    mkField "information" Element (ns_sidd100, "Information") (TClass "sidd100.ExploitationFeaturesCollectionInformationType") One true NoDefault;
    mkField "geometry" Element (ns_sidd100, "Geometry") (TClass "sidd100.ExploitationFeaturesCollectionGeometryType") One false NoDefault;
    mkField "phenomenology" Element (ns_sidd100, "Phenomenology") (TClass "sidd100.ExploitationFeaturesCollectionPhenomenologyType") One false NoDefault].

(** sidd_v1_0_0.py:1687-1710. *)
Definition c_sidd100_GeographicAndTargetType : Class := mkClass "sidd100.GeographicAndTargetType" (ns_sidd100, "GeographicAndTargetType") [
    mkField "geographic_coverage" Element (ns_sidd100, "GeographicCoverage") (TClass "sidd100.GeographicCoverageType") One true NoDefault;
    mkField "target_information" Element (ns_sidd100, "TargetInformation") (TClass "sidd100.TargetInformationType") Many false NoDefault].

(** sidd_v1_0_0.py:1713-1717. *)
Definition c_sidd100_GeographicProjectionType : Class := mkClass "sidd100.GeographicProjectionType" (ns_sidd100, "GeographicProjectionType") [
    mkField "reference_point" Element (ns_sidd100, "ReferencePoint") (TClass "common01.ReferencePointType") One true NoDefault;
    mkField "sample_spacing" Element (ns_sidd100, "SampleSpacing") (TClass "common01.RowColDoubleType") One true NoDefault;
    mkField "time_coapoly" Element (ns_sidd100, "TimeCOAPoly") (TClass "common01.Poly2DType") One true NoDefault].

(** sidd_v1_0_0.py:1720-1736. *)
Definition c_sidd100_PlaneProjectionType : Class := mkClass "sidd100.PlaneProjectionType" (ns_sidd100, "PlaneProjectionType") [
    mkField "reference_point" Element (ns_sidd100, "ReferencePoint") (TClass "common01.ReferencePointType") One true NoDefault;
    mkField "sample_spacing" Element (ns_sidd100, "SampleSpacing") (TClass "common01.RowColDoubleType") One true NoDefault;
    mkField "time_coapoly" Element (ns_sidd100, "TimeCOAPoly") (TClass "common01.Poly2DType") One true NoDefault;
    mkField "product_plane" Element (ns_sidd100, "ProductPlane") (TClass "sidd100.ProductPlaneType") One true NoDefault].

(** sidd_v1_0_0.py:1739-1813. *)
Definition c_sidd100_ProductDisplayType : Class := mkClass "sidd100.ProductDisplayType" (ns_sidd100, "ProductDisplayType") [
    mkField "pixel_type" Element (ns_sidd100, "PixelType") (TEnum "sidd100.PixelType") One true NoDefault;
    mkField "remap_information" Element (ns_sidd100, "RemapInformation") (TClass "sidd100.RemapChoiceType") One false NoDefault;
    mkField "magnification_method" Element (ns_sidd100, "MagnificationMethod") (TEnum "sidd100.MagnificationMethodType") One false NoDefault;
    mkField "decimation_method" Element (ns_sidd100, "DecimationMethod") (TEnum "sidd100.DecimationMethodType") One false NoDefault;
    mkField "drahistogram_overrides" Element (ns_sidd100, "DRAHistogramOverrides") (TClass "sidd100.DRAHistogramOverridesType") One false NoDefault;
    mkField "monitor_compensation_applied" Element (ns_sidd100, "MonitorCompensationApplied") (TClass "sidd100.MonitorCompensationAppliedType") One false NoDefault;
    mkField "display_extension" Element (ns_sidd100, "DisplayExtension") (TClass "common01.ParameterType") Many false NoDefault].

(** sidd_v1_0_0.py:1816-1852. *)
Definition c_sidd100_ExploitationFeaturesType : Class := mkClass "sidd100.ExploitationFeaturesType" (ns_sidd100, "ExploitationFeaturesType") [
    mkField "collection" Element (ns_sidd100, "Collection") (TClass "sidd100.ExploitationFeaturesType.Collection") Many true NoDefault;
    mkField "product" Element (ns_sidd100, "Product") (TClass "sidd100.ExploitationFeaturesProductType") One true NoDefault].

(** sidd_v1_0_0.py:1844-1852. *)
Definition c_sidd100_ExploitationFeaturesType_Collection : Class := mkClass "sidd100.ExploitationFeaturesType.Collection" (ns_sidd100, "Collection") [
    mkField "information" Element (ns_sidd100, "Information") (TClass "sidd100.ExploitationFeaturesCollectionInformationType") One true NoDefault;
    mkField "geometry" Element (ns_sidd100, "Geometry") (TClass "sidd100.ExploitationFeaturesCollectionGeometryType") One false NoDefault;
    mkField "phenomenology" Element (ns_sidd100, "Phenomenology") (TClass "sidd100.ExploitationFeaturesCollectionPhenomenologyType") One false NoDefault;
    mkField "identifier" Attribute ("", "identifier") (TPrim PStr) One true NoDefault].

(** sidd_v1_0_0.py:1855-1921. *)
Definition c_sidd100_MeasurementType : Class := mkClass "sidd100.MeasurementType" (ns_sidd100, "MeasurementType") [
    mkField "polynomial_projection" Element (ns_sidd100, "PolynomialProjection") (TClass "sidd100.PolynomialProjectionType") One false NoDefault;
    mkField "geographic_projection" Element (ns_sidd100, "GeographicProjection") (TClass "sidd100.GeographicProjectionType") One false NoDefault;
    mkField "plane_projection" Element (ns_sidd100, "PlaneProjection") (TClass "sidd100.PlaneProjectionType") One false NoDefault;
    mkField "cylindrical_projection" Element (ns_sidd100, "CylindricalProjection") (TClass "sidd100.CylindricalProjectionType") One false NoDefault;
    mkField "pixel_footprint" Element (ns_sidd100, "PixelFootprint") (TClass "common01.RowColIntType") One true NoDefault;
    mkField "arppoly" Element (ns_sidd100, "ARPPoly") (TClass "common01.XYZPolyType") One true NoDefault].

(** sidd_v1_0_0.py:1924-2018. *)
Definition c_sidd100_SIDD : Class := mkClass "sidd100.SIDD" (ns_sidd100, "SIDD") [
    mkField "product_creation" Element (ns_sidd100, "ProductCreation") (TClass "sidd100.ProductCreationType") One true NoDefault;
    mkField "display" Element (ns_sidd100, "Display") (TClass "sidd100.ProductDisplayType") One true NoDefault;
    mkField "geographic_and_target" Element (ns_sidd100, "GeographicAndTarget") (TClass "sidd100.GeographicAndTargetType") One true NoDefault;
    mkField "measurement" Element (ns_sidd100, "Measurement") (TClass "sidd100.MeasurementType") One true NoDefault;
    mkField "exploitation_features" Element (ns_sidd100, "ExploitationFeatures") (TClass "sidd100.ExploitationFeaturesType") One true NoDefault;
    mkField "product_processing" Element (ns_sidd100, "ProductProcessing") (TClass "sidd100.ProductProcessingType") One false NoDefault;
    mkField "downstream_reprocessing" Element (ns_sidd100, "DownstreamReprocessing") (TClass "sidd100.DownstreamReprocessingType") One false NoDefault;
    mkField "error_statistics" Element (ns_sidd100, "ErrorStatistics") (TClass "common01.ErrorStatisticsType") One false NoDefault;
    mkField "radiometric" Element (ns_sidd100, "Radiometric") (TClass "common01.RadiometricType") One false NoDefault;
    mkField "annotations" Element (ns_sidd100, "Annotations") (TClass "sidd100.AnnotationsType") One false NoDefault].

Definition sidd_classes : list Class := [
  c_sidd300_AccuracyType;
  c_sidd300_AcheivedResolutionType;
  c_sidd300_ClassificationGuidanceType;
  c_sidd300_DRAHistogramOverridesType;
  c_sidd300_DRAOverrides;
  c_sidd300_DRAParameters;
  c_sidd300_FilterBankCoefType;
  c_sidd300_FilterBankCoefType_Coef;
  c_sidd300_FilterKernelCoefType;
  c_sidd300_FilterKernelCoefType_Coef;
  c_sidd300_LayerType;
  c_sidd300_Lookup3TableType;
  c_sidd300_LookupTableType;
  c_sidd300_PredefinedLookupType;
  c_sidd300_ProcessorInformationType;
  c_sidd300_AnnotationObjectType;
  c_sidd300_BankCustomType;
  c_sidd300_BaseProjectionType;
  c_sidd300_ColorDisplayRemapType;
  c_sidd300_ColorManagementModuleType;
  c_sidd300_DynamicRangeAdjustmentType;
  c_sidd300_ExploitationFeaturesCollectionGeometryType;
  c_sidd300_ExploitationFeaturesCollectionPhenomenologyType;
  c_sidd300_GeographicCoordinatesType;
  c_sidd300_GeometricChipType;
  c_sidd300_GeopositioningType;
  c_sidd300_ImageCornersType;
  c_sidd300_ImageCornersType_ICP;
  c_sidd300_InputROIType;
  c_sidd300_KernelCustomType;
  c_sidd300_LUTInfoType;
  c_sidd300_LayerInfoType;
  c_sidd300_MonochromeDisplayRemapType;
  c_sidd300_Orientation;
  c_sidd300_PolygonType;
  c_sidd300_PositionalAccuracyType;
  c_sidd300_PredefinedFilterType;
  c_sidd300_ProcTxRcvPolarizationType;
  c_sidd300_ProcessingEventType;
  c_sidd300_ProcessingModuleType;
  c_sidd300_ProductClassificationType;
  c_sidd300_ProductPlaneType;
  c_sidd300_TxRcvPolarizationType;
  c_sidd300_ValidDataType;
  c_sidd300_AnnotationType;
  c_sidd300_ColorSpaceTransformType;
  c_sidd300_CustomLookupType;
  c_sidd300_DigitalElevationDataType;
  c_sidd300_DownstreamReprocessingType;
  c_sidd300_ExploitationFeaturesCollectionInformationType;
  c_sidd300_ExploitationFeaturesProductType;
  c_sidd300_FilterBankType;
  c_sidd300_FilterKernelType;
  c_sidd300_GeoDataType;
  c_sidd300_J2KSubtype;
  c_sidd300_MeasurableProjectionType;
  c_sidd300_PolynomialProjectionType;
  c_sidd300_ProductCreationType;
  c_sidd300_ProductProcessingType;
  c_sidd300_RemapChoiceType;
  c_sidd300_AnnotationsType;
  c_sidd300_CylindricalProjectionType;
  c_sidd300_ExploitationFeaturesCollectionType;
  c_sidd300_FilterType;
  c_sidd300_GeographicProjectionType;
  c_sidd300_J2KType;
  c_sidd300_NewLookupTableType;
  c_sidd300_PlaneProjectionType;
  c_sidd300_BandEqualizationType;
  c_sidd300_BandEqualizationType_BandLUT;
  c_sidd300_CompressionType;
  c_sidd300_ExploitationFeaturesType;
  c_sidd300_ExploitationFeaturesType_Collection;
  c_sidd300_MeasurementType;
  c_sidd300_RRDSType;
  c_sidd300_ScalingType;
  c_sidd300_SharpnessEnhancementType;
  c_sidd300_GeometricTransformType;
  c_sidd300_ProductGenerationOptionsType;
  c_sidd300_InteractiveProcessingType;
  c_sidd300_NonInteractiveProcessingType;
  c_sidd300_ProductDisplayType;
  c_sidd300_SIDD;
  c_sidd200_AccuracyType;
  c_sidd200_AcheivedResolutionType;
  c_sidd200_ClassificationGuidanceType;
  c_sidd200_DRAHistogramOverridesType;
  c_sidd200_DRAOverrides;
  c_sidd200_DRAParameters;
  c_sidd200_FilterBankCoefType;
  c_sidd200_FilterBankCoefType_Coef;
  c_sidd200_FilterKernelCoefType;
  c_sidd200_FilterKernelCoefType_Coef;
  c_sidd200_LayerType;
  c_sidd200_Lookup3TableType;
  c_sidd200_LookupTableType;
  c_sidd200_PredefinedLookupType;
  c_sidd200_ProcessorInformationType;
  c_sidd200_AnnotationObjectType;
  c_sidd200_BankCustomType;
  c_sidd200_BaseProjectionType;
  c_sidd200_ColorDisplayRemapType;
  c_sidd200_ColorManagementModuleType;
  c_sidd200_DynamicRangeAdjustmentType;
  c_sidd200_ExploitationFeaturesCollectionGeometryType;
  c_sidd200_ExploitationFeaturesCollectionPhenomenologyType;
  c_sidd200_GeographicCoordinatesType;
  c_sidd200_GeometricChipType;
  c_sidd200_GeopositioningType;
  c_sidd200_ImageCornersType;
  c_sidd200_ImageCornersType_ICP;
  c_sidd200_InputROIType;
  c_sidd200_KernelCustomType;
  c_sidd200_LUTInfoType;
  c_sidd200_LayerInfoType;
  c_sidd200_MonochromeDisplayRemapType;
  c_sidd200_Orientation;
  c_sidd200_PolygonType;
  c_sidd200_PositionalAccuracyType;
  c_sidd200_PredefinedFilterType;
  c_sidd200_ProcTxRcvPolarizationType;
  c_sidd200_ProcessingEventType;
  c_sidd200_ProcessingModuleType;
  c_sidd200_ProductClassificationType;
  c_sidd200_ProductPlaneType;
  c_sidd200_TxRcvPolarizationType;
  c_sidd200_ValidDataType;
  c_sidd200_AnnotationType;
  c_sidd200_ColorSpaceTransformType;
  c_sidd200_CustomLookupType;
  c_sidd200_DigitalElevationDataType;
  c_sidd200_DownstreamReprocessingType;
  c_sidd200_ExploitationFeaturesCollectionInformationType;
  c_sidd200_ExploitationFeaturesProductType;
  c_sidd200_FilterBankType;
  c_sidd200_FilterKernelType;
  c_sidd200_GeoDataType;
  c_sidd200_J2KSubtype;
  c_sidd200_MeasurableProjectionType;
  c_sidd200_PolynomialProjectionType;
  c_sidd200_ProductCreationType;
  c_sidd200_ProductProcessingType;
  c_sidd200_RemapChoiceType;
  c_sidd200_AnnotationsType;
  c_sidd200_CylindricalProjectionType;
  c_sidd200_ExploitationFeaturesCollectionType;
  c_sidd200_FilterType;
  c_sidd200_GeographicProjectionType;
  c_sidd200_J2KType;
  c_sidd200_NewLookupTableType;
  c_sidd200_PlaneProjectionType;
  c_sidd200_BandEqualizationType;
  c_sidd200_BandEqualizationType_BandLUT;
  c_sidd200_CompressionType;
  c_sidd200_ExploitationFeaturesType;
  c_sidd200_ExploitationFeaturesType_Collection;
  c_sidd200_MeasurementType;
  c_sidd200_RRDSType;
  c_sidd200_ScalingType;
  c_sidd200_SharpnessEnhancementType;
  c_sidd200_GeometricTransformType;
  c_sidd200_ProductGenerationOptionsType;
  c_sidd200_InteractiveProcessingType;
  c_sidd200_NonInteractiveProcessingType;
  c_sidd200_ProductDisplayType;
  c_sidd200_SIDD;
  c_sidd100_AcheivedResolutionType;
  c_sidd100_ClassificationGuidanceType;
  c_sidd100_DRAHistogramOverridesType;
  c_sidd100_Lookup3TableType;
  c_sidd100_LookupTableType;
  c_sidd100_MonitorCompensationAppliedType;
  c_sidd100_ProcessorInformationType;
  c_sidd100_AnnotationObjectType;
  c_sidd100_BaseProjectionType;
  c_sidd100_ColorDisplayRemapType;
  c_sidd100_ExploitationFeaturesCollectionGeometryType;
  c_sidd100_ExploitationFeaturesCollectionPhenomenologyType;
  c_sidd100_ExploitationFeaturesProductType;
  c_sidd100_FootprintType;
  c_sidd100_GeographicInformationType;
  c_sidd100_GeometricChipType;
  c_sidd100_InputROIType;
  c_sidd100_MonochromeDisplayRemapType;
  c_sidd100_ProcessingEventType;
  c_sidd100_ProcessingModuleType;
  c_sidd100_ProductClassificationType;
  c_sidd100_ProductPlaneType;
  c_sidd100_TxRcvPolarizationType;
  c_sidd100_AnnotationType;
  c_sidd100_DownstreamReprocessingType;
  c_sidd100_ExploitationFeaturesCollectionInformationType;
  c_sidd100_GeographicCoverageType;
  c_sidd100_MeasurableProjectionType;
  c_sidd100_PolynomialProjectionType;
  c_sidd100_ProductCreationType;
  c_sidd100_ProductProcessingType;
  c_sidd100_RemapChoiceType;
  c_sidd100_TargetInformationType;
  c_sidd100_AnnotationsType;
  c_sidd100_CylindricalProjectionType;
  c_sidd100_ExploitationFeaturesCollectionType;
  c_sidd100_GeographicAndTargetType;
  c_sidd100_GeographicProjectionType;
  c_sidd100_PlaneProjectionType;
  c_sidd100_ProductDisplayType;
  c_sidd100_ExploitationFeaturesType;
  c_sidd100_ExploitationFeaturesType_Collection;
  c_sidd100_MeasurementType;
  c_sidd100_SIDD].
