(** The enumerations of src/aws/osml/formats and the namespaces of its dataclasses; a table made by a script from the Python source.
    A member is given by its value; the values 1 and -1 of the two enumerations of integers are given as texts. *)
Require Import ZArith String List.
Require Import Verif.SchemaModel.
Import ListNotations.
Local Open Scope string_scope.

(** __NAMESPACE__ of the modules. *)
Definition ns_sicd121 : string := "urn:SICD:1.2.1".
Definition ns_sicd130 : string := "urn:SICD:1.3.0".
Definition ns_sidd100 : string := "urn:SIDD:1.0.0".
Definition ns_sidd200 : string := "urn:SIDD:2.0.0".
Definition ns_sidd300 : string := "urn:SIDD:3.0.0".
Definition ns_common01 : string := "urn:SICommon:0.1".
Definition ns_common10 : string := "urn:SICommon:1.0".
Definition ns_sfa : string := "urn:SFA:1.2.0".
Definition ns_ism13 : string := "urn:us:gov:ic:ism:13".
Definition ns_ism : string := "urn:us:gov:ic:ism".

(** sicommon_types_v1_0.py:82-84. *)
Definition e_common10_CollectIdentifierType : string * list string := ("common10.CollectIdentifierType", [
  "MONOSTATIC"; "BISTATIC"]).

(** sicommon_types_v1_0.py:109-113. *)
Definition e_common10_CornerStringType : string * list string := ("common10.CornerStringType", [
  "1:FRFC"; "2:FRLC"; "3:LRLC"; "4:LRFC"]).

(** sicommon_types_v1_0.py:116-119. *)
Definition e_common10_ErrorFrameType : string * list string := ("common10.ErrorFrameType", [
  "ECF"; "RIC_ECF"; "RIC_ECI"]).

(** sicommon_types_v1_0.py:385-389. *)
Definition e_common10_ModeIdentifierType : string * list string := ("common10.ModeIdentifierType", [
  "SPOTLIGHT"; "STRIPMAP"; "DYNAMIC STRIPMAP"; "SCANSAR"]).

(** sicommon_types_v1_0.py:392-394. *)
Definition e_common10_NoiseLevelNoiseLevelType : string * list string := ("common10.NoiseLevelNoiseLevelType", [
  "ABSOLUTE"; "RELATIVE"]).

(** sicommon_types_v1_0.py:414-425. *)
Definition e_common10_Polarization1Typevalue : string * list string := ("common10.Polarization1Typevalue", [
  "V"; "H"; "X"; "Y"; "S"; "E"; "RHC"; "LHC"; "OTHER"; "UNKNOWN"; "SEQUENCE"]).

(** sicommon_types_v1_0.py:517-519. *)
Definition e_common10_RadiometricTypeSigmaZeroSFIncidenceMap : string * list string := ("common10.RadiometricTypeSigmaZeroSFIncidenceMap", [
  "APPLIED"; "NOT_APPLIED"]).

(** sidd_v3_0_0.py:223-229. *)
Definition e_sidd300_DownsamplingMethodType : string * list string := ("sidd300.DownsamplingMethodType", [
  "DECIMATE"; "MAX PIXEL"; "AVERAGE"; "NEAREST NEIGHBOR"; "BILINEAR"; "LAGRANGE"]).

(** sidd_v3_0_0.py:232-239. *)
Definition e_sidd300_EarthModelType : string * list string := ("sidd300.EarthModelType", [
  "WGS_84"]).

(** sidd_v3_0_0.py:242-243. *)
Definition e_sidd300_EqualizationAlgorithmType : string * list string := ("sidd300.EqualizationAlgorithmType", [
  "1DLUT"]).

(** sidd_v3_0_0.py:298-302. *)
Definition e_sidd300_FilterDatabaseNameType : string * list string := ("sidd300.FilterDatabaseNameType", [
  "BILINEAR"; "CUBIC"; "LAGRANGE"; "NEAREST NEIGHBOR"]).

(** sidd_v3_0_0.py:357-359. *)
Definition e_sidd300_FilterOperationType : string * list string := ("sidd300.FilterOperationType", [
  "CONVOLUTION"; "CORRELATION"]).

(** sidd_v3_0_0.py:362-364. *)
Definition e_sidd300_GeopositioningTypeCoordinateSystemType : string * list string := ("sidd300.GeopositioningTypeCoordinateSystemType", [
  "GCS"; "UTM"]).

(** sidd_v3_0_0.py:367-368. *)
Definition e_sidd300_GeopositioningTypeGeodeticDatum : string * list string := ("sidd300.GeopositioningTypeGeodeticDatum", [
  "World Geodetic System 1984"]).

(** sidd_v3_0_0.py:371-372. *)
Definition e_sidd300_GeopositioningTypeReferenceEllipsoid : string * list string := ("sidd300.GeopositioningTypeReferenceEllipsoid", [
  "World Geodetic System 1984"]).

(** sidd_v3_0_0.py:375-376. *)
Definition e_sidd300_GeopositioningTypeSoundingDatum : string * list string := ("sidd300.GeopositioningTypeSoundingDatum", [
  "Mean Sea Level"]).

(** sidd_v3_0_0.py:379-380. *)
Definition e_sidd300_GeopositioningTypeVerticalDatum : string * list string := ("sidd300.GeopositioningTypeVerticalDatum", [
  "Mean Sea Level"]).

(** sidd_v3_0_0.py:455-464. *)
Definition e_sidd300_MeasurementTypeARPFlag : string * list string := ("sidd300.MeasurementTypeARPFlag", [
  "REALTIME"; "PREDICTED"; "POST PROCESSED"]).

(** sidd_v3_0_0.py:467-472. *)
Definition e_sidd300_PixelType : string * list string := ("sidd300.PixelType", [
  "MONO8I"; "MONO8LU"; "MONO16I"; "RGB8LU"; "RGB24I"]).

(** sidd_v3_0_0.py:556-563. *)
Definition e_sidd300_RangeAdjustmentAlgorithmType : string * list string := ("sidd300.RangeAdjustmentAlgorithmType", [
  "AUTO"; "MANUAL"; "NONE"]).

(** sidd_v3_0_0.py:566-570. *)
Definition e_sidd300_RenderingIntentType : string * list string := ("sidd300.RenderingIntentType", [
  "PERCEPTUAL"; "SATURATION"; "RELATIVE"; "ABSOLUTE"]).

(** sidd_v3_0_0.py:573-582. *)
Definition e_sidd300_ShadowDirectionType : string * list string := ("sidd300.ShadowDirectionType", [
  "UP"; "DOWN"; "LEFT"; "RIGHT"; "ARBITRARY"]).

(** sidd_v2_0_0.py:223-229. *)
Definition e_sidd200_DownsamplingMethodType : string * list string := ("sidd200.DownsamplingMethodType", [
  "DECIMATE"; "MAX PIXEL"; "AVERAGE"; "NEAREST NEIGHBOR"; "BILINEAR"; "LAGRANGE"]).

(** sidd_v2_0_0.py:232-239. *)
Definition e_sidd200_EarthModelType : string * list string := ("sidd200.EarthModelType", [
  "WGS_84"]).

(** sidd_v2_0_0.py:242-243. *)
Definition e_sidd200_EqualizationAlgorithmType : string * list string := ("sidd200.EqualizationAlgorithmType", [
  "1DLUT"]).

(** sidd_v2_0_0.py:298-302. *)
Definition e_sidd200_FilterDatabaseNameType : string * list string := ("sidd200.FilterDatabaseNameType", [
  "BILINEAR"; "CUBIC"; "LAGRANGE"; "NEAREST NEIGHBOR"]).

(** sidd_v2_0_0.py:357-359. *)
Definition e_sidd200_FilterOperationType : string * list string := ("sidd200.FilterOperationType", [
  "CONVOLUTION"; "CORRELATION"]).

(** sidd_v2_0_0.py:362-364. *)
Definition e_sidd200_GeopositioningTypeCoordinateSystemType : string * list string := ("sidd200.GeopositioningTypeCoordinateSystemType", [
  "GCS"; "UTM"]).

(** sidd_v2_0_0.py:367-368. *)
Definition e_sidd200_GeopositioningTypeGeodeticDatum : string * list string := ("sidd200.GeopositioningTypeGeodeticDatum", [
  "World Geodetic System 1984"]).

(** sidd_v2_0_0.py:371-372. *)
Definition e_sidd200_GeopositioningTypeReferenceEllipsoid : string * list string := ("sidd200.GeopositioningTypeReferenceEllipsoid", [
  "World Geodetic System 1984"]).

(** sidd_v2_0_0.py:375-376. *)
Definition e_sidd200_GeopositioningTypeSoundingDatum : string * list string := ("sidd200.GeopositioningTypeSoundingDatum", [
  "Mean Sea Level"]).

(** sidd_v2_0_0.py:379-380. *)
Definition e_sidd200_GeopositioningTypeVerticalDatum : string * list string := ("sidd200.GeopositioningTypeVerticalDatum", [
  "Mean Sea Level"]).

(** sidd_v2_0_0.py:455-464. *)
Definition e_sidd200_MeasurementTypeARPFlag : string * list string := ("sidd200.MeasurementTypeARPFlag", [
  "REALTIME"; "PREDICTED"; "POST PROCESSED"]).

(** sidd_v2_0_0.py:467-472. *)
Definition e_sidd200_PixelType : string * list string := ("sidd200.PixelType", [
  "MONO8I"; "MONO8LU"; "MONO16I"; "RGB8LU"; "RGB24I"]).

(** sidd_v2_0_0.py:556-563. *)
Definition e_sidd200_RangeAdjustmentAlgorithmType : string * list string := ("sidd200.RangeAdjustmentAlgorithmType", [
  "AUTO"; "MANUAL"; "NONE"]).

(** sidd_v2_0_0.py:566-570. *)
Definition e_sidd200_RenderingIntentType : string * list string := ("sidd200.RenderingIntentType", [
  "PERCEPTUAL"; "SATURATION"; "RELATIVE"; "ABSOLUTE"]).

(** sidd_v2_0_0.py:573-582. *)
Definition e_sidd200_ShadowDirectionType : string * list string := ("sidd200.ShadowDirectionType", [
  "UP"; "DOWN"; "LEFT"; "RIGHT"; "ARBITRARY"]).

(** sidd_v1_0_0.py:122-131. *)
Definition e_sidd100_DecimationMethodType : string * list string := ("sidd100.DecimationMethodType", [
  "NEAREST_NEIGHBOR"; "BILINEAR"; "BRIGHTEST_PIXEL"; "LAGRANGE"]).

(** sidd_v1_0_0.py:179-186. *)
Definition e_sidd100_MagnificationMethodType : string * list string := ("sidd100.MagnificationMethodType", [
  "NEAREST_NEIGHBOR"; "BILINEAR"; "LAGRANGE"]).

(** sidd_v1_0_0.py:219-224. *)
Definition e_sidd100_PixelType : string * list string := ("sidd100.PixelType", [
  "MONO8I"; "MONO8LU"; "MONO16I"; "RGB8LU"; "RGB24I"]).

(** sicommon_types.py:58-60. *)
Definition e_common01_CollectIdentifierType : string * list string := ("common01.CollectIdentifierType", [
  "MONOSTATIC"; "BISTATIC"]).

(** sicommon_types.py:85-89. *)
Definition e_common01_CornerStringType : string * list string := ("common01.CornerStringType", [
  "1:FRFC"; "2:FRLC"; "3:LRLC"; "4:LRFC"]).

(** sicommon_types.py:92-95. *)
Definition e_common01_ErrorFrameType : string * list string := ("common01.ErrorFrameType", [
  "ECF"; "RIC_ECF"; "RIC_ECI"]).

(** sicommon_types.py:98-100. *)
Definition e_common01_GammaZeroSFIncidenceMapType : string * list string := ("common01.GammaZeroSFIncidenceMapType", [
  "APPILED"; "NOT_APPLIED"]).

(** sicommon_types.py:340-344. *)
Definition e_common01_ModeIdentifierType : string * list string := ("common01.ModeIdentifierType", [
  "SPOTLIGHT"; "STRIPMAP"; "DYNAMIC STRIPMAP"; "SCANSAR"]).

(** sicommon_types.py:364-369. *)
Definition e_common01_PolarizationType : string * list string := ("common01.PolarizationType", [
  "V"; "H"; "RHC"; "LHC"; "OTHER"]).

(** sicommon_types.py:563-565. *)
Definition e_common01_SigmaZeroSFIncidenceMapType : string * list string := ("common01.SigmaZeroSFIncidenceMapType", [
  "APPLIED"; "NOT_APPLIED"]).

(** cvenum_ismsource_marked.py:13-38. *)
Definition e_ism_CVEnumISMSourceMarked : string * list string := ("ism.CVEnumISMSourceMarked", [
  "OADR"; "X1"; "X2"; "X3"; "X4"; "X5"; "X6"; "X7"; "X8"]).

(** cvenum_ismdissem.py:13-48. *)
Definition e_ism_CVEnumISMDissemValuesvalue : string * list string := ("ism.CVEnumISMDissemValuesvalue", [
  "FOUO"; "OC"; "IMC"; "SAMI"; "NF"; "PR"; "REL"; "RELIDO"; "RD"; "RD-CNWDI"; "FRD"; "DCNI"; "UCNI"; "EYES"; "DSEN"; "FISA"]).

(** cvenum_ismrel_to.py:13-563. *)
Definition e_ism_CVEnumISMRelToValues : string * list string := ("ism.CVEnumISMRelToValues", [
  "USA"; "ABW"; "AFG"; "AGO"; "AIA"; "ALA"; "ALB"; "AND"; "ANT"; "ARE"; "ARG"; "ARM"; "ASM"; "ATA"; "ATF"; "ATG"; "AUS"; "AUT"; "AZE"; "BDI"; "BEL";
  "BEN"; "BFA"; "BGD"; "BGR"; "BHR"; "BHS"; "BIH"; "BLM"; "BLR"; "BLZ"; "BMU"; "BOL"; "BRA"; "BRB"; "BRN"; "BTN"; "BVT"; "BWA"; "CAF"; "CAN"; "CCK";
  "CHE"; "CHL"; "CHN"; "CIV"; "CMR"; "COD"; "COG"; "COK"; "COL"; "COM"; "CPV"; "CRI"; "CUB"; "CXR"; "CYM"; "CYP"; "CZE"; "DEU"; "DJI"; "DMA"; "DNK";
  "DOM"; "DZA"; "ECU"; "EGY"; "ERI"; "ESH"; "ESP"; "EST"; "ETH"; "FIN"; "FJI"; "FLK"; "FRA"; "FRO"; "FSM"; "GAB"; "GBR"; "GEO"; "GGY"; "GHA"; "GIB";
  "GIN"; "GLP"; "GMB"; "GNB"; "GNQ"; "GRC"; "GRD"; "GRL"; "GTM"; "GUF"; "GUM"; "GUY"; "HKG"; "HMD"; "HND"; "HRV"; "HTI"; "HUN"; "IDN"; "IMN"; "IND";
  "IOT"; "IRL"; "IRN"; "IRQ"; "ISL"; "ISR"; "ITA"; "JAM"; "JEY"; "JOR"; "JPN"; "KAZ"; "KEN"; "KGZ"; "KHM"; "KIR"; "KNA"; "KOR"; "KWT"; "LAO"; "LBN";
  "LBR"; "LBY"; "LCA"; "LIE"; "LKA"; "LSO"; "LTU"; "LUX"; "LVA"; "MAC"; "MAF"; "MAR"; "MCO"; "MDA"; "MDG"; "MDV"; "MEX"; "MHL"; "MKD"; "MLI"; "MLT";
  "MMR"; "MNE"; "MNG"; "MNP"; "MOZ"; "MRT"; "MSR"; "MTQ"; "MUS"; "MWI"; "MYS"; "MYT"; "NAM"; "NCL"; "NER"; "NFK"; "NGA"; "NIC"; "NIU"; "NLD"; "NOR";
  "NPL"; "NRU"; "NZL"; "OMN"; "PAK"; "PAN"; "PCN"; "PER"; "PHL"; "PLW"; "PNG"; "POL"; "PRI"; "PRK"; "PRT"; "PRY"; "PSE"; "PYF"; "QAT"; "REU"; "ROU";
  "RUS"; "RWA"; "SAU"; "SDN"; "SEN"; "SGP"; "SGS"; "SHN"; "SJM"; "SLB"; "SLE"; "SLV"; "SMR"; "SOM"; "SPM"; "SRB"; "STP"; "SUR"; "SVK"; "SVN"; "SWE";
  "SWZ"; "SYC"; "SYR"; "TCA"; "TCD"; "TGO"; "THA"; "TJK"; "TKL"; "TKM"; "TLS"; "TON"; "TTO"; "TUN"; "TUR"; "TUV"; "TWN"; "TZA"; "UGA"; "UKR"; "UMI";
  "URY"; "UZB"; "VAT"; "VCT"; "VEN"; "VGB"; "VIR"; "VNM"; "VUT"; "WLF"; "WSM"; "YEM"; "ZAF"; "ZMB"; "ZWE"; "ACGU"; "APFS"; "BWCS"; "CFCK"; "CMFC";
  "CMFP"; "CPMT"; "CWCS"; "EFOR"; "EUDA"; "FVEY"; "GCTF"; "GMIF"; "IESC"; "ISAF"; "KFOR"; "MCFI"; "MIFH"; "MLEC"; "NACT"; "NATO"; "SPAA"; "TEYE";
  "UNCK"]).

(** cvenum_ismcomplies_with.py:13-24. *)
Definition e_ism_CVEnumISMCompliesWithValues : string * list string := ("ism.CVEnumISMCompliesWithValues", [
  "ICD-710"; "DoD5230.24"]).

(** cvenum_ismfgiprotected.py:13-563. *)
Definition e_ism_CVEnumISMFGIProtectedValues : string * list string := ("ism.CVEnumISMFGIProtectedValues", [
  "FGI"; "ABW"; "AFG"; "AGO"; "AIA"; "ALA"; "ALB"; "AND"; "ANT"; "ARE"; "ARG"; "ARM"; "ASM"; "ATA"; "ATF"; "ATG"; "AUS"; "AUT"; "AZE"; "BDI"; "BEL";
  "BEN"; "BFA"; "BGD"; "BGR"; "BHR"; "BHS"; "BIH"; "BLM"; "BLR"; "BLZ"; "BMU"; "BOL"; "BRA"; "BRB"; "BRN"; "BTN"; "BVT"; "BWA"; "CAF"; "CAN"; "CCK";
  "CHE"; "CHL"; "CHN"; "CIV"; "CMR"; "COD"; "COG"; "COK"; "COL"; "COM"; "CPV"; "CRI"; "CUB"; "CXR"; "CYM"; "CYP"; "CZE"; "DEU"; "DJI"; "DMA"; "DNK";
  "DOM"; "DZA"; "ECU"; "EGY"; "ERI"; "ESH"; "ESP"; "EST"; "ETH"; "FIN"; "FJI"; "FLK"; "FRA"; "FRO"; "FSM"; "GAB"; "GBR"; "GEO"; "GGY"; "GHA"; "GIB";
  "GIN"; "GLP"; "GMB"; "GNB"; "GNQ"; "GRC"; "GRD"; "GRL"; "GTM"; "GUF"; "GUM"; "GUY"; "HKG"; "HMD"; "HND"; "HRV"; "HTI"; "HUN"; "IDN"; "IMN"; "IND";
  "IOT"; "IRL"; "IRN"; "IRQ"; "ISL"; "ISR"; "ITA"; "JAM"; "JEY"; "JOR"; "JPN"; "KAZ"; "KEN"; "KGZ"; "KHM"; "KIR"; "KNA"; "KOR"; "KWT"; "LAO"; "LBN";
  "LBR"; "LBY"; "LCA"; "LIE"; "LKA"; "LSO"; "LTU"; "LUX"; "LVA"; "MAC"; "MAF"; "MAR"; "MCO"; "MDA"; "MDG"; "MDV"; "MEX"; "MHL"; "MKD"; "MLI"; "MLT";
  "MMR"; "MNE"; "MNG"; "MNP"; "MOZ"; "MRT"; "MSR"; "MTQ"; "MUS"; "MWI"; "MYS"; "MYT"; "NAM"; "NCL"; "NER"; "NFK"; "NGA"; "NIC"; "NIU"; "NLD"; "NOR";
  "NPL"; "NRU"; "NZL"; "OMN"; "PAK"; "PAN"; "PCN"; "PER"; "PHL"; "PLW"; "PNG"; "POL"; "PRI"; "PRK"; "PRT"; "PRY"; "PSE"; "PYF"; "QAT"; "REU"; "ROU";
  "RUS"; "RWA"; "SAU"; "SDN"; "SEN"; "SGP"; "SGS"; "SHN"; "SJM"; "SLB"; "SLE"; "SLV"; "SMR"; "SOM"; "SPM"; "SRB"; "STP"; "SUR"; "SVK"; "SVN"; "SWE";
  "SWZ"; "SYC"; "SYR"; "TCA"; "TCD"; "TGO"; "THA"; "TJK"; "TKL"; "TKM"; "TLS"; "TON"; "TTO"; "TUN"; "TUR"; "TUV"; "TWN"; "TZA"; "UGA"; "UKR"; "UMI";
  "URY"; "UZB"; "VAT"; "VCT"; "VEN"; "VGB"; "VIR"; "VNM"; "VUT"; "WLF"; "WSM"; "YEM"; "ZAF"; "ZMB"; "ZWE"; "ACGU"; "APFS"; "BWCS"; "CFCK"; "CMFC";
  "CMFP"; "CPMT"; "CWCS"; "EFOR"; "EUDA"; "FVEY"; "GCTF"; "GMIF"; "IESC"; "ISAF"; "KFOR"; "MCFI"; "MIFH"; "MLEC"; "NACT"; "NATO"; "SPAA"; "TEYE";
  "UNCK"]).

(** cvenum_ismnon_uscontrols.py:13-26. *)
Definition e_ism_CVEnumISMNonUSControlsValues : string * list string := ("ism.CVEnumISMNonUSControlsValues", [
  "ATOMAL"; "BOHEMIA"; "BALK"]).

(** cvenum_ismowner_producer.py:13-565. *)
Definition e_ism_CVEnumISMOwnerProducerValues : string * list string := ("ism.CVEnumISMOwnerProducerValues", [
  "FGI"; "ABW"; "AFG"; "AGO"; "AIA"; "ALA"; "ALB"; "AND"; "ANT"; "ARE"; "ARG"; "ARM"; "ASM"; "ATA"; "ATF"; "ATG"; "AUS"; "AUT"; "AZE"; "BDI"; "BEL";
  "BEN"; "BFA"; "BGD"; "BGR"; "BHR"; "BHS"; "BIH"; "BLM"; "BLR"; "BLZ"; "BMU"; "BOL"; "BRA"; "BRB"; "BRN"; "BTN"; "BVT"; "BWA"; "CAF"; "CAN"; "CCK";
  "CHE"; "CHL"; "CHN"; "CIV"; "CMR"; "COD"; "COG"; "COK"; "COL"; "COM"; "CPV"; "CRI"; "CUB"; "CXR"; "CYM"; "CYP"; "CZE"; "DEU"; "DJI"; "DMA"; "DNK";
  "DOM"; "DZA"; "ECU"; "EGY"; "ERI"; "ESH"; "ESP"; "EST"; "ETH"; "FIN"; "FJI"; "FLK"; "FRA"; "FRO"; "FSM"; "GAB"; "GBR"; "GEO"; "GGY"; "GHA"; "GIB";
  "GIN"; "GLP"; "GMB"; "GNB"; "GNQ"; "GRC"; "GRD"; "GRL"; "GTM"; "GUF"; "GUM"; "GUY"; "HKG"; "HMD"; "HND"; "HRV"; "HTI"; "HUN"; "IDN"; "IMN"; "IND";
  "IOT"; "IRL"; "IRN"; "IRQ"; "ISL"; "ISR"; "ITA"; "JAM"; "JEY"; "JOR"; "JPN"; "KAZ"; "KEN"; "KGZ"; "KHM"; "KIR"; "KNA"; "KOR"; "KWT"; "LAO"; "LBN";
  "LBR"; "LBY"; "LCA"; "LIE"; "LKA"; "LSO"; "LTU"; "LUX"; "LVA"; "MAC"; "MAF"; "MAR"; "MCO"; "MDA"; "MDG"; "MDV"; "MEX"; "MHL"; "MKD"; "MLI"; "MLT";
  "MMR"; "MNE"; "MNG"; "MNP"; "MOZ"; "MRT"; "MSR"; "MTQ"; "MUS"; "MWI"; "MYS"; "MYT"; "NAM"; "NCL"; "NER"; "NFK"; "NGA"; "NIC"; "NIU"; "NLD"; "NOR";
  "NPL"; "NRU"; "NZL"; "OMN"; "PAK"; "PAN"; "PCN"; "PER"; "PHL"; "PLW"; "PNG"; "POL"; "PRI"; "PRK"; "PRT"; "PRY"; "PSE"; "PYF"; "QAT"; "REU"; "ROU";
  "RUS"; "RWA"; "SAU"; "SDN"; "SEN"; "SGP"; "SGS"; "SHN"; "SJM"; "SLB"; "SLE"; "SLV"; "SMR"; "SOM"; "SPM"; "SRB"; "STP"; "SUR"; "SVK"; "SVN"; "SWE";
  "SWZ"; "SYC"; "SYR"; "TCA"; "TCD"; "TGO"; "THA"; "TJK"; "TKL"; "TKM"; "TLS"; "TON"; "TTO"; "TUN"; "TUR"; "TUV"; "TWN"; "TZA"; "UGA"; "UKR"; "UMI";
  "URY"; "USA"; "UZB"; "VAT"; "VCT"; "VEN"; "VGB"; "VIR"; "VNM"; "VUT"; "WLF"; "WSM"; "YEM"; "ZAF"; "ZMB"; "ZWE"; "ACGU"; "APFS"; "BWCS"; "CFCK";
  "CMFC"; "CMFP"; "CPMT"; "CWCS"; "EFOR"; "EUDA"; "FVEY"; "GCTF"; "GMIF"; "IESC"; "ISAF"; "KFOR"; "MCFI"; "MIFH"; "MLEC"; "NACT"; "NATO"; "SPAA";
  "TEYE"; "UNCK"]).

(** cvenum_ism25_x.py:13-49. *)
Definition e_ism_CVEnumISM25X : string * list string := ("ism.CVEnumISM25X", [
  "25X1"; "25X1-human"; "25X2"; "25X3"; "25X4"; "25X5"; "25X6"; "25X7"; "25X8"; "25X9"]).

(** cvenum_ismfgiopen.py:13-563. *)
Definition e_ism_CVEnumISMFGIOpenValues : string * list string := ("ism.CVEnumISMFGIOpenValues", [
  "UNKNOWN"; "ABW"; "AFG"; "AGO"; "AIA"; "ALA"; "ALB"; "AND"; "ANT"; "ARE"; "ARG"; "ARM"; "ASM"; "ATA"; "ATF"; "ATG"; "AUS"; "AUT"; "AZE"; "BDI";
  "BEL"; "BEN"; "BFA"; "BGD"; "BGR"; "BHR"; "BHS"; "BIH"; "BLM"; "BLR"; "BLZ"; "BMU"; "BOL"; "BRA"; "BRB"; "BRN"; "BTN"; "BVT"; "BWA"; "CAF"; "CAN";
  "CCK"; "CHE"; "CHL"; "CHN"; "CIV"; "CMR"; "COD"; "COG"; "COK"; "COL"; "COM"; "CPV"; "CRI"; "CUB"; "CXR"; "CYM"; "CYP"; "CZE"; "DEU"; "DJI"; "DMA";
  "DNK"; "DOM"; "DZA"; "ECU"; "EGY"; "ERI"; "ESH"; "ESP"; "EST"; "ETH"; "FIN"; "FJI"; "FLK"; "FRA"; "FRO"; "FSM"; "GAB"; "GBR"; "GEO"; "GGY"; "GHA";
  "GIB"; "GIN"; "GLP"; "GMB"; "GNB"; "GNQ"; "GRC"; "GRD"; "GRL"; "GTM"; "GUF"; "GUM"; "GUY"; "HKG"; "HMD"; "HND"; "HRV"; "HTI"; "HUN"; "IDN"; "IMN";
  "IND"; "IOT"; "IRL"; "IRN"; "IRQ"; "ISL"; "ISR"; "ITA"; "JAM"; "JEY"; "JOR"; "JPN"; "KAZ"; "KEN"; "KGZ"; "KHM"; "KIR"; "KNA"; "KOR"; "KWT"; "LAO";
  "LBN"; "LBR"; "LBY"; "LCA"; "LIE"; "LKA"; "LSO"; "LTU"; "LUX"; "LVA"; "MAC"; "MAF"; "MAR"; "MCO"; "MDA"; "MDG"; "MDV"; "MEX"; "MHL"; "MKD"; "MLI";
  "MLT"; "MMR"; "MNE"; "MNG"; "MNP"; "MOZ"; "MRT"; "MSR"; "MTQ"; "MUS"; "MWI"; "MYS"; "MYT"; "NAM"; "NCL"; "NER"; "NFK"; "NGA"; "NIC"; "NIU"; "NLD";
  "NOR"; "NPL"; "NRU"; "NZL"; "OMN"; "PAK"; "PAN"; "PCN"; "PER"; "PHL"; "PLW"; "PNG"; "POL"; "PRI"; "PRK"; "PRT"; "PRY"; "PSE"; "PYF"; "QAT"; "REU";
  "ROU"; "RUS"; "RWA"; "SAU"; "SDN"; "SEN"; "SGP"; "SGS"; "SHN"; "SJM"; "SLB"; "SLE"; "SLV"; "SMR"; "SOM"; "SPM"; "SRB"; "STP"; "SUR"; "SVK"; "SVN";
  "SWE"; "SWZ"; "SYC"; "SYR"; "TCA"; "TCD"; "TGO"; "THA"; "TJK"; "TKL"; "TKM"; "TLS"; "TON"; "TTO"; "TUN"; "TUR"; "TUV"; "TWN"; "TZA"; "UGA"; "UKR";
  "UMI"; "URY"; "UZB"; "VAT"; "VCT"; "VEN"; "VGB"; "VIR"; "VNM"; "VUT"; "WLF"; "WSM"; "YEM"; "ZAF"; "ZMB"; "ZWE"; "ACGU"; "APFS"; "BWCS"; "CFCK";
  "CMFC"; "CMFP"; "CPMT"; "CWCS"; "EFOR"; "EUDA"; "FVEY"; "GCTF"; "GMIF"; "IESC"; "ISAF"; "KFOR"; "MCFI"; "MIFH"; "MLEC"; "NACT"; "NATO"; "SPAA";
  "TEYE"; "UNCK"]).

(** cvenum_ismscicontrols.py:13-26. *)
Definition e_ism_CVEnumISMSCIControlsValuesvalue : string * list string := ("ism.CVEnumISMSCIControlsValuesvalue", [
  "HCS"; "KDK"; "SI"; "SI-G"; "TK"]).

(** cvenum_ismclassification_all.py:13-30. *)
Definition e_ism_CVEnumISMClassificationAll : string * list string := ("ism.CVEnumISMClassificationAll", [
  "R"; "C"; "S"; "TS"; "U"]).

(** cvenum_ismnon_ic.py:13-38. *)
Definition e_ism_CVEnumISMNonICValues : string * list string := ("ism.CVEnumISMNonICValues", [
  "SC"; "SINFO"; "DS"; "XD"; "ND"; "SBU"; "SBU-NF"; "LES"; "LES-NF"]).

(** cvenum_ismexempt_from.py:13-28. *)
Definition e_ism13_CVEnumISMExemptFromValues : string * list string := ("ism13.CVEnumISMExemptFromValues", [
  "IC_710_MANDATORY_FDR"; "DOD_DISTRO_STATEMENT"]).

(** cvenum_ismdissem.py:13-46. *)
Definition e_ism13_CVEnumISMDissemValues : string * list string := ("ism13.CVEnumISMDissemValues", [
  "RS"; "FOUO"; "OC"; "OC-USGOV"; "IMC"; "NF"; "PR"; "REL"; "RELIDO"; "EYES"; "DSEN"; "FISA"; "DISPLAYONLY"]).

(** cvenum_ismcomplies_with.py:13-35. *)
Definition e_ism13_CVEnumISMCompliesWithValues : string * list string := ("ism13.CVEnumISMCompliesWithValues", [
  "USGov"; "USIC"; "USDOD"; "OtherAuthority"]).

(** cvenum_ismatomic_energy_markings.py:13-28. *)
Definition e_ism13_CVEnumISMatomicEnergyMarkingsValuesvalue : string * list string := ("ism13.CVEnumISMatomicEnergyMarkingsValuesvalue", [
  "RD"; "RD-CNWDI"; "FRD"; "DCNI"; "UCNI"; "TFNI"]).

(** cvenum_ismpoc_type.py:13-35. *)
Definition e_ism13_CVEnumISMPocTypeValues : string * list string := ("ism13.CVEnumISMPocTypeValues", [
  "ICD-710"; "DoD-Dist-B"; "DoD-Dist-C"; "DoD-Dist-D"; "DoD-Dist-E"; "DoD-Dist-F"; "DoD-Dist-X"]).

(** cvenum_ismnon_uscontrols.py:13-26. *)
Definition e_ism13_CVEnumISMNonUSControlsValues : string * list string := ("ism13.CVEnumISMNonUSControlsValues", [
  "ATOMAL"; "BOHEMIA"; "BALK"]).

(** cvenum_ism25_x.py:13-83. *)
Definition e_ism13_CVEnumISM25X : string * list string := ("ism13.CVEnumISM25X", [
  "AEA"; "NATO"; "NATO-AEA"; "25X1"; "25X1-EO-12951"; "25X2"; "25X3"; "25X4"; "25X5"; "25X6"; "25X7"; "25X8"; "25X9"; "50X1-HUM"; "50X1"; "50X2-WMD";
  "50X6"]).

(** cvenum_ismnotice.py:13-62. *)
Definition e_ism13_CVEnumISMNoticeValues : string * list string := ("ism13.CVEnumISMNoticeValues", [
  "FISA"; "IMC"; "CNWDI"; "RD"; "FRD"; "DS"; "LES"; "LES-NF"; "DSEN"; "DoD-Dist-A"; "DoD-Dist-B"; "DoD-Dist-C"; "DoD-Dist-D"; "DoD-Dist-E";
  "DoD-Dist-F"; "DoD-Dist-X"; "US-Person"; "pre13526ORCON"; "POC"; "COMSEC"]).

(** cvenum_ismscicontrols.py:13-44. *)
Definition e_ism13_CVEnumISMSCIControlsValuesvalue : string * list string := ("ism13.CVEnumISMSCIControlsValuesvalue", [
  "EL"; "EL-EU"; "EL-NK"; "HCS"; "HCS-O"; "HCS-P"; "KDK"; "KDK-BLFH"; "KDK-IDIT"; "KDK-KAND"; "RSV"; "SI"; "SI-G"; "TK"]).

(** cvenum_ismclassification_all.py:13-30. *)
Definition e_ism13_CVEnumISMClassificationAll : string * list string := ("ism13.CVEnumISMClassificationAll", [
  "R"; "C"; "S"; "TS"; "U"]).

(** cvenum_ismnon_ic.py:13-32. *)
Definition e_ism13_CVEnumISMNonICValuesvalue : string * list string := ("ism13.CVEnumISMNonICValuesvalue", [
  "DS"; "XD"; "ND"; "SBU"; "SBU-NF"; "LES"; "LES-NF"; "SSI"]).

(** cvenum_ismcatfgiopen.py:13-622. *)
Definition e_ism13_CVEnumISMCATFGIOpenValuesvalue : string * list string := ("ism13.CVEnumISMCATFGIOpenValuesvalue", [
  "ABW"; "AFG"; "AGO"; "AIA"; "ALB"; "AND"; "ARE"; "ARG"; "ARM"; "ASM"; "ATA"; "ATF"; "ATG"; "AUS"; "AUT"; "AX1"; "AX2"; "AZE"; "BDI"; "BEL"; "BEN";
  "BES"; "BFA"; "BGD"; "BGR"; "BHR"; "BHS"; "BIH"; "BLM"; "BLR"; "BLZ"; "BMU"; "BOL"; "BRA"; "BRB"; "BRN"; "BTN"; "BVT"; "BWA"; "CAF"; "CAN"; "CCK";
  "CHE"; "CHL"; "CHN"; "CIV"; "CMR"; "COD"; "COG"; "COK"; "COL"; "COM"; "CPT"; "CPV"; "CRI"; "CUB"; "CUW"; "CXR"; "CYM"; "CYP"; "CZE"; "DEU"; "DGA";
  "DJI"; "DMA"; "DNK"; "DOM"; "DZA"; "ECU"; "EGY"; "ERI"; "ESH"; "ESP"; "EST"; "ETH"; "FIN"; "FJI"; "FLK"; "FRA"; "FRO"; "FSM"; "GAB"; "GBR"; "GEO";
  "GGY"; "GHA"; "GIB"; "GIN"; "GLP"; "GMB"; "GNB"; "GNQ"; "GRC"; "GRD"; "GRL"; "GTM"; "GUF"; "GUM"; "GUY"; "HKG"; "HMD"; "HND"; "HRV"; "HTI"; "HUN";
  "IDN"; "IMN"; "IND"; "IOT"; "IRL"; "IRN"; "IRQ"; "ISL"; "ISR"; "ITA"; "JAM"; "JEY"; "JOR"; "JPN"; "KAZ"; "KEN"; "KGZ"; "KHM"; "KIR"; "KNA"; "KOR";
  "KWT"; "LAO"; "LBN"; "LBR"; "LBY"; "LCA"; "LIE"; "LKA"; "LSO"; "LTU"; "LUX"; "LVA"; "MAC"; "MAF"; "MAR"; "MCO"; "MDA"; "MDG"; "MDV"; "MEX"; "MHL";
  "MKD"; "MLI"; "MLT"; "MMR"; "MNE"; "MNG"; "MNP"; "MOZ"; "MRT"; "MSR"; "MTQ"; "MUS"; "MWI"; "MYS"; "MYT"; "NAM"; "NCL"; "NER"; "NFK"; "NGA"; "NIC";
  "NIU"; "NLD"; "NOR"; "NPL"; "NRU"; "NZL"; "OMN"; "PAK"; "PAN"; "PCN"; "PER"; "PHL"; "PLW"; "PNG"; "POL"; "PRI"; "PRK"; "PRT"; "PRY"; "PSE"; "PYF";
  "QAT"; "REU"; "ROU"; "RUS"; "RWA"; "SAU"; "SDN"; "SEN"; "SGP"; "SGS"; "SHN"; "SLB"; "SLE"; "SLV"; "SMR"; "SOM"; "SPM"; "SRB"; "SSD"; "STP"; "SUR";
  "SVK"; "SVN"; "SWE"; "SWZ"; "SXM"; "SYC"; "SYR"; "TCA"; "TCD"; "TGO"; "THA"; "TJK"; "TKL"; "TKM"; "TLS"; "TON"; "TTO"; "TUN"; "TUR"; "TUV"; "TWN";
  "TZA"; "UGA"; "UKR"; "URY"; "UZB"; "VAT"; "VCT"; "VEN"; "VGB"; "VIR"; "VNM"; "VUT"; "WLF"; "WSM"; "XAC"; "XAZ"; "XBI"; "XBK"; "XCR"; "XCS"; "XCY";
  "XEU"; "XGL"; "XGZ"; "XHO"; "XJA"; "XJM"; "XJN"; "XJV"; "XKM"; "XKN"; "XKR"; "XKS"; "XMW"; "XNV"; "XPL"; "XPR"; "XQP"; "XQZ"; "XSP"; "XSV"; "XTR";
  "XWB"; "XWK"; "XXD"; "XXX"; "YEM"; "ZAF"; "ZMB"; "ZWE"; "ACGU"; "APFS"; "BWCS"; "CFCK"; "CMFC"; "CMFP"; "CPMT"; "CTOC"; "CWCS"; "FVEY"; "GCTF";
  "GMIF"; "ISAF"; "KFOR"; "MLEC"; "NACT"; "NATO"; "NCFE"; "OSTY"; "SPAA"; "TEYE"; "UNCK"]).

(** cvenum_ismcatfgiprotected.py:13-622. *)
Definition e_ism13_CVEnumISMCATFGIProtectedValuesvalue : string * list string := ("ism13.CVEnumISMCATFGIProtectedValuesvalue", [
  "FGI"; "ABW"; "AFG"; "AGO"; "AIA"; "ALB"; "AND"; "ARE"; "ARG"; "ARM"; "ASM"; "ATA"; "ATF"; "ATG"; "AUS"; "AUT"; "AX2"; "AZE"; "BDI"; "BEL"; "BEN";
  "BES"; "BFA"; "BGD"; "BGR"; "BHR"; "BHS"; "BIH"; "BLM"; "BLR"; "BLZ"; "BMU"; "BOL"; "BRA"; "BRB"; "BRN"; "BTN"; "BVT"; "BWA"; "CAF"; "CAN"; "CCK";
  "CHE"; "CHL"; "CHN"; "CIV"; "CMR"; "COD"; "COG"; "COK"; "COL"; "COM"; "CPT"; "CPV"; "CRI"; "CUB"; "CUW"; "CXR"; "CYM"; "CYP"; "CZE"; "DEU"; "DGA";
  "DJI"; "DMA"; "DNK"; "DOM"; "DZA"; "ECU"; "EGY"; "ERI"; "ESH"; "ESP"; "EST"; "ETH"; "FIN"; "FJI"; "FLK"; "FRA"; "FRO"; "FSM"; "GAB"; "GBR"; "GEO";
  "GGY"; "GHA"; "GIB"; "GIN"; "GLP"; "GMB"; "GNB"; "GNQ"; "GRC"; "GRD"; "GRL"; "GTM"; "GUF"; "GUM"; "GUY"; "HKG"; "HMD"; "HND"; "HRV"; "HTI"; "HUN";
  "IDN"; "IMN"; "IND"; "IOT"; "IRL"; "IRN"; "IRQ"; "ISL"; "ISR"; "ITA"; "JAM"; "JEY"; "JOR"; "JPN"; "KAZ"; "KEN"; "KGZ"; "KHM"; "KIR"; "KNA"; "KOR";
  "KWT"; "LAO"; "LBN"; "LBR"; "LBY"; "LCA"; "LIE"; "LKA"; "LSO"; "LTU"; "LUX"; "LVA"; "MAC"; "MAF"; "MAR"; "MCO"; "MDA"; "MDG"; "MDV"; "MEX"; "MHL";
  "MKD"; "MLI"; "MLT"; "MMR"; "MNE"; "MNG"; "MNP"; "MOZ"; "MRT"; "MSR"; "MTQ"; "MUS"; "MWI"; "MYS"; "MYT"; "NAM"; "NCL"; "NER"; "NFK"; "NGA"; "NIC";
  "NIU"; "NLD"; "NOR"; "NPL"; "NRU"; "NZL"; "OMN"; "PAK"; "PAN"; "PCN"; "PER"; "PHL"; "PLW"; "PNG"; "POL"; "PRI"; "PRK"; "PRT"; "PRY"; "PSE"; "PYF";
  "QAT"; "REU"; "ROU"; "RUS"; "RWA"; "SAU"; "SDN"; "SEN"; "SGP"; "SGS"; "SHN"; "SLB"; "SLE"; "SLV"; "SMR"; "SOM"; "SPM"; "SRB"; "SSD"; "STP"; "SUR";
  "SVK"; "SVN"; "SWE"; "SWZ"; "SXM"; "SYC"; "SYR"; "TCA"; "TCD"; "TGO"; "THA"; "TJK"; "TKL"; "TKM"; "TLS"; "TON"; "TTO"; "TUN"; "TUR"; "TUV"; "TWN";
  "TZA"; "UGA"; "UKR"; "URY"; "UZB"; "VAT"; "VCT"; "VEN"; "VGB"; "VIR"; "VNM"; "VUT"; "WLF"; "WSM"; "XAC"; "XAZ"; "XBI"; "XBK"; "XCR"; "XCS"; "XCY";
  "XEU"; "XGL"; "XGZ"; "XHO"; "XJA"; "XJM"; "XJN"; "XJV"; "XKM"; "XKN"; "XKR"; "XKS"; "XMW"; "XNV"; "XPL"; "XPR"; "XQP"; "XQZ"; "XSP"; "XSV"; "XTR";
  "XWB"; "XWK"; "XXD"; "XXX"; "YEM"; "ZAF"; "ZMB"; "ZWE"; "ACGU"; "APFS"; "BWCS"; "CFCK"; "CMFC"; "CMFP"; "CPMT"; "CTOC"; "CWCS"; "FVEY"; "GCTF";
  "GMIF"; "ISAF"; "KFOR"; "MLEC"; "NACT"; "NATO"; "NCFE"; "OSTY"; "SPAA"; "TEYE"; "UNCK"]).

(** cvenum_ismcatrel_to.py:13-622. *)
Definition e_ism13_CVEnumISMCATRelToValuesvalue : string * list string := ("ism13.CVEnumISMCATRelToValuesvalue", [
  "USA"; "ABW"; "AFG"; "AGO"; "AIA"; "ALB"; "AND"; "ARE"; "ARG"; "ARM"; "ASM"; "ATA"; "ATF"; "ATG"; "AUS"; "AUT"; "AX2"; "AZE"; "BDI"; "BEL"; "BEN";
  "BES"; "BFA"; "BGD"; "BGR"; "BHR"; "BHS"; "BIH"; "BLM"; "BLR"; "BLZ"; "BMU"; "BOL"; "BRA"; "BRB"; "BRN"; "BTN"; "BVT"; "BWA"; "CAF"; "CAN"; "CCK";
  "CHE"; "CHL"; "CHN"; "CIV"; "CMR"; "COD"; "COG"; "COK"; "COL"; "COM"; "CPT"; "CPV"; "CRI"; "CUB"; "CUW"; "CXR"; "CYM"; "CYP"; "CZE"; "DEU"; "DGA";
  "DJI"; "DMA"; "DNK"; "DOM"; "DZA"; "ECU"; "EGY"; "ERI"; "ESH"; "ESP"; "EST"; "ETH"; "FIN"; "FJI"; "FLK"; "FRA"; "FRO"; "FSM"; "GAB"; "GBR"; "GEO";
  "GGY"; "GHA"; "GIB"; "GIN"; "GLP"; "GMB"; "GNB"; "GNQ"; "GRC"; "GRD"; "GRL"; "GTM"; "GUF"; "GUM"; "GUY"; "HKG"; "HMD"; "HND"; "HRV"; "HTI"; "HUN";
  "IDN"; "IMN"; "IND"; "IOT"; "IRL"; "IRN"; "IRQ"; "ISL"; "ISR"; "ITA"; "JAM"; "JEY"; "JOR"; "JPN"; "KAZ"; "KEN"; "KGZ"; "KHM"; "KIR"; "KNA"; "KOR";
  "KWT"; "LAO"; "LBN"; "LBR"; "LBY"; "LCA"; "LIE"; "LKA"; "LSO"; "LTU"; "LUX"; "LVA"; "MAC"; "MAF"; "MAR"; "MCO"; "MDA"; "MDG"; "MDV"; "MEX"; "MHL";
  "MKD"; "MLI"; "MLT"; "MMR"; "MNE"; "MNG"; "MNP"; "MOZ"; "MRT"; "MSR"; "MTQ"; "MUS"; "MWI"; "MYS"; "MYT"; "NAM"; "NCL"; "NER"; "NFK"; "NGA"; "NIC";
  "NIU"; "NLD"; "NOR"; "NPL"; "NRU"; "NZL"; "OMN"; "PAK"; "PAN"; "PCN"; "PER"; "PHL"; "PLW"; "PNG"; "POL"; "PRI"; "PRK"; "PRT"; "PRY"; "PSE"; "PYF";
  "QAT"; "REU"; "ROU"; "RUS"; "RWA"; "SAU"; "SDN"; "SEN"; "SGP"; "SGS"; "SHN"; "SLB"; "SLE"; "SLV"; "SMR"; "SOM"; "SPM"; "SRB"; "SSD"; "STP"; "SUR";
  "SVK"; "SVN"; "SWE"; "SWZ"; "SXM"; "SYC"; "SYR"; "TCA"; "TCD"; "TGO"; "THA"; "TJK"; "TKL"; "TKM"; "TLS"; "TON"; "TTO"; "TUN"; "TUR"; "TUV"; "TWN";
  "TZA"; "UGA"; "UKR"; "URY"; "UZB"; "VAT"; "VCT"; "VEN"; "VGB"; "VIR"; "VNM"; "VUT"; "WLF"; "WSM"; "XAC"; "XAZ"; "XBI"; "XBK"; "XCR"; "XCS"; "XCY";
  "XEU"; "XGL"; "XGZ"; "XHO"; "XJA"; "XJM"; "XJN"; "XJV"; "XKM"; "XKN"; "XKR"; "XKS"; "XMW"; "XNV"; "XPL"; "XPR"; "XQP"; "XQZ"; "XSP"; "XSV"; "XTR";
  "XWB"; "XWK"; "XXD"; "XXX"; "YEM"; "ZAF"; "ZMB"; "ZWE"; "ACGU"; "APFS"; "BWCS"; "CFCK"; "CMFC"; "CMFP"; "CPMT"; "CTOC"; "CWCS"; "FVEY"; "GCTF";
  "GMIF"; "ISAF"; "KFOR"; "MLEC"; "NACT"; "NATO"; "NCFE"; "OSTY"; "SPAA"; "TEYE"; "UNCK"]).

(** cvenum_ismcatowner_producer.py:13-624. *)
Definition e_ism13_CVEnumISMCATOwnerProducerValuesvalue : string * list string := ("ism13.CVEnumISMCATOwnerProducerValuesvalue", [
  "FGI"; "ABW"; "AFG"; "AGO"; "AIA"; "ALB"; "AND"; "ARE"; "ARG"; "ARM"; "ASM"; "ATA"; "ATF"; "ATG"; "AUS"; "AUT"; "AX2"; "AZE"; "BDI"; "BEL"; "BEN";
  "BES"; "BFA"; "BGD"; "BGR"; "BHR"; "BHS"; "BIH"; "BLM"; "BLR"; "BLZ"; "BMU"; "BOL"; "BRA"; "BRB"; "BRN"; "BTN"; "BVT"; "BWA"; "CAF"; "CAN"; "CCK";
  "CHE"; "CHL"; "CHN"; "CIV"; "CMR"; "COD"; "COG"; "COK"; "COL"; "COM"; "CPT"; "CPV"; "CRI"; "CUB"; "CUW"; "CXR"; "CYM"; "CYP"; "CZE"; "DEU"; "DGA";
  "DJI"; "DMA"; "DNK"; "DOM"; "DZA"; "ECU"; "EGY"; "ERI"; "ESH"; "ESP"; "EST"; "ETH"; "FIN"; "FJI"; "FLK"; "FRA"; "FRO"; "FSM"; "GAB"; "GBR"; "GEO";
  "GGY"; "GHA"; "GIB"; "GIN"; "GLP"; "GMB"; "GNB"; "GNQ"; "GRC"; "GRD"; "GRL"; "GTM"; "GUF"; "GUM"; "GUY"; "HKG"; "HMD"; "HND"; "HRV"; "HTI"; "HUN";
  "IDN"; "IMN"; "IND"; "IOT"; "IRL"; "IRN"; "IRQ"; "ISL"; "ISR"; "ITA"; "JAM"; "JEY"; "JOR"; "JPN"; "KAZ"; "KEN"; "KGZ"; "KHM"; "KIR"; "KNA"; "KOR";
  "KWT"; "LAO"; "LBN"; "LBR"; "LBY"; "LCA"; "LIE"; "LKA"; "LSO"; "LTU"; "LUX"; "LVA"; "MAC"; "MAF"; "MAR"; "MCO"; "MDA"; "MDG"; "MDV"; "MEX"; "MHL";
  "MKD"; "MLI"; "MLT"; "MMR"; "MNE"; "MNG"; "MNP"; "MOZ"; "MRT"; "MSR"; "MTQ"; "MUS"; "MWI"; "MYS"; "MYT"; "NAM"; "NCL"; "NER"; "NFK"; "NGA"; "NIC";
  "NIU"; "NLD"; "NOR"; "NPL"; "NRU"; "NZL"; "OMN"; "PAK"; "PAN"; "PCN"; "PER"; "PHL"; "PLW"; "PNG"; "POL"; "PRI"; "PRK"; "PRT"; "PRY"; "PSE"; "PYF";
  "QAT"; "REU"; "ROU"; "RUS"; "RWA"; "SAU"; "SDN"; "SEN"; "SGP"; "SGS"; "SHN"; "SLB"; "SLE"; "SLV"; "SMR"; "SOM"; "SPM"; "SRB"; "SSD"; "STP"; "SUR";
  "SVK"; "SVN"; "SWE"; "SWZ"; "SXM"; "SYC"; "SYR"; "TCA"; "TCD"; "TGO"; "THA"; "TJK"; "TKL"; "TKM"; "TLS"; "TON"; "TTO"; "TUN"; "TUR"; "TUV"; "TWN";
  "TZA"; "UGA"; "UKR"; "URY"; "USA"; "UZB"; "VAT"; "VCT"; "VEN"; "VGB"; "VIR"; "VNM"; "VUT"; "WLF"; "WSM"; "XAC"; "XAZ"; "XBI"; "XBK"; "XCR"; "XCS";
  "XCY"; "XEU"; "XGL"; "XGZ"; "XHO"; "XJA"; "XJM"; "XJN"; "XJV"; "XKM"; "XKN"; "XKR"; "XKS"; "XMW"; "XNV"; "XPL"; "XPR"; "XQP"; "XQZ"; "XSP"; "XSV";
  "XTR"; "XWB"; "XWK"; "XXD"; "XXX"; "YEM"; "ZAF"; "ZMB"; "ZWE"; "ACGU"; "APFS"; "BWCS"; "CFCK"; "CMFC"; "CMFP"; "CPMT"; "CTOC"; "CWCS"; "FVEY";
  "GCTF"; "GMIF"; "ISAF"; "KFOR"; "MLEC"; "NACT"; "NATO"; "NCFE"; "OSTY"; "SPAA"; "TEYE"; "UNCK"]).

(** sicd_v1_2_1.py:34-36. *)
Definition e_sicd121_CollectType : string * list string := ("sicd121.CollectType", [
  "MONOSTATIC"; "BISTATIC"]).

(** sicd_v1_2_1.py:61-65. *)
Definition e_sicd121_CornerStringType : string * list string := ("sicd121.CornerStringType", [
  "1:FRFC"; "2:FRLC"; "3:LRLC"; "4:LRFC"]).

(** sicd_v1_2_1.py:68-70. *)
Definition e_sicd121_DirParamTypeSgn : string * list string := ("sicd121.DirParamTypeSgn", [
  "1"; "-1"]).

(** sicd_v1_2_1.py:73-91. *)
Definition e_sicd121_DualPolarizationType : string * list string := ("sicd121.DualPolarizationType", [
  "V:V"; "V:H"; "V:RHC"; "V:LHC"; "H:V"; "H:H"; "H:RHC"; "H:LHC"; "RHC:RHC"; "RHC:LHC"; "RHC:V"; "RHC:H"; "LHC:RHC"; "LHC:LHC"; "LHC:V"; "LHC:H";
  "OTHER"; "UNKNOWN"]).

(** sicd_v1_2_1.py:116-117. *)
Definition e_sicd121_EarthModel : string * list string := ("sicd121.EarthModel", [
  "WGS_84"]).

(** sicd_v1_2_1.py:120-123. *)
Definition e_sicd121_ImagePlane : string * list string := ("sicd121.ImagePlane", [
  "SLANT"; "GROUND"; "OTHER"]).

(** sicd_v1_2_1.py:126-131. *)
Definition e_sicd121_ImageGridType : string * list string := ("sicd121.ImageGridType", [
  "RGAZIM"; "RGZERO"; "XRGYCR"; "XCTYAT"; "PLANE"]).

(** sicd_v1_2_1.py:170-173. *)
Definition e_sicd121_ImagePixelType : string * list string := ("sicd121.ImagePixelType", [
  "RE32F_IM32F"; "RE16I_IM16I"; "AMP8I_PHS8I"]).

(** sicd_v1_2_1.py:176-179. *)
Definition e_sicd121_AzAutofocus : string * list string := ("sicd121.AzAutofocus", [
  "NO"; "GLOBAL"; "SV"]).

(** sicd_v1_2_1.py:182-184. *)
Definition e_sicd121_ImageBeamComp : string * list string := ("sicd121.ImageBeamComp", [
  "NO"; "SV"]).

(** sicd_v1_2_1.py:187-191. *)
Definition e_sicd121_ImageFormAlgo : string * list string := ("sicd121.ImageFormAlgo", [
  "PFA"; "RMA"; "RGAZCOMP"; "OTHER"]).

(** sicd_v1_2_1.py:194-197. *)
Definition e_sicd121_RgAutofocus : string * list string := ("sicd121.RgAutofocus", [
  "NO"; "GLOBAL"; "SV"]).

(** sicd_v1_2_1.py:200-203. *)
Definition e_sicd121_STBeamComp : string * list string := ("sicd121.STBeamComp", [
  "NO"; "GLOBAL"; "SV"]).

(** sicd_v1_2_1.py:320-322. *)
Definition e_sicd121_NoiseLevelType : string * list string := ("sicd121.NoiseLevelType", [
  "ABSOLUTE"; "RELATIVE"]).

(** sicd_v1_2_1.py:325-330. *)
Definition e_sicd121_OrientationType : string * list string := ("sicd121.OrientationType", [
  "UP"; "DOWN"; "LEFT"; "RIGHT"; "ARBITRARY"]).

(** sicd_v1_2_1.py:350-357. *)
Definition e_sicd121_Polarization1Type : string * list string := ("sicd121.Polarization1Type", [
  "V"; "H"; "RHC"; "LHC"; "OTHER"; "UNKNOWN"; "SEQUENCE"]).

(** sicd_v1_2_1.py:360-365. *)
Definition e_sicd121_Polarization2Type : string * list string := ("sicd121.Polarization2Type", [
  "V"; "H"; "RHC"; "LHC"; "OTHER"]).

(** sicd_v1_2_1.py:409-412. *)
Definition e_sicd121_PosVelErrFrame : string * list string := ("sicd121.PosVelErrFrame", [
  "ECF"; "RIC_ECF"; "RIC_ECI"]).

(** sicd_v1_2_1.py:415-418. *)
Definition e_sicd121_RMAImageType : string * list string := ("sicd121.RMAImageType", [
  "RMAT"; "RMCR"; "INCA"]).

(** sicd_v1_2_1.py:421-424. *)
Definition e_sicd121_RMAlgorithm : string * list string := ("sicd121.RMAlgorithm", [
  "OMEGA_K"; "CSA"; "RG_DOP"]).

(** sicd_v1_2_1.py:427-430. *)
Definition e_sicd121_RadarModeType : string * list string := ("sicd121.RadarModeType", [
  "SPOTLIGHT"; "STRIPMAP"; "DYNAMIC STRIPMAP"]).

(** sicd_v1_2_1.py:455-457. *)
Definition e_sicd121_SideOfTrack : string * list string := ("sicd121.SideOfTrack", [
  "L"; "R"]).

(** sicd_v1_2_1.py:460-462. *)
Definition e_sicd121_WFParametersRcvDemodType : string * list string := ("sicd121.WFParametersRcvDemodType", [
  "STRETCH"; "CHIRP"]).

(** sicd_v1_3_0.py:34-36. *)
Definition e_sicd130_CollectType : string * list string := ("sicd130.CollectType", [
  "MONOSTATIC"; "BISTATIC"]).

(** sicd_v1_3_0.py:61-65. *)
Definition e_sicd130_CornerStringType : string * list string := ("sicd130.CornerStringType", [
  "1:FRFC"; "2:FRLC"; "3:LRLC"; "4:LRFC"]).

(** sicd_v1_3_0.py:68-70. *)
Definition e_sicd130_DirParamTypeSgn : string * list string := ("sicd130.DirParamTypeSgn", [
  "1"; "-1"]).

(** sicd_v1_3_0.py:95-96. *)
Definition e_sicd130_EarthModel : string * list string := ("sicd130.EarthModel", [
  "WGS_84"]).

(** sicd_v1_3_0.py:99-102. *)
Definition e_sicd130_ImagePlane : string * list string := ("sicd130.ImagePlane", [
  "SLANT"; "GROUND"; "OTHER"]).

(** sicd_v1_3_0.py:105-110. *)
Definition e_sicd130_ImageGridType : string * list string := ("sicd130.ImageGridType", [
  "RGAZIM"; "RGZERO"; "XRGYCR"; "XCTYAT"; "PLANE"]).

(** sicd_v1_3_0.py:149-152. *)
Definition e_sicd130_ImagePixelType : string * list string := ("sicd130.ImagePixelType", [
  "RE32F_IM32F"; "RE16I_IM16I"; "AMP8I_PHS8I"]).

(** sicd_v1_3_0.py:155-158. *)
Definition e_sicd130_AzAutofocus : string * list string := ("sicd130.AzAutofocus", [
  "NO"; "GLOBAL"; "SV"]).

(** sicd_v1_3_0.py:161-163. *)
Definition e_sicd130_ImageBeamComp : string * list string := ("sicd130.ImageBeamComp", [
  "NO"; "SV"]).

(** sicd_v1_3_0.py:166-170. *)
Definition e_sicd130_ImageFormAlgo : string * list string := ("sicd130.ImageFormAlgo", [
  "PFA"; "RMA"; "RGAZCOMP"; "OTHER"]).

(** sicd_v1_3_0.py:173-176. *)
Definition e_sicd130_RgAutofocus : string * list string := ("sicd130.RgAutofocus", [
  "NO"; "GLOBAL"; "SV"]).

(** sicd_v1_3_0.py:179-182. *)
Definition e_sicd130_STBeamComp : string * list string := ("sicd130.STBeamComp", [
  "NO"; "GLOBAL"; "SV"]).

(** sicd_v1_3_0.py:299-301. *)
Definition e_sicd130_NoiseLevelType : string * list string := ("sicd130.NoiseLevelType", [
  "ABSOLUTE"; "RELATIVE"]).

(** sicd_v1_3_0.py:304-309. *)
Definition e_sicd130_OrientationType : string * list string := ("sicd130.OrientationType", [
  "UP"; "DOWN"; "LEFT"; "RIGHT"; "ARBITRARY"]).

(** sicd_v1_3_0.py:370-373. *)
Definition e_sicd130_PosVelErrFrame : string * list string := ("sicd130.PosVelErrFrame", [
  "ECF"; "RIC_ECF"; "RIC_ECI"]).

(** sicd_v1_3_0.py:376-379. *)
Definition e_sicd130_RMAImageType : string * list string := ("sicd130.RMAImageType", [
  "RMAT"; "RMCR"; "INCA"]).

(** sicd_v1_3_0.py:382-385. *)
Definition e_sicd130_RMAlgorithm : string * list string := ("sicd130.RMAlgorithm", [
  "OMEGA_K"; "CSA"; "RG_DOP"]).

(** sicd_v1_3_0.py:388-391. *)
Definition e_sicd130_RadarModeType : string * list string := ("sicd130.RadarModeType", [
  "SPOTLIGHT"; "STRIPMAP"; "DYNAMIC STRIPMAP"]).

(** sicd_v1_3_0.py:416-418. *)
Definition e_sicd130_SideOfTrack : string * list string := ("sicd130.SideOfTrack", [
  "L"; "R"]).

(** sicd_v1_3_0.py:421-423. *)
Definition e_sicd130_WFParametersRcvDemodType : string * list string := ("sicd130.WFParametersRcvDemodType", [
  "STRETCH"; "CHIRP"]).

Definition all_enums : list (string * list string) := [
  e_common10_CollectIdentifierType;
  e_common10_CornerStringType;
  e_common10_ErrorFrameType;
  e_common10_ModeIdentifierType;
  e_common10_NoiseLevelNoiseLevelType;
  e_common10_Polarization1Typevalue;
  e_common10_RadiometricTypeSigmaZeroSFIncidenceMap;
  e_sidd300_DownsamplingMethodType;
  e_sidd300_EarthModelType;
  e_sidd300_EqualizationAlgorithmType;
  e_sidd300_FilterDatabaseNameType;
  e_sidd300_FilterOperationType;
  e_sidd300_GeopositioningTypeCoordinateSystemType;
  e_sidd300_GeopositioningTypeGeodeticDatum;
  e_sidd300_GeopositioningTypeReferenceEllipsoid;
  e_sidd300_GeopositioningTypeSoundingDatum;
  e_sidd300_GeopositioningTypeVerticalDatum;
  e_sidd300_MeasurementTypeARPFlag;
  e_sidd300_PixelType;
  e_sidd300_RangeAdjustmentAlgorithmType;
  e_sidd300_RenderingIntentType;
  e_sidd300_ShadowDirectionType;
  e_sidd200_DownsamplingMethodType;
  e_sidd200_EarthModelType;
  e_sidd200_EqualizationAlgorithmType;
  e_sidd200_FilterDatabaseNameType;
  e_sidd200_FilterOperationType;
  e_sidd200_GeopositioningTypeCoordinateSystemType;
  e_sidd200_GeopositioningTypeGeodeticDatum;
  e_sidd200_GeopositioningTypeReferenceEllipsoid;
  e_sidd200_GeopositioningTypeSoundingDatum;
  e_sidd200_GeopositioningTypeVerticalDatum;
  e_sidd200_MeasurementTypeARPFlag;
  e_sidd200_PixelType;
  e_sidd200_RangeAdjustmentAlgorithmType;
  e_sidd200_RenderingIntentType;
  e_sidd200_ShadowDirectionType;
  e_sidd100_DecimationMethodType;
  e_sidd100_MagnificationMethodType;
  e_sidd100_PixelType;
  e_common01_CollectIdentifierType;
  e_common01_CornerStringType;
  e_common01_ErrorFrameType;
  e_common01_GammaZeroSFIncidenceMapType;
  e_common01_ModeIdentifierType;
  e_common01_PolarizationType;
  e_common01_SigmaZeroSFIncidenceMapType;
  e_ism_CVEnumISMSourceMarked;
  e_ism_CVEnumISMDissemValuesvalue;
  e_ism_CVEnumISMRelToValues;
  e_ism_CVEnumISMCompliesWithValues;
  e_ism_CVEnumISMFGIProtectedValues;
  e_ism_CVEnumISMNonUSControlsValues;
  e_ism_CVEnumISMOwnerProducerValues;
  e_ism_CVEnumISM25X;
  e_ism_CVEnumISMFGIOpenValues;
  e_ism_CVEnumISMSCIControlsValuesvalue;
  e_ism_CVEnumISMClassificationAll;
  e_ism_CVEnumISMNonICValues;
  e_ism13_CVEnumISMExemptFromValues;
  e_ism13_CVEnumISMDissemValues;
  e_ism13_CVEnumISMCompliesWithValues;
  e_ism13_CVEnumISMatomicEnergyMarkingsValuesvalue;
  e_ism13_CVEnumISMPocTypeValues;
  e_ism13_CVEnumISMNonUSControlsValues;
  e_ism13_CVEnumISM25X;
  e_ism13_CVEnumISMNoticeValues;
  e_ism13_CVEnumISMSCIControlsValuesvalue;
  e_ism13_CVEnumISMClassificationAll;
  e_ism13_CVEnumISMNonICValuesvalue;
  e_ism13_CVEnumISMCATFGIOpenValuesvalue;
  e_ism13_CVEnumISMCATFGIProtectedValuesvalue;
  e_ism13_CVEnumISMCATRelToValuesvalue;
  e_ism13_CVEnumISMCATOwnerProducerValuesvalue;
  e_sicd121_CollectType;
  e_sicd121_CornerStringType;
  e_sicd121_DirParamTypeSgn;
  e_sicd121_DualPolarizationType;
  e_sicd121_EarthModel;
  e_sicd121_ImagePlane;
  e_sicd121_ImageGridType;
  e_sicd121_ImagePixelType;
  e_sicd121_AzAutofocus;
  e_sicd121_ImageBeamComp;
  e_sicd121_ImageFormAlgo;
  e_sicd121_RgAutofocus;
  e_sicd121_STBeamComp;
  e_sicd121_NoiseLevelType;
  e_sicd121_OrientationType;
  e_sicd121_Polarization1Type;
  e_sicd121_Polarization2Type;
  e_sicd121_PosVelErrFrame;
  e_sicd121_RMAImageType;
  e_sicd121_RMAlgorithm;
  e_sicd121_RadarModeType;
  e_sicd121_SideOfTrack;
  e_sicd121_WFParametersRcvDemodType;
  e_sicd130_CollectType;
  e_sicd130_CornerStringType;
  e_sicd130_DirParamTypeSgn;
  e_sicd130_EarthModel;
  e_sicd130_ImagePlane;
  e_sicd130_ImageGridType;
  e_sicd130_ImagePixelType;
  e_sicd130_AzAutofocus;
  e_sicd130_ImageBeamComp;
  e_sicd130_ImageFormAlgo;
  e_sicd130_RgAutofocus;
  e_sicd130_STBeamComp;
  e_sicd130_NoiseLevelType;
  e_sicd130_OrientationType;
  e_sicd130_PosVelErrFrame;
  e_sicd130_RMAImageType;
  e_sicd130_RMAlgorithm;
  e_sicd130_RadarModeType;
  e_sicd130_SideOfTrack;
  e_sicd130_WFParametersRcvDemodType].
