(** The simple types of the schemas in schemas/sicd and schemas/sidd and their namespaces; a table made by a
    script from the schemas. *)
Require Import ZArith String List.
Require Import Verif.SchemaModel Verif.XsdModel.
Import ListNotations.
Local Open Scope string_scope.

(** targetNamespace. *)
Definition tns_sicd121 : string := "urn:SICD:1.2.1".
Definition tns_sicd130 : string := "urn:SICD:1.3.0".
Definition tns_sidd100 : string := "urn:SIDD:1.0.0".
Definition tns_sidd200 : string := "urn:SIDD:2.0.0".
Definition tns_sidd300 : string := "urn:SIDD:3.0.0".
Definition tns_common01 : string := "urn:SICommon:0.1".
Definition tns_common10 : string := "urn:SICommon:1.0".
Definition tns_sfa : string := "urn:SFA:1.2.0".
Definition tns_ism : string := "urn:us:gov:ic:ism".
Definition tns_ism13 : string := "urn:us:gov:ic:ism:13".

(** schemas/sicd/SICD_schema_V1.2.1_2018_12_13.xsd:24-29. *)
Definition s_sicd121_Neg90To90Type : Simple := (SDouble (Some (-90)%Z) (Some (90%Z, true))).

(** schemas/sicd/SICD_schema_V1.2.1_2018_12_13.xsd:31-36. *)
Definition s_sicd121_Neg180To180Type : Simple := (SDouble (Some (-180)%Z) (Some (180%Z, true))).

(** schemas/sicd/SICD_schema_V1.2.1_2018_12_13.xsd:76-81. *)
Definition s_sicd121_CornerAttrType : Simple := (SInt (Some 1%Z) (Some 4%Z)).

(** schemas/sicd/SICD_schema_V1.2.1_2018_12_13.xsd:83-90. *)
Definition s_sicd121_CornerStringType : Simple := SEnum false [
  "1:FRFC"; "2:FRLC"; "3:LRLC"; "4:LRFC"].

(** schemas/sicd/SICD_schema_V1.2.1_2018_12_13.xsd:264-274. *)
Definition s_sicd121_Polarization1Type : Simple := SEnum false [
  "V"; "H"; "RHC"; "LHC"; "OTHER"; "UNKNOWN"; "SEQUENCE"].

(** schemas/sicd/SICD_schema_V1.2.1_2018_12_13.xsd:276-284. *)
Definition s_sicd121_Polarization2Type : Simple := SEnum false [
  "V"; "H"; "RHC"; "LHC"; "OTHER"].

(** schemas/sicd/SICD_schema_V1.2.1_2018_12_13.xsd:286-307. *)
Definition s_sicd121_DualPolarizationType : Simple := SEnum false [
  "V:V"; "V:H"; "V:RHC"; "V:LHC"; "H:V"; "H:H"; "H:RHC"; "H:LHC"; "RHC:RHC"; "RHC:LHC"; "RHC:V"; "RHC:H"; "LHC:RHC"; "LHC:LHC"; "LHC:V"; "LHC:H";
  "OTHER"; "UNKNOWN"].

(** schemas/sicd/SICD_schema_V1.2.1_2018_12_13.xsd:254-262. *)
Definition s_sicd121_OrientationType : Simple := SEnum false [
  "UP"; "DOWN"; "LEFT"; "RIGHT"; "ARBITRARY"].

(** schemas/sicd/SICD_schema_V1.2.1_2018_12_13.xsd:10-15. *)
Definition s_sicd121_ZeroTo90Type : Simple := (SDouble (Some 0%Z) (Some (90%Z, true))).

(** schemas/sicd/SICD_schema_V1.2.1_2018_12_13.xsd:17-22. *)
Definition s_sicd121_ZeroTo360Type : Simple := (SDouble (Some 0%Z) (Some (360%Z, true))).

(** schemas/sicd/SICD_schema_V1.3.0_2021_11_30_FINAL.xsd:24-29. *)
Definition s_sicd130_Neg90To90Type : Simple := (SDouble (Some (-90)%Z) (Some (90%Z, true))).

(** schemas/sicd/SICD_schema_V1.3.0_2021_11_30_FINAL.xsd:31-36. *)
Definition s_sicd130_Neg180To180Type : Simple := (SDouble (Some (-180)%Z) (Some (180%Z, true))).

(** schemas/sicd/SICD_schema_V1.3.0_2021_11_30_FINAL.xsd:76-81. *)
Definition s_sicd130_CornerAttrType : Simple := (SInt (Some 1%Z) (Some 4%Z)).

(** schemas/sicd/SICD_schema_V1.3.0_2021_11_30_FINAL.xsd:83-90. *)
Definition s_sicd130_CornerStringType : Simple := SEnum false [
  "1:FRFC"; "2:FRLC"; "3:LRLC"; "4:LRFC"].

(** schemas/sicd/SICD_schema_V1.3.0_2021_11_30_FINAL.xsd:264-268. *)
Definition s_sicd130_Polarization1Type : Simple := SString false None ["[VHXYSE]|RHC|LHC|UNKNOWN|SEQUENCE|OTHER[^:]*"].

(** schemas/sicd/SICD_schema_V1.3.0_2021_11_30_FINAL.xsd:270-274. *)
Definition s_sicd130_Polarization2Type : Simple := SString false None ["[VHXYSE]|RHC|LHC|UNKNOWN|OTHER[^:]*"].

(** schemas/sicd/SICD_schema_V1.3.0_2021_11_30_FINAL.xsd:276-280. *)
Definition s_sicd130_DualPolarizationType : Simple := (SString false None ["(([VHXYSE]|RHC|LHC|OTHER[^:]*):([VHXYSE]|RHC|LHC|OTHER[^:]*))|OTHER|UNKNOWN"]).

(** schemas/sicd/SICD_schema_V1.3.0_2021_11_30_FINAL.xsd:254-262. *)
Definition s_sicd130_OrientationType : Simple := SEnum false [
  "UP"; "DOWN"; "LEFT"; "RIGHT"; "ARBITRARY"].

(** schemas/sicd/SICD_schema_V1.3.0_2021_11_30_FINAL.xsd:10-15. *)
Definition s_sicd130_ZeroTo90Type : Simple := (SDouble (Some 0%Z) (Some (90%Z, true))).

(** schemas/sicd/SICD_schema_V1.3.0_2021_11_30_FINAL.xsd:17-22. *)
Definition s_sicd130_ZeroTo360Type : Simple := (SDouble (Some 0%Z) (Some (360%Z, true))).

(** schemas/sidd/SICommonTypes.xsd:33-38. *)
Definition s_common01_CornerAttrType : Simple := (SInt (Some 1%Z) (Some 4%Z)).

(** schemas/sidd/SICommonTypes.xsd:39-46. *)
Definition s_common01_CornerStringType : Simple := SEnum false [
  "1:FRFC"; "2:FRLC"; "3:LRLC"; "4:LRFC"].

(** schemas/sidd/SICommonTypes.xsd:210-217. *)
Definition s_common01_ModeIdentifierType : Simple := SEnum false [
  "SPOTLIGHT"; "STRIPMAP"; "DYNAMIC STRIPMAP"; "SCANSAR"].

(** schemas/sidd/SICommonTypes.xsd:255-260. *)
Definition s_common01_CollectIdentifierType : Simple := SEnum false [
  "MONOSTATIC"; "BISTATIC"].

(** schemas/sidd/SICommonTypes.xsd:281-287. *)
Definition s_common01_ErrorFrameType : Simple := SEnum false [
  "ECF"; "RIC_ECF"; "RIC_ECI"].

(** schemas/sidd/SICommonTypes.xsd:430-435. *)
Definition s_common01_SigmaZeroSFIncidenceMapType : Simple := SEnum false [
  "APPLIED"; "NOT_APPLIED"].

(** schemas/sidd/SICommonTypes.xsd:436-441. *)
Definition s_common01_GammaZeroSFIncidenceMapType : Simple := SEnum false [
  "APPILED"; "NOT_APPLIED"].

(** schemas/sidd/SICommonTypes.xsd:249-254. *)
Definition s_common01_Neg180To180Type : Simple := (SDouble (Some (-180)%Z) (Some (180%Z, true))).

(** schemas/sidd/SIDD_schema_V1.0.0_2011_08_31.xsd:11-18. *)
Definition s_sidd100_TripleType : Simple := (SString false None ["([0-9]+),([0-9]+),([0-9]+)"]).

(** schemas/sidd/SIDD_schema_V1.0.0_2011_08_31.xsd:19-21. *)
Definition s_sidd100_LUT3ListType : Simple := SList s_sidd100_TripleType None.

(** schemas/sidd/SIDD_schema_V1.0.0_2011_08_31.xsd:8-10. *)
Definition s_sidd100_LUTListType : Simple := SList SInt32 None.

(** schemas/sidd/SIDD_schema_V1.0.0_2011_08_31.xsd:368-376. *)
Definition s_sidd100_PixelType : Simple := SEnum false [
  "MONO8I"; "MONO8LU"; "MONO16I"; "RGB8LU"; "RGB24I"].

(** schemas/sidd/SIDD_schema_V1.0.0_2011_08_31.xsd:90-99. *)
Definition s_sidd100_MagnificationMethodType : Simple := SEnum false [
  "NEAREST_NEIGHBOR"; "BILINEAR"; "LAGRANGE"].

(** schemas/sidd/SIDD_schema_V1.0.0_2011_08_31.xsd:100-110. *)
Definition s_sidd100_DecimationMethodType : Simple := SEnum false [
  "NEAREST_NEIGHBOR"; "BILINEAR"; "BRIGHTEST_PIXEL"; "LAGRANGE"].

(** schemas/sidd/external/ISM/Schema/CVEGenerated/CVEnumISMCompliesWith.xsd:12-35. *)
Definition s_ism_cvenum_CVEnumISMCompliesWithValues : Simple := SEnum true [
  "ICD-710"; "DoD5230.24"].

(** schemas/sidd/external/ISM/Schema/CVEGenerated/CVEnumISMCompliesWith.xsd:36-43. *)
Definition s_ism_cvenum_CVEnumISMCompliesWith : Simple := (SList s_ism_cvenum_CVEnumISMCompliesWithValues (Some 2%nat)).

(** schemas/sidd/external/ISM/Schema/CVEGenerated/CVEnumISMClassificationAll.xsd:12-50. *)
Definition s_ism_cvenum_CVEnumISMClassificationAll : Simple := SEnum true [
  "R"; "C"; "S"; "TS"; "U"].

(** schemas/sidd/external/ISM/Schema/CVEGenerated/CVEnumISMOwnerProducer.xsd:12-1381. *)
Definition s_ism_cvenum_CVEnumISMOwnerProducerValues : Simple := SEnum true [
  "FGI"; "ABW"; "AFG"; "AGO"; "AIA"; "ALA"; "ALB"; "AND"; "ANT"; "ARE"; "ARG"; "ARM"; "ASM"; "ATA"; "ATF"; "ATG"; "AUS"; "AUT"; "AZE"; "BDI"; "BEL";
  "BEN"; "BFA"; "BGD"; "BGR"; "BHR"; "BHS"; "BIH"; "BLM"; "BLR"; "BLZ"; "BMU"; "BOL"; "BRA"; "BRB"; "BRN"; "BTN"; "BVT"; "BWA"; "CAF"; "CAN"; "CCK";
  "CHE"; "CHL"; "CHN"; "CIV"; "CMR"; "COD"; "COG"; "COK"; "COL"; "COM"; "CPV"; "CRI"; "CUB"; "CXR"; "CYM"; "CYP"; "CZE"; "DEU"; "DJI"; "DMA"; "DNK";
  "DOM"; "DZA"; "ECU"; "EGY"; "ERI"; "ESH"; "ESP"; "EST"; "ETH"; "FIN"; "FJI"; "FLK"; "FRA"; "FRO"; "FSM"; "GAB"; "GBR"; "GEO"; "GGY"; "GHA"; "GIB";
  "GIN"; "GLP"; "GMB"; "GNB"; "GNQ"; "GRC"; "GRD"; "GRL"; "GTM"; "GUF"; "GUM"; "GUY"; "HKG"; "HMD"; "HND"; "HRV"; "HTI"; "HUN"; "IDN"; "IMN"; "IND";
  "IOT"; "IRL"; "IRN"; "IRQ"; "ISL"; "ISR"; "ITA"; "JAM"; "JEY"; "JOR"; "JPN"; "KAZ"; "KEN"; "KGZ"; "KHM"; "KIR"; "KNA"; "KOR"; "KWT"; "LAO"; "LBN";
  "LBR"; "LBY"; "LCA"; "LIE"; "LKA"; "LSO"; "LTU"; "LUX"; "LVA"; "MAC"; "MAF"; "MAR"; "MCO"; "MDA"; "MDG"; "MDV"; "MEX"; "MHL"; "MKD"; "MLI"; "MLT";
  "MMR"; "MNE"; "MNG"; "MNP"; "MOZ"; "MRT"; "MSR"; "MTQ"; "MUS"; "MWI"; "MYS"; "MYT"; "NAM"; "NCL"; "NER"; "NFK"; "NGA"; "NIC"; "NIU"; "NLD"; "NOR";
  "NPL"; "NRU"; "NZL"; "OMN"; "PAK"; "PAN"; "PCN"; "PER"; "PHL"; "PLW"; "PNG"; "POL"; "PRI"; "PRK"; "PRT"; "PRY"; "PSE"; "PYF"; "QAT"; "REU"; "ROU";
  "RUS"; "RWA"; "SAU"; "SDN"; "SEN"; "SGP"; "SGS"; "SHN"; "SJM"; "SLB"; "SLE"; "SLV"; "SMR"; "SOM"; "SPM"; "SRB"; "STP"; "SUR"; "SVK"; "SVN"; "SWE";
  "SWZ"; "SYC"; "SYR"; "TCA"; "TCD"; "TGO"; "THA"; "TJK"; "TKL"; "TKM"; "TLS"; "TON"; "TTO"; "TUN"; "TUR"; "TUV"; "TWN"; "TZA"; "UGA"; "UKR"; "UMI";
  "URY"; "USA"; "UZB"; "VAT"; "VCT"; "VEN"; "VGB"; "VIR"; "VNM"; "VUT"; "WLF"; "WSM"; "YEM"; "ZAF"; "ZMB"; "ZWE"; "ACGU"; "APFS"; "BWCS"; "CFCK";
  "CMFC"; "CMFP"; "CPMT"; "CWCS"; "EFOR"; "EUDA"; "FVEY"; "GCTF"; "GMIF"; "IESC"; "ISAF"; "KFOR"; "MCFI"; "MIFH"; "MLEC"; "NACT"; "NATO"; "SPAA";
  "TEYE"; "UNCK"].

(** schemas/sidd/external/ISM/Schema/CVEGenerated/CVEnumISMOwnerProducer.xsd:1382-1389. *)
Definition s_ism_cvenum_CVEnumISMOwnerProducer : Simple := (SList s_ism_cvenum_CVEnumISMOwnerProducerValues (Some 271%nat)).

(** schemas/sidd/external/ISM/Schema/CVEGenerated/CVEnumISMSCIControls.xsd:12-68. *)
Definition s_ism_cvenum_CVEnumISMSCIControlsValues : Simple := (SUnion (SString true None ["SI-G-[A-Z][A-Z][A-Z][A-Z]"; "SI-ECI-[A-Z][A-Z][A-Z]"]) (SEnum true ["HCS"; "KDK"; "SI"; "SI-G"; "TK"])).

(** schemas/sidd/external/ISM/Schema/CVEGenerated/CVEnumISMSCIControls.xsd:69-76. *)
Definition s_ism_cvenum_CVEnumISMSCIControls : Simple := (SList s_ism_cvenum_CVEnumISMSCIControlsValues (Some 1000%nat)).

(** schemas/sidd/external/ISM/Schema/CVEGenerated/CVEnumISMSAR.xsd:12-37. *)
Definition s_ism_cvenum_CVEnumISMSARValues : Simple := (SUnion (SString true None ["SAR-[A-Z][A-Z][A-Z]?"]) SToken).

(** schemas/sidd/external/ISM/Schema/CVEGenerated/CVEnumISMSAR.xsd:38-45. *)
Definition s_ism_cvenum_CVEnumISMSAR : Simple := (SList s_ism_cvenum_CVEnumISMSARValues (Some 1000%nat)).

(** schemas/sidd/external/ISM/Schema/CVEGenerated/CVEnumISMDissem.xsd:12-123. *)
Definition s_ism_cvenum_CVEnumISMDissemValues : Simple := (SUnion (SString true None ["RD-SG-[1-9][0-9]?"; "FRD-SG-[1-9][0-9]?"]) (SEnum true ["FOUO"; "OC"; "IMC"; "SAMI"; "NF"; "PR"; "REL"; "RELIDO"; "RD"; "RD-CNWDI"; "FRD"; "DCNI"; "UCNI"; "EYES"; "DSEN"; "FISA"])).

(** schemas/sidd/external/ISM/Schema/CVEGenerated/CVEnumISMDissem.xsd:124-131. *)
Definition s_ism_cvenum_CVEnumISMDissem : Simple := (SList s_ism_cvenum_CVEnumISMDissemValues (Some 1000%nat)).

(** schemas/sidd/external/ISM/Schema/CVEGenerated/CVEnumISMFGIOpen.xsd:12-1376. *)
Definition s_ism_cvenum_CVEnumISMFGIOpenValues : Simple := SEnum true [
  "UNKNOWN"; "ABW"; "AFG"; "AGO"; "AIA"; "ALA"; "ALB"; "AND"; "ANT"; "ARE"; "ARG"; "ARM"; "ASM"; "ATA"; "ATF"; "ATG"; "AUS"; "AUT"; "AZE"; "BDI";
  "BEL"; "BEN"; "BFA"; "BGD"; "BGR"; "BHR"; "BHS"; "BIH"; "BLM"; "BLR"; "BLZ"; "BMU"; "BOL"; "BRA"; "BRB"; "BRN"; "BTN"; "BVT"; "BWA"; "CAF"; "CAN";
  "CCK"; "CHE"; "CHL"; "CHN"; "CIV"; "CMR"; "COD"; "COG"; "COK"; "COL"; "COM"; "CPV"; "CRI"; "CUB"; "CXR"; "CYM"; "CYP"; "CZE"; "DEU"; "DJI"; "DMA";
  "DNK"; "DOM"; "DZA"; "ECU"; "EGY"; "ERI"; "ESH"; "ESP"; "EST"; "ETH"; "FIN"; "FJI"; "FLK"; "FRA"; "FRO"; "FSM"; "GAB"; "GBR"; "GEO"; "GGY"; "GHA";
  "GIB"; "GIN"; "GLP"; "GMB"; "GNB"; "GNQ"; "GRC"; "GRD"; "GRL"; "GTM"; "GUF"; "GUM"; "GUY"; "HKG"; "HMD"; "HND"; "HRV"; "HTI"; "HUN"; "IDN"; "IMN";
  "IND"; "IOT"; "IRL"; "IRN"; "IRQ"; "ISL"; "ISR"; "ITA"; "JAM"; "JEY"; "JOR"; "JPN"; "KAZ"; "KEN"; "KGZ"; "KHM"; "KIR"; "KNA"; "KOR"; "KWT"; "LAO";
  "LBN"; "LBR"; "LBY"; "LCA"; "LIE"; "LKA"; "LSO"; "LTU"; "LUX"; "LVA"; "MAC"; "MAF"; "MAR"; "MCO"; "MDA"; "MDG"; "MDV"; "MEX"; "MHL"; "MKD"; "MLI";
  "MLT"; "MMR"; "MNE"; "MNG"; "MNP"; "MOZ"; "MRT"; "MSR"; "MTQ"; "MUS"; "MWI"; "MYS"; "MYT"; "NAM"; "NCL"; "NER"; "NFK"; "NGA"; "NIC"; "NIU"; "NLD";
  "NOR"; "NPL"; "NRU"; "NZL"; "OMN"; "PAK"; "PAN"; "PCN"; "PER"; "PHL"; "PLW"; "PNG"; "POL"; "PRI"; "PRK"; "PRT"; "PRY"; "PSE"; "PYF"; "QAT"; "REU";
  "ROU"; "RUS"; "RWA"; "SAU"; "SDN"; "SEN"; "SGP"; "SGS"; "SHN"; "SJM"; "SLB"; "SLE"; "SLV"; "SMR"; "SOM"; "SPM"; "SRB"; "STP"; "SUR"; "SVK"; "SVN";
  "SWE"; "SWZ"; "SYC"; "SYR"; "TCA"; "TCD"; "TGO"; "THA"; "TJK"; "TKL"; "TKM"; "TLS"; "TON"; "TTO"; "TUN"; "TUR"; "TUV"; "TWN"; "TZA"; "UGA"; "UKR";
  "UMI"; "URY"; "UZB"; "VAT"; "VCT"; "VEN"; "VGB"; "VIR"; "VNM"; "VUT"; "WLF"; "WSM"; "YEM"; "ZAF"; "ZMB"; "ZWE"; "ACGU"; "APFS"; "BWCS"; "CFCK";
  "CMFC"; "CMFP"; "CPMT"; "CWCS"; "EFOR"; "EUDA"; "FVEY"; "GCTF"; "GMIF"; "IESC"; "ISAF"; "KFOR"; "MCFI"; "MIFH"; "MLEC"; "NACT"; "NATO"; "SPAA";
  "TEYE"; "UNCK"].

(** schemas/sidd/external/ISM/Schema/CVEGenerated/CVEnumISMFGIOpen.xsd:1377-1384. *)
Definition s_ism_cvenum_CVEnumISMFGIOpen : Simple := (SList s_ism_cvenum_CVEnumISMFGIOpenValues (Some 270%nat)).

(** schemas/sidd/external/ISM/Schema/CVEGenerated/CVEnumISMFGIProtected.xsd:12-1376. *)
Definition s_ism_cvenum_CVEnumISMFGIProtectedValues : Simple := SEnum true [
  "FGI"; "ABW"; "AFG"; "AGO"; "AIA"; "ALA"; "ALB"; "AND"; "ANT"; "ARE"; "ARG"; "ARM"; "ASM"; "ATA"; "ATF"; "ATG"; "AUS"; "AUT"; "AZE"; "BDI"; "BEL";
  "BEN"; "BFA"; "BGD"; "BGR"; "BHR"; "BHS"; "BIH"; "BLM"; "BLR"; "BLZ"; "BMU"; "BOL"; "BRA"; "BRB"; "BRN"; "BTN"; "BVT"; "BWA"; "CAF"; "CAN"; "CCK";
  "CHE"; "CHL"; "CHN"; "CIV"; "CMR"; "COD"; "COG"; "COK"; "COL"; "COM"; "CPV"; "CRI"; "CUB"; "CXR"; "CYM"; "CYP"; "CZE"; "DEU"; "DJI"; "DMA"; "DNK";
  "DOM"; "DZA"; "ECU"; "EGY"; "ERI"; "ESH"; "ESP"; "EST"; "ETH"; "FIN"; "FJI"; "FLK"; "FRA"; "FRO"; "FSM"; "GAB"; "GBR"; "GEO"; "GGY"; "GHA"; "GIB";
  "GIN"; "GLP"; "GMB"; "GNB"; "GNQ"; "GRC"; "GRD"; "GRL"; "GTM"; "GUF"; "GUM"; "GUY"; "HKG"; "HMD"; "HND"; "HRV"; "HTI"; "HUN"; "IDN"; "IMN"; "IND";
  "IOT"; "IRL"; "IRN"; "IRQ"; "ISL"; "ISR"; "ITA"; "JAM"; "JEY"; "JOR"; "JPN"; "KAZ"; "KEN"; "KGZ"; "KHM"; "KIR"; "KNA"; "KOR"; "KWT"; "LAO"; "LBN";
  "LBR"; "LBY"; "LCA"; "LIE"; "LKA"; "LSO"; "LTU"; "LUX"; "LVA"; "MAC"; "MAF"; "MAR"; "MCO"; "MDA"; "MDG"; "MDV"; "MEX"; "MHL"; "MKD"; "MLI"; "MLT";
  "MMR"; "MNE"; "MNG"; "MNP"; "MOZ"; "MRT"; "MSR"; "MTQ"; "MUS"; "MWI"; "MYS"; "MYT"; "NAM"; "NCL"; "NER"; "NFK"; "NGA"; "NIC"; "NIU"; "NLD"; "NOR";
  "NPL"; "NRU"; "NZL"; "OMN"; "PAK"; "PAN"; "PCN"; "PER"; "PHL"; "PLW"; "PNG"; "POL"; "PRI"; "PRK"; "PRT"; "PRY"; "PSE"; "PYF"; "QAT"; "REU"; "ROU";
  "RUS"; "RWA"; "SAU"; "SDN"; "SEN"; "SGP"; "SGS"; "SHN"; "SJM"; "SLB"; "SLE"; "SLV"; "SMR"; "SOM"; "SPM"; "SRB"; "STP"; "SUR"; "SVK"; "SVN"; "SWE";
  "SWZ"; "SYC"; "SYR"; "TCA"; "TCD"; "TGO"; "THA"; "TJK"; "TKL"; "TKM"; "TLS"; "TON"; "TTO"; "TUN"; "TUR"; "TUV"; "TWN"; "TZA"; "UGA"; "UKR"; "UMI";
  "URY"; "UZB"; "VAT"; "VCT"; "VEN"; "VGB"; "VIR"; "VNM"; "VUT"; "WLF"; "WSM"; "YEM"; "ZAF"; "ZMB"; "ZWE"; "ACGU"; "APFS"; "BWCS"; "CFCK"; "CMFC";
  "CMFP"; "CPMT"; "CWCS"; "EFOR"; "EUDA"; "FVEY"; "GCTF"; "GMIF"; "IESC"; "ISAF"; "KFOR"; "MCFI"; "MIFH"; "MLEC"; "NACT"; "NATO"; "SPAA"; "TEYE";
  "UNCK"].

(** schemas/sidd/external/ISM/Schema/CVEGenerated/CVEnumISMFGIProtected.xsd:1377-1384. *)
Definition s_ism_cvenum_CVEnumISMFGIProtected : Simple := (SList s_ism_cvenum_CVEnumISMFGIProtectedValues (Some 270%nat)).

(** schemas/sidd/external/ISM/Schema/CVEGenerated/CVEnumISMRelTo.xsd:12-1376. *)
Definition s_ism_cvenum_CVEnumISMRelToValues : Simple := SEnum true [
  "USA"; "ABW"; "AFG"; "AGO"; "AIA"; "ALA"; "ALB"; "AND"; "ANT"; "ARE"; "ARG"; "ARM"; "ASM"; "ATA"; "ATF"; "ATG"; "AUS"; "AUT"; "AZE"; "BDI"; "BEL";
  "BEN"; "BFA"; "BGD"; "BGR"; "BHR"; "BHS"; "BIH"; "BLM"; "BLR"; "BLZ"; "BMU"; "BOL"; "BRA"; "BRB"; "BRN"; "BTN"; "BVT"; "BWA"; "CAF"; "CAN"; "CCK";
  "CHE"; "CHL"; "CHN"; "CIV"; "CMR"; "COD"; "COG"; "COK"; "COL"; "COM"; "CPV"; "CRI"; "CUB"; "CXR"; "CYM"; "CYP"; "CZE"; "DEU"; "DJI"; "DMA"; "DNK";
  "DOM"; "DZA"; "ECU"; "EGY"; "ERI"; "ESH"; "ESP"; "EST"; "ETH"; "FIN"; "FJI"; "FLK"; "FRA"; "FRO"; "FSM"; "GAB"; "GBR"; "GEO"; "GGY"; "GHA"; "GIB";
  "GIN"; "GLP"; "GMB"; "GNB"; "GNQ"; "GRC"; "GRD"; "GRL"; "GTM"; "GUF"; "GUM"; "GUY"; "HKG"; "HMD"; "HND"; "HRV"; "HTI"; "HUN"; "IDN"; "IMN"; "IND";
  "IOT"; "IRL"; "IRN"; "IRQ"; "ISL"; "ISR"; "ITA"; "JAM"; "JEY"; "JOR"; "JPN"; "KAZ"; "KEN"; "KGZ"; "KHM"; "KIR"; "KNA"; "KOR"; "KWT"; "LAO"; "LBN";
  "LBR"; "LBY"; "LCA"; "LIE"; "LKA"; "LSO"; "LTU"; "LUX"; "LVA"; "MAC"; "MAF"; "MAR"; "MCO"; "MDA"; "MDG"; "MDV"; "MEX"; "MHL"; "MKD"; "MLI"; "MLT";
  "MMR"; "MNE"; "MNG"; "MNP"; "MOZ"; "MRT"; "MSR"; "MTQ"; "MUS"; "MWI"; "MYS"; "MYT"; "NAM"; "NCL"; "NER"; "NFK"; "NGA"; "NIC"; "NIU"; "NLD"; "NOR";
  "NPL"; "NRU"; "NZL"; "OMN"; "PAK"; "PAN"; "PCN"; "PER"; "PHL"; "PLW"; "PNG"; "POL"; "PRI"; "PRK"; "PRT"; "PRY"; "PSE"; "PYF"; "QAT"; "REU"; "ROU";
  "RUS"; "RWA"; "SAU"; "SDN"; "SEN"; "SGP"; "SGS"; "SHN"; "SJM"; "SLB"; "SLE"; "SLV"; "SMR"; "SOM"; "SPM"; "SRB"; "STP"; "SUR"; "SVK"; "SVN"; "SWE";
  "SWZ"; "SYC"; "SYR"; "TCA"; "TCD"; "TGO"; "THA"; "TJK"; "TKL"; "TKM"; "TLS"; "TON"; "TTO"; "TUN"; "TUR"; "TUV"; "TWN"; "TZA"; "UGA"; "UKR"; "UMI";
  "URY"; "UZB"; "VAT"; "VCT"; "VEN"; "VGB"; "VIR"; "VNM"; "VUT"; "WLF"; "WSM"; "YEM"; "ZAF"; "ZMB"; "ZWE"; "ACGU"; "APFS"; "BWCS"; "CFCK"; "CMFC";
  "CMFP"; "CPMT"; "CWCS"; "EFOR"; "EUDA"; "FVEY"; "GCTF"; "GMIF"; "IESC"; "ISAF"; "KFOR"; "MCFI"; "MIFH"; "MLEC"; "NACT"; "NATO"; "SPAA"; "TEYE";
  "UNCK"].

(** schemas/sidd/external/ISM/Schema/CVEGenerated/CVEnumISMRelTo.xsd:1377-1384. *)
Definition s_ism_cvenum_CVEnumISMRelTo : Simple := (SList s_ism_cvenum_CVEnumISMRelToValues (Some 270%nat)).

(** schemas/sidd/external/ISM/Schema/CVEGenerated/CVEnumISMNonIC.xsd:12-70. *)
Definition s_ism_cvenum_CVEnumISMNonICValues : Simple := SEnum true [
  "SC"; "SINFO"; "DS"; "XD"; "ND"; "SBU"; "SBU-NF"; "LES"; "LES-NF"].

(** schemas/sidd/external/ISM/Schema/CVEGenerated/CVEnumISMNonIC.xsd:71-78. *)
Definition s_ism_cvenum_CVEnumISMNonIC : Simple := (SList s_ism_cvenum_CVEnumISMNonICValues (Some 9%nat)).

(** schemas/sidd/external/ISM/Schema/CVEGenerated/CVEnumISMNonUSControls.xsd:12-40. *)
Definition s_ism_cvenum_CVEnumISMNonUSControlsValues : Simple := SEnum true [
  "ATOMAL"; "BOHEMIA"; "BALK"].

(** schemas/sidd/external/ISM/Schema/CVEGenerated/CVEnumISMNonUSControls.xsd:41-48. *)
Definition s_ism_cvenum_CVEnumISMNonUSControls : Simple := (SList s_ism_cvenum_CVEnumISMNonUSControlsValues (Some 3%nat)).

(** schemas/sidd/external/ISM/Schema/CVEGenerated/CVEnumISM25X.xsd:12-75. *)
Definition s_ism_cvenum_CVEnumISM25X : Simple := SEnum true [
  "25X1"; "25X1-human"; "25X2"; "25X3"; "25X4"; "25X5"; "25X6"; "25X7"; "25X8"; "25X9"].

(** schemas/sidd/external/ISM/Schema/CVEGenerated/CVEnumISMSourceMarked.xsd:12-70. *)
Definition s_ism_cvenum_CVEnumISMSourceMarked : Simple := SEnum true [
  "OADR"; "X1"; "X2"; "X3"; "X4"; "X5"; "X6"; "X7"; "X8"].

(** schemas/sidd/SICommonTypes.xsd:201-209. *)
Definition s_common01_PolarizationType : Simple := SEnum false [
  "V"; "H"; "RHC"; "LHC"; "OTHER"].

(** schemas/sidd/SICommonTypes.xsd:237-242. *)
Definition s_common01_ZeroTo90Type : Simple := (SDouble (Some 0%Z) (Some (90%Z, true))).

(** schemas/sidd/SICommonTypes_V1.0.xsd:33-38. *)
Definition s_common10_CornerAttrType : Simple := (SInt (Some 1%Z) (Some 4%Z)).

(** schemas/sidd/SICommonTypes_V1.0.xsd:39-46. *)
Definition s_common10_CornerStringType : Simple := SEnum false [
  "1:FRFC"; "2:FRLC"; "3:LRLC"; "4:LRFC"].

(** schemas/sidd/SICommonTypes_V1.0.xsd:394-399. *)
Definition s_common10_Neg90To90Type : Simple := (SDouble (Some (-90)%Z) (Some (90%Z, true))).

(** schemas/sidd/SICommonTypes_V1.0.xsd:400-405. *)
Definition s_common10_Neg180To180Type : Simple := (SDouble (Some (-180)%Z) (Some (180%Z, true))).

(** schemas/sidd/SICommonTypes_V1.0.xsd:256-263. *)
Definition s_common10_ModeIdentifierType : Simple := SEnum false [
  "SPOTLIGHT"; "STRIPMAP"; "DYNAMIC STRIPMAP"; "SCANSAR"].

(** schemas/sidd/SICommonTypes_V1.0.xsd:406-411. *)
Definition s_common10_CollectIdentifierType : Simple := SEnum false [
  "MONOSTATIC"; "BISTATIC"].

(** schemas/sidd/SICommonTypes_V1.0.xsd:432-438. *)
Definition s_common10_ErrorFrameType : Simple := SEnum false [
  "ECF"; "RIC_ECF"; "RIC_ECI"].

(** schemas/sidd/SICommonTypes_V1.0.xsd:388-393. *)
Definition s_common10_ZeroToExclusive360Type : Simple := (SDouble (Some 0%Z) (Some (360%Z, false))).

(** schemas/sidd/external/ISM-v13/Schema/ISM/CVEGenerated/CVEnumISMClassificationAll.xsd:15-53. *)
Definition s_cvenum_ism_classification_all_CVEnumISMClassificationAll : Simple := SEnum true [
  "R"; "C"; "S"; "TS"; "U"].

(** schemas/sidd/external/ISM-v13/Schema/ISMCAT/CVEGenerated/CVEnumISMCATOwnerProducer.xsd:15-1564. *)
Definition s_cvenum_ismcat_ownerproducer_CVEnumISMCATOwnerProducerValues : Simple := (SUnion (SString true None ["NATO/[a-zA-Z\-_]"]) (SEnum true ["FGI"; "ABW"; "AFG"; "AGO"; "AIA"; "ALB"; "AND"; "ARE"; "ARG"; "ARM"; "ASM"; "ATA"; "ATF"; "ATG"; "AUS"; "AUT"; "AX2"; "AZE"; "BDI"; "BEL"; "BEN"; "BES"; "BFA"; "BGD"; "BGR"; "BHR"; "BHS"; "BIH"; "BLM"; "BLR"; "BLZ"; "BMU"; "BOL"; "BRA"; "BRB"; "BRN"; "BTN"; "BVT"; "BWA"; "CAF"; "CAN"; "CCK"; "CHE"; "CHL"; "CHN"; "CIV"; "CMR"; "COD"; "COG"; "COK"; "COL"; "COM"; "CPT"; "CPV"; "CRI"; "CUB"; "CUW"; "CXR"; "CYM"; "CYP"; "CZE"; "DEU"; "DGA"; "DJI"; "DMA"; "DNK"; "DOM"; "DZA"; "ECU"; "EGY"; "ERI"; "ESH"; "ESP"; "EST"; "ETH"; "FIN"; "FJI"; "FLK"; "FRA"; "FRO"; "FSM"; "GAB"; "GBR"; "GEO"; "GGY"; "GHA"; "GIB"; "GIN"; "GLP"; "GMB"; "GNB"; "GNQ"; "GRC"; "GRD"; "GRL"; "GTM"; "GUF"; "GUM"; "GUY"; "HKG"; "HMD"; "HND"; "HRV"; "HTI"; "HUN"; "IDN"; "IMN"; "IND"; "IOT"; "IRL"; "IRN"; "IRQ"; "ISL"; "ISR"; "ITA"; "JAM"; "JEY"; "JOR"; "JPN"; "KAZ"; "KEN"; "KGZ"; "KHM"; "KIR"; "KNA"; "KOR"; "KWT"; "LAO"; "LBN"; "LBR"; "LBY"; "LCA"; "LIE"; "LKA"; "LSO"; "LTU"; "LUX"; "LVA"; "MAC"; "MAF"; "MAR"; "MCO"; "MDA"; "MDG"; "MDV"; "MEX"; "MHL"; "MKD"; "MLI"; "MLT"; "MMR"; "MNE"; "MNG"; "MNP"; "MOZ"; "MRT"; "MSR"; "MTQ"; "MUS"; "MWI"; "MYS"; "MYT"; "NAM"; "NCL"; "NER"; "NFK"; "NGA"; "NIC"; "NIU"; "NLD"; "NOR"; "NPL"; "NRU"; "NZL"; "OMN"; "PAK"; "PAN"; "PCN"; "PER"; "PHL"; "PLW"; "PNG"; "POL"; "PRI"; "PRK"; "PRT"; "PRY"; "PSE"; "PYF"; "QAT"; "REU"; "ROU"; "RUS"; "RWA"; "SAU"; "SDN"; "SEN"; "SGP"; "SGS"; "SHN"; "SLB"; "SLE"; "SLV"; "SMR"; "SOM"; "SPM"; "SRB"; "SSD"; "STP"; "SUR"; "SVK"; "SVN"; "SWE"; "SWZ"; "SXM"; "SYC"; "SYR"; "TCA"; "TCD"; "TGO"; "THA"; "TJK"; "TKL"; "TKM"; "TLS"; "TON"; "TTO"; "TUN"; "TUR"; "TUV"; "TWN"; "TZA"; "UGA"; "UKR"; "URY"; "USA"; "UZB"; "VAT"; "VCT"; "VEN"; "VGB"; "VIR"; "VNM"; "VUT"; "WLF"; "WSM"; "XAC"; "XAZ"; "XBI"; "XBK"; "XCR"; "XCS"; "XCY"; "XEU"; "XGL"; "XGZ"; "XHO"; "XJA"; "XJM"; "XJN"; "XJV"; "XKM"; "XKN"; "XKR"; "XKS"; "XMW"; "XNV"; "XPL"; "XPR"; "XQP"; "XQZ"; "XSP"; "XSV"; "XTR"; "XWB"; "XWK"; "XXD"; "XXX"; "YEM"; "ZAF"; "ZMB"; "ZWE"; "ACGU"; "APFS"; "BWCS"; "CFCK"; "CMFC"; "CMFP"; "CPMT"; "CTOC"; "CWCS"; "FVEY"; "GCTF"; "GMIF"; "ISAF"; "KFOR"; "MLEC"; "NACT"; "NATO"; "NCFE"; "OSTY"; "SPAA"; "TEYE"; "UNCK"])).

(** schemas/sidd/external/ISM-v13/Schema/ISMCAT/CVEGenerated/CVEnumISMCATOwnerProducer.xsd:1565-1572. *)
Definition s_cvenum_ismcat_ownerproducer_CVEnumISMCATOwnerProducer : Simple := (SList s_cvenum_ismcat_ownerproducer_CVEnumISMCATOwnerProducerValues (Some 1000%nat)).

(** schemas/sidd/external/ISM-v13/Schema/ISM/CVEGenerated/CVEnumISMSCIControls.xsd:15-141. *)
Definition s_cvenum_ism_scicontrols_CVEnumISMSCIControlsValues : Simple := (SUnion (SString true None ["KDK-BLFH-[A-Z0-9]{1,6}"; "KDK-IDIT-[A-Z0-9]{1,6}"; "KDK-KAND-[A-Z0-9]{1,6}"; "RSV-[A-Z0-9]{3}"; "SI-G-[A-Z]{4}"; "SI-[A-Z]{3}"; "SI-[A-Z]{3}-[A-Z]{4}"]) (SEnum true ["EL"; "EL-EU"; "EL-NK"; "HCS"; "HCS-O"; "HCS-P"; "KDK"; "KDK-BLFH"; "KDK-IDIT"; "KDK-KAND"; "RSV"; "SI"; "SI-G"; "TK"])).

(** schemas/sidd/external/ISM-v13/Schema/ISM/CVEGenerated/CVEnumISMSCIControls.xsd:142-149. *)
Definition s_cvenum_ism_scicontrols_CVEnumISMSCIControls : Simple := (SList s_cvenum_ism_scicontrols_CVEnumISMSCIControlsValues (Some 1000%nat)).

(** schemas/sidd/external/ISM-v13/Schema/ISM/CVEGenerated/CVEnumISMSAR.xsd:15-48. *)
Definition s_cvenum_ism_sar_CVEnumISMSARValues : Simple := SString true None ["[A-Z_0-9\-]{1,100}"; "[A-Z]{2,}"; "[A-Z]{2,}-[A-Z][A-Z0-9]+"; "[A-Z]{2,}-[A-Z][A-Z0-9]+-[A-Z0-9]{2,}"].

(** schemas/sidd/external/ISM-v13/Schema/ISM/CVEGenerated/CVEnumISMSAR.xsd:49-56. *)
Definition s_cvenum_ism_sar_CVEnumISMSAR : Simple := (SList s_cvenum_ism_sar_CVEnumISMSARValues (Some 1000%nat)).

(** schemas/sidd/external/ISM-v13/Schema/ISM/CVEGenerated/CVEnumISMAtomicEnergyMarkings.xsd:15-76. *)
Definition s_cvenum_ism_atomicEnergyMarkings_CVEnumISMatomicEnergyMarkingsValues : Simple := (SUnion (SString true None ["RD-SG-((14)|(15)|(18)|(20))"; "FRD-SG-((14)|(15)|(18)|(20))"]) (SEnum true ["RD"; "RD-CNWDI"; "FRD"; "DCNI"; "UCNI"; "TFNI"])).

(** schemas/sidd/external/ISM-v13/Schema/ISM/CVEGenerated/CVEnumISMAtomicEnergyMarkings.xsd:77-84. *)
Definition s_cvenum_ism_atomicEnergyMarkings_CVEnumISMatomicEnergyMarkings : Simple := (SList s_cvenum_ism_atomicEnergyMarkings_CVEnumISMatomicEnergyMarkingsValues (Some 1000%nat)).

(** schemas/sidd/external/ISM-v13/Schema/ISM/CVEGenerated/CVEnumISMDissem.xsd:15-93. *)
Definition s_cvenum_ism_dissem_CVEnumISMDissemValues : Simple := SEnum true [
  "RS"; "FOUO"; "OC"; "OC-USGOV"; "IMC"; "NF"; "PR"; "REL"; "RELIDO"; "EYES"; "DSEN"; "FISA"; "DISPLAYONLY"].

(** schemas/sidd/external/ISM-v13/Schema/ISM/CVEGenerated/CVEnumISMDissem.xsd:94-101. *)
Definition s_cvenum_ism_dissem_CVEnumISMDissem : Simple := (SList s_cvenum_ism_dissem_CVEnumISMDissemValues (Some 13%nat)).

(** schemas/sidd/external/ISM-v13/Schema/ISMCAT/CVEGenerated/CVEnumISMCATRelTo.xsd:15-1559. *)
Definition s_cvenum_ismcat_relto_CVEnumISMCATRelToValues : Simple := (SUnion (SString true None ["NATO/[a-zA-Z\-_]"]) (SEnum true ["USA"; "ABW"; "AFG"; "AGO"; "AIA"; "ALB"; "AND"; "ARE"; "ARG"; "ARM"; "ASM"; "ATA"; "ATF"; "ATG"; "AUS"; "AUT"; "AX2"; "AZE"; "BDI"; "BEL"; "BEN"; "BES"; "BFA"; "BGD"; "BGR"; "BHR"; "BHS"; "BIH"; "BLM"; "BLR"; "BLZ"; "BMU"; "BOL"; "BRA"; "BRB"; "BRN"; "BTN"; "BVT"; "BWA"; "CAF"; "CAN"; "CCK"; "CHE"; "CHL"; "CHN"; "CIV"; "CMR"; "COD"; "COG"; "COK"; "COL"; "COM"; "CPT"; "CPV"; "CRI"; "CUB"; "CUW"; "CXR"; "CYM"; "CYP"; "CZE"; "DEU"; "DGA"; "DJI"; "DMA"; "DNK"; "DOM"; "DZA"; "ECU"; "EGY"; "ERI"; "ESH"; "ESP"; "EST"; "ETH"; "FIN"; "FJI"; "FLK"; "FRA"; "FRO"; "FSM"; "GAB"; "GBR"; "GEO"; "GGY"; "GHA"; "GIB"; "GIN"; "GLP"; "GMB"; "GNB"; "GNQ"; "GRC"; "GRD"; "GRL"; "GTM"; "GUF"; "GUM"; "GUY"; "HKG"; "HMD"; "HND"; "HRV"; "HTI"; "HUN"; "IDN"; "IMN"; "IND"; "IOT"; "IRL"; "IRN"; "IRQ"; "ISL"; "ISR"; "ITA"; "JAM"; "JEY"; "JOR"; "JPN"; "KAZ"; "KEN"; "KGZ"; "KHM"; "KIR"; "KNA"; "KOR"; "KWT"; "LAO"; "LBN"; "LBR"; "LBY"; "LCA"; "LIE"; "LKA"; "LSO"; "LTU"; "LUX"; "LVA"; "MAC"; "MAF"; "MAR"; "MCO"; "MDA"; "MDG"; "MDV"; "MEX"; "MHL"; "MKD"; "MLI"; "MLT"; "MMR"; "MNE"; "MNG"; "MNP"; "MOZ"; "MRT"; "MSR"; "MTQ"; "MUS"; "MWI"; "MYS"; "MYT"; "NAM"; "NCL"; "NER"; "NFK"; "NGA"; "NIC"; "NIU"; "NLD"; "NOR"; "NPL"; "NRU"; "NZL"; "OMN"; "PAK"; "PAN"; "PCN"; "PER"; "PHL"; "PLW"; "PNG"; "POL"; "PRI"; "PRK"; "PRT"; "PRY"; "PSE"; "PYF"; "QAT"; "REU"; "ROU"; "RUS"; "RWA"; "SAU"; "SDN"; "SEN"; "SGP"; "SGS"; "SHN"; "SLB"; "SLE"; "SLV"; "SMR"; "SOM"; "SPM"; "SRB"; "SSD"; "STP"; "SUR"; "SVK"; "SVN"; "SWE"; "SWZ"; "SXM"; "SYC"; "SYR"; "TCA"; "TCD"; "TGO"; "THA"; "TJK"; "TKL"; "TKM"; "TLS"; "TON"; "TTO"; "TUN"; "TUR"; "TUV"; "TWN"; "TZA"; "UGA"; "UKR"; "URY"; "UZB"; "VAT"; "VCT"; "VEN"; "VGB"; "VIR"; "VNM"; "VUT"; "WLF"; "WSM"; "XAC"; "XAZ"; "XBI"; "XBK"; "XCR"; "XCS"; "XCY"; "XEU"; "XGL"; "XGZ"; "XHO"; "XJA"; "XJM"; "XJN"; "XJV"; "XKM"; "XKN"; "XKR"; "XKS"; "XMW"; "XNV"; "XPL"; "XPR"; "XQP"; "XQZ"; "XSP"; "XSV"; "XTR"; "XWB"; "XWK"; "XXD"; "XXX"; "YEM"; "ZAF"; "ZMB"; "ZWE"; "ACGU"; "APFS"; "BWCS"; "CFCK"; "CMFC"; "CMFP"; "CPMT"; "CTOC"; "CWCS"; "FVEY"; "GCTF"; "GMIF"; "ISAF"; "KFOR"; "MLEC"; "NACT"; "NATO"; "NCFE"; "OSTY"; "SPAA"; "TEYE"; "UNCK"])).

(** schemas/sidd/external/ISM-v13/Schema/ISMCAT/CVEGenerated/CVEnumISMCATRelTo.xsd:1560-1567. *)
Definition s_cvenum_ismcat_relto_CVEnumISMCATRelTo : Simple := (SList s_cvenum_ismcat_relto_CVEnumISMCATRelToValues (Some 1000%nat)).

(** schemas/sidd/external/ISM-v13/Schema/ISMCAT/CVEGenerated/CVEnumISMCATFGIOpen.xsd:15-1559. *)
Definition s_cvenum_ismcat_fgiopen_CVEnumISMCATFGIOpenValues : Simple := (SUnion (SString true None ["NATO/[a-zA-Z\-_]"]) (SEnum true ["ABW"; "AFG"; "AGO"; "AIA"; "ALB"; "AND"; "ARE"; "ARG"; "ARM"; "ASM"; "ATA"; "ATF"; "ATG"; "AUS"; "AUT"; "AX1"; "AX2"; "AZE"; "BDI"; "BEL"; "BEN"; "BES"; "BFA"; "BGD"; "BGR"; "BHR"; "BHS"; "BIH"; "BLM"; "BLR"; "BLZ"; "BMU"; "BOL"; "BRA"; "BRB"; "BRN"; "BTN"; "BVT"; "BWA"; "CAF"; "CAN"; "CCK"; "CHE"; "CHL"; "CHN"; "CIV"; "CMR"; "COD"; "COG"; "COK"; "COL"; "COM"; "CPT"; "CPV"; "CRI"; "CUB"; "CUW"; "CXR"; "CYM"; "CYP"; "CZE"; "DEU"; "DGA"; "DJI"; "DMA"; "DNK"; "DOM"; "DZA"; "ECU"; "EGY"; "ERI"; "ESH"; "ESP"; "EST"; "ETH"; "FIN"; "FJI"; "FLK"; "FRA"; "FRO"; "FSM"; "GAB"; "GBR"; "GEO"; "GGY"; "GHA"; "GIB"; "GIN"; "GLP"; "GMB"; "GNB"; "GNQ"; "GRC"; "GRD"; "GRL"; "GTM"; "GUF"; "GUM"; "GUY"; "HKG"; "HMD"; "HND"; "HRV"; "HTI"; "HUN"; "IDN"; "IMN"; "IND"; "IOT"; "IRL"; "IRN"; "IRQ"; "ISL"; "ISR"; "ITA"; "JAM"; "JEY"; "JOR"; "JPN"; "KAZ"; "KEN"; "KGZ"; "KHM"; "KIR"; "KNA"; "KOR"; "KWT"; "LAO"; "LBN"; "LBR"; "LBY"; "LCA"; "LIE"; "LKA"; "LSO"; "LTU"; "LUX"; "LVA"; "MAC"; "MAF"; "MAR"; "MCO"; "MDA"; "MDG"; "MDV"; "MEX"; "MHL"; "MKD"; "MLI"; "MLT"; "MMR"; "MNE"; "MNG"; "MNP"; "MOZ"; "MRT"; "MSR"; "MTQ"; "MUS"; "MWI"; "MYS"; "MYT"; "NAM"; "NCL"; "NER"; "NFK"; "NGA"; "NIC"; "NIU"; "NLD"; "NOR"; "NPL"; "NRU"; "NZL"; "OMN"; "PAK"; "PAN"; "PCN"; "PER"; "PHL"; "PLW"; "PNG"; "POL"; "PRI"; "PRK"; "PRT"; "PRY"; "PSE"; "PYF"; "QAT"; "REU"; "ROU"; "RUS"; "RWA"; "SAU"; "SDN"; "SEN"; "SGP"; "SGS"; "SHN"; "SLB"; "SLE"; "SLV"; "SMR"; "SOM"; "SPM"; "SRB"; "SSD"; "STP"; "SUR"; "SVK"; "SVN"; "SWE"; "SWZ"; "SXM"; "SYC"; "SYR"; "TCA"; "TCD"; "TGO"; "THA"; "TJK"; "TKL"; "TKM"; "TLS"; "TON"; "TTO"; "TUN"; "TUR"; "TUV"; "TWN"; "TZA"; "UGA"; "UKR"; "URY"; "UZB"; "VAT"; "VCT"; "VEN"; "VGB"; "VIR"; "VNM"; "VUT"; "WLF"; "WSM"; "XAC"; "XAZ"; "XBI"; "XBK"; "XCR"; "XCS"; "XCY"; "XEU"; "XGL"; "XGZ"; "XHO"; "XJA"; "XJM"; "XJN"; "XJV"; "XKM"; "XKN"; "XKR"; "XKS"; "XMW"; "XNV"; "XPL"; "XPR"; "XQP"; "XQZ"; "XSP"; "XSV"; "XTR"; "XWB"; "XWK"; "XXD"; "XXX"; "YEM"; "ZAF"; "ZMB"; "ZWE"; "ACGU"; "APFS"; "BWCS"; "CFCK"; "CMFC"; "CMFP"; "CPMT"; "CTOC"; "CWCS"; "FVEY"; "GCTF"; "GMIF"; "ISAF"; "KFOR"; "MLEC"; "NACT"; "NATO"; "NCFE"; "OSTY"; "SPAA"; "TEYE"; "UNCK"])).

(** schemas/sidd/external/ISM-v13/Schema/ISMCAT/CVEGenerated/CVEnumISMCATFGIOpen.xsd:1560-1567. *)
Definition s_cvenum_ismcat_fgiopen_CVEnumISMCATFGIOpen : Simple := (SList s_cvenum_ismcat_fgiopen_CVEnumISMCATFGIOpenValues (Some 1000%nat)).

(** schemas/sidd/external/ISM-v13/Schema/ISMCAT/CVEGenerated/CVEnumISMCATFGIProtected.xsd:15-1559. *)
Definition s_cvenum_ismcat_fgiprotected_CVEnumISMCATFGIProtectedValues : Simple := (SUnion (SString true None ["NATO/[a-zA-Z\-_]"]) (SEnum true ["FGI"; "ABW"; "AFG"; "AGO"; "AIA"; "ALB"; "AND"; "ARE"; "ARG"; "ARM"; "ASM"; "ATA"; "ATF"; "ATG"; "AUS"; "AUT"; "AX2"; "AZE"; "BDI"; "BEL"; "BEN"; "BES"; "BFA"; "BGD"; "BGR"; "BHR"; "BHS"; "BIH"; "BLM"; "BLR"; "BLZ"; "BMU"; "BOL"; "BRA"; "BRB"; "BRN"; "BTN"; "BVT"; "BWA"; "CAF"; "CAN"; "CCK"; "CHE"; "CHL"; "CHN"; "CIV"; "CMR"; "COD"; "COG"; "COK"; "COL"; "COM"; "CPT"; "CPV"; "CRI"; "CUB"; "CUW"; "CXR"; "CYM"; "CYP"; "CZE"; "DEU"; "DGA"; "DJI"; "DMA"; "DNK"; "DOM"; "DZA"; "ECU"; "EGY"; "ERI"; "ESH"; "ESP"; "EST"; "ETH"; "FIN"; "FJI"; "FLK"; "FRA"; "FRO"; "FSM"; "GAB"; "GBR"; "GEO"; "GGY"; "GHA"; "GIB"; "GIN"; "GLP"; "GMB"; "GNB"; "GNQ"; "GRC"; "GRD"; "GRL"; "GTM"; "GUF"; "GUM"; "GUY"; "HKG"; "HMD"; "HND"; "HRV"; "HTI"; "HUN"; "IDN"; "IMN"; "IND"; "IOT"; "IRL"; "IRN"; "IRQ"; "ISL"; "ISR"; "ITA"; "JAM"; "JEY"; "JOR"; "JPN"; "KAZ"; "KEN"; "KGZ"; "KHM"; "KIR"; "KNA"; "KOR"; "KWT"; "LAO"; "LBN"; "LBR"; "LBY"; "LCA"; "LIE"; "LKA"; "LSO"; "LTU"; "LUX"; "LVA"; "MAC"; "MAF"; "MAR"; "MCO"; "MDA"; "MDG"; "MDV"; "MEX"; "MHL"; "MKD"; "MLI"; "MLT"; "MMR"; "MNE"; "MNG"; "MNP"; "MOZ"; "MRT"; "MSR"; "MTQ"; "MUS"; "MWI"; "MYS"; "MYT"; "NAM"; "NCL"; "NER"; "NFK"; "NGA"; "NIC"; "NIU"; "NLD"; "NOR"; "NPL"; "NRU"; "NZL"; "OMN"; "PAK"; "PAN"; "PCN"; "PER"; "PHL"; "PLW"; "PNG"; "POL"; "PRI"; "PRK"; "PRT"; "PRY"; "PSE"; "PYF"; "QAT"; "REU"; "ROU"; "RUS"; "RWA"; "SAU"; "SDN"; "SEN"; "SGP"; "SGS"; "SHN"; "SLB"; "SLE"; "SLV"; "SMR"; "SOM"; "SPM"; "SRB"; "SSD"; "STP"; "SUR"; "SVK"; "SVN"; "SWE"; "SWZ"; "SXM"; "SYC"; "SYR"; "TCA"; "TCD"; "TGO"; "THA"; "TJK"; "TKL"; "TKM"; "TLS"; "TON"; "TTO"; "TUN"; "TUR"; "TUV"; "TWN"; "TZA"; "UGA"; "UKR"; "URY"; "UZB"; "VAT"; "VCT"; "VEN"; "VGB"; "VIR"; "VNM"; "VUT"; "WLF"; "WSM"; "XAC"; "XAZ"; "XBI"; "XBK"; "XCR"; "XCS"; "XCY"; "XEU"; "XGL"; "XGZ"; "XHO"; "XJA"; "XJM"; "XJN"; "XJV"; "XKM"; "XKN"; "XKR"; "XKS"; "XMW"; "XNV"; "XPL"; "XPR"; "XQP"; "XQZ"; "XSP"; "XSV"; "XTR"; "XWB"; "XWK"; "XXD"; "XXX"; "YEM"; "ZAF"; "ZMB"; "ZWE"; "ACGU"; "APFS"; "BWCS"; "CFCK"; "CMFC"; "CMFP"; "CPMT"; "CTOC"; "CWCS"; "FVEY"; "GCTF"; "GMIF"; "ISAF"; "KFOR"; "MLEC"; "NACT"; "NATO"; "NCFE"; "OSTY"; "SPAA"; "TEYE"; "UNCK"])).

(** schemas/sidd/external/ISM-v13/Schema/ISMCAT/CVEGenerated/CVEnumISMCATFGIProtected.xsd:1560-1567. *)
Definition s_cvenum_ismcat_fgiprotected_CVEnumISMCATFGIProtected : Simple := (SList s_cvenum_ismcat_fgiprotected_CVEnumISMCATFGIProtectedValues (Some 1000%nat)).

(** schemas/sidd/external/ISM-v13/Schema/ISM/CVEGenerated/CVEnumISMNonIC.xsd:15-86. *)
Definition s_cvenum_ism_nonic_CVEnumISMNonICValues : Simple := (SUnion (SString true None ["ACCM-[A-Z0-9\-_]{1,61}"; "NNPI"]) (SEnum true ["DS"; "XD"; "ND"; "SBU"; "SBU-NF"; "LES"; "LES-NF"; "SSI"])).

(** schemas/sidd/external/ISM-v13/Schema/ISM/CVEGenerated/CVEnumISMNonIC.xsd:87-94. *)
Definition s_cvenum_ism_nonic_CVEnumISMNonIC : Simple := (SList s_cvenum_ism_nonic_CVEnumISMNonICValues (Some 1000%nat)).

(** schemas/sidd/external/ISM-v13/Schema/ISM/CVEGenerated/CVEnumISMNonUSControls.xsd:15-43. *)
Definition s_cvenum_ism_nonuscontrols_CVEnumISMNonUSControlsValues : Simple := SEnum true [
  "ATOMAL"; "BOHEMIA"; "BALK"].

(** schemas/sidd/external/ISM-v13/Schema/ISM/CVEGenerated/CVEnumISMNonUSControls.xsd:44-51. *)
Definition s_cvenum_ism_nonuscontrols_CVEnumISMNonUSControls : Simple := (SList s_cvenum_ism_nonuscontrols_CVEnumISMNonUSControlsValues (Some 3%nat)).

(** schemas/sidd/external/ISM-v13/Schema/ISM/CVEGenerated/CVEnumISM25X.xsd:15-207. *)
Definition s_cvenum_ism_25x_CVEnumISM25X : Simple := SEnum true [
  "AEA"; "NATO"; "NATO-AEA"; "25X1"; "25X1-EO-12951"; "25X2"; "25X3"; "25X4"; "25X5"; "25X6"; "25X7"; "25X8"; "25X9"; "50X1-HUM"; "50X1"; "50X2-WMD";
  "50X6"].

(** schemas/sidd/external/ISM-v13/Schema/ISM/IC-ISM.xsd:598-608. *)
Definition s_ism13_LongStringType : Simple := (SString false (Some 32000%nat) []).

(** schemas/sidd/external/ISM-v13/Schema/ISM/CVEGenerated/CVEnumISMPocType.xsd:15-63. *)
Definition s_cvenum_ism_pocType_CVEnumISMPocTypeValues : Simple := SEnum true [
  "ICD-710"; "DoD-Dist-B"; "DoD-Dist-C"; "DoD-Dist-D"; "DoD-Dist-E"; "DoD-Dist-F"; "DoD-Dist-X"].

(** schemas/sidd/external/ISM-v13/Schema/ISM/CVEGenerated/CVEnumISMPocType.xsd:64-71. *)
Definition s_cvenum_ism_pocType_CVEnumISMPocType : Simple := (SList s_cvenum_ism_pocType_CVEnumISMPocTypeValues (Some 7%nat)).

(** schemas/sidd/external/ISM-v13/Schema/ISM/CVEGenerated/CVEnumISMNotice.xsd:15-128. *)
Definition s_cvenum_ism_notice_CVEnumISMNoticeValues : Simple := SEnum true [
  "FISA"; "IMC"; "CNWDI"; "RD"; "FRD"; "DS"; "LES"; "LES-NF"; "DSEN"; "DoD-Dist-A"; "DoD-Dist-B"; "DoD-Dist-C"; "DoD-Dist-D"; "DoD-Dist-E";
  "DoD-Dist-F"; "DoD-Dist-X"; "US-Person"; "pre13526ORCON"; "POC"; "COMSEC"].

(** schemas/sidd/external/ISM-v13/Schema/ISM/CVEGenerated/CVEnumISMNotice.xsd:129-136. *)
Definition s_cvenum_ism_notice_CVEnumISMNotice : Simple := (SList s_cvenum_ism_notice_CVEnumISMNoticeValues (Some 20%nat)).

(** schemas/sidd/external/ISM-v13/Schema/ISM/IC-ISM.xsd:1080-1090. *)
Definition s_ism13_ShortStringType : Simple := (SString false (Some 256%nat) []).

(** schemas/sidd/SIDD_schema_V2.0.0_2019_05_31.xsd:10-17. *)
Definition s_sidd200_TripleType : Simple := (SString false None ["([0-9]+),([0-9]+),([0-9]+)"]).

(** schemas/sidd/SIDD_schema_V2.0.0_2019_05_31.xsd:18-20. *)
Definition s_sidd200_LUT3ListType : Simple := SList s_sidd200_TripleType None.

(** schemas/sidd/SIDD_schema_V2.0.0_2019_05_31.xsd:7-9. *)
Definition s_sidd200_LUTListType : Simple := SList SInt32 None.

(** schemas/sidd/SIDD_schema_V2.0.0_2019_05_31.xsd:822-830. *)
Definition s_sidd200_PixelType : Simple := SEnum false [
  "MONO8I"; "MONO8LU"; "MONO16I"; "RGB8LU"; "RGB24I"].

(** schemas/sidd/SIDD_schema_V2.0.0_2019_05_31.xsd:394-398. *)
Definition s_sidd200_EqualizationAlgorithmType : Simple := SEnum false [
  "1DLUT"].

(** schemas/sidd/SIDD_schema_V2.0.0_2019_05_31.xsd:308-315. *)
Definition s_sidd200_FilterDatabaseNameType : Simple := SEnum false [
  "BILINEAR"; "CUBIC"; "LAGRANGE"; "NEAREST NEIGHBOR"].

(** schemas/sidd/SIDD_schema_V2.0.0_2019_05_31.xsd:316-321. *)
Definition s_sidd200_FilterOperationType : Simple := SEnum false [
  "CONVOLUTION"; "CORRELATION"].

(** schemas/sidd/SIDD_schema_V2.0.0_2019_05_31.xsd:200-209. *)
Definition s_sidd200_DownsamplingMethodType : Simple := SEnum false [
  "DECIMATE"; "MAX PIXEL"; "AVERAGE"; "NEAREST NEIGHBOR"; "BILINEAR"; "LAGRANGE"].

(** schemas/sidd/SIDD_schema_V2.0.0_2019_05_31.xsd:479-490. *)
Definition s_sidd200_ShadowDirectionType : Simple := SEnum false [
  "UP"; "DOWN"; "LEFT"; "RIGHT"; "ARBITRARY"].

(** schemas/sidd/SIDD_schema_V2.0.0_2019_05_31.xsd:537-544. *)
Definition s_sidd200_RenderingIntentType : Simple := SEnum false [
  "PERCEPTUAL"; "SATURATION"; "RELATIVE"; "ABSOLUTE"].

(** schemas/sidd/SIDD_schema_V2.0.0_2019_05_31.xsd:594-603. *)
Definition s_sidd200_RangeAdjustmentAlgorithmType : Simple := SEnum false [
  "AUTO"; "MANUAL"; "NONE"].

(** schemas/sidd/external/ISM-v13/Schema/ISM/CVEGenerated/CVEnumISMCompliesWith.xsd:15-59. *)
Definition s_cvenum_ism_complieswith_CVEnumISMCompliesWithValues : Simple := SEnum true [
  "USGov"; "USIC"; "USDOD"; "OtherAuthority"].

(** schemas/sidd/external/ISM-v13/Schema/ISM/CVEGenerated/CVEnumISMCompliesWith.xsd:60-67. *)
Definition s_cvenum_ism_complieswith_CVEnumISMCompliesWith : Simple := (SList s_cvenum_ism_complieswith_CVEnumISMCompliesWithValues (Some 4%nat)).

(** schemas/sidd/external/ISM-v13/Schema/ISM/CVEGenerated/CVEnumISMExemptFrom.xsd:15-44. *)
Definition s_cvenum_ism_exemptfrom_CVEnumISMExemptFromValues : Simple := SEnum true [
  "IC_710_MANDATORY_FDR"; "DOD_DISTRO_STATEMENT"].

(** schemas/sidd/external/ISM-v13/Schema/ISM/CVEGenerated/CVEnumISMExemptFrom.xsd:45-52. *)
Definition s_cvenum_ism_exemptfrom_CVEnumISMExemptFrom : Simple := (SList s_cvenum_ism_exemptfrom_CVEnumISMExemptFromValues (Some 2%nat)).

(** schemas/sidd/SIDD_schema_V2.0.0_2019_05_31.xsd:956-963. *)
Definition s_sidd200_EarthModelType : Simple := SEnum false [
  "WGS_84"].

(** schemas/sidd/SICommonTypes_V1.0.xsd:207-230. *)
Definition s_common10_Polarization1Type : Simple := (SUnion (SEnum false ["V"; "H"; "X"; "Y"; "S"; "E"; "RHC"; "LHC"; "OTHER"; "UNKNOWN"; "SEQUENCE"]) (SString false None ["OTHER.*"])).

(** schemas/sidd/SICommonTypes_V1.0.xsd:376-381. *)
Definition s_common10_ZeroTo90Type : Simple := (SDouble (Some 0%Z) (Some (90%Z, true))).

(** schemas/sidd/SICommonTypes_V1.0.xsd:382-387. *)
Definition s_common10_ZeroToExclusive180Type : Simple := (SDouble (Some 0%Z) (Some (180%Z, false))).

(** schemas/sidd/SIDD_schema_V3.0.0.xsd:10-17. *)
Definition s_sidd300_TripleType : Simple := (SString false None ["([0-9]+),([0-9]+),([0-9]+)"]).

(** schemas/sidd/SIDD_schema_V3.0.0.xsd:18-20. *)
Definition s_sidd300_LUT3ListType : Simple := SList s_sidd300_TripleType None.

(** schemas/sidd/SIDD_schema_V3.0.0.xsd:7-9. *)
Definition s_sidd300_LUTListType : Simple := SList SInt32 None.

(** schemas/sidd/SIDD_schema_V3.0.0.xsd:822-830. *)
Definition s_sidd300_PixelType : Simple := SEnum false [
  "MONO8I"; "MONO8LU"; "MONO16I"; "RGB8LU"; "RGB24I"].

(** schemas/sidd/SIDD_schema_V3.0.0.xsd:394-398. *)
Definition s_sidd300_EqualizationAlgorithmType : Simple := SEnum false [
  "1DLUT"].

(** schemas/sidd/SIDD_schema_V3.0.0.xsd:308-315. *)
Definition s_sidd300_FilterDatabaseNameType : Simple := SEnum false [
  "BILINEAR"; "CUBIC"; "LAGRANGE"; "NEAREST NEIGHBOR"].

(** schemas/sidd/SIDD_schema_V3.0.0.xsd:316-321. *)
Definition s_sidd300_FilterOperationType : Simple := SEnum false [
  "CONVOLUTION"; "CORRELATION"].

(** schemas/sidd/SIDD_schema_V3.0.0.xsd:200-209. *)
Definition s_sidd300_DownsamplingMethodType : Simple := SEnum false [
  "DECIMATE"; "MAX PIXEL"; "AVERAGE"; "NEAREST NEIGHBOR"; "BILINEAR"; "LAGRANGE"].

(** schemas/sidd/SIDD_schema_V3.0.0.xsd:479-490. *)
Definition s_sidd300_ShadowDirectionType : Simple := SEnum false [
  "UP"; "DOWN"; "LEFT"; "RIGHT"; "ARBITRARY"].

(** schemas/sidd/SIDD_schema_V3.0.0.xsd:537-544. *)
Definition s_sidd300_RenderingIntentType : Simple := SEnum false [
  "PERCEPTUAL"; "SATURATION"; "RELATIVE"; "ABSOLUTE"].

(** schemas/sidd/SIDD_schema_V3.0.0.xsd:594-603. *)
Definition s_sidd300_RangeAdjustmentAlgorithmType : Simple := SEnum false [
  "AUTO"; "MANUAL"; "NONE"].

(** schemas/sidd/SIDD_schema_V3.0.0.xsd:931-938. *)
Definition s_sidd300_EarthModelType : Simple := SEnum false [
  "WGS_84"].

