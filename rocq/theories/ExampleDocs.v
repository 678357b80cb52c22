(** The SICD and SIDD documents among the project's test data, as the trees an XML parser makes of
    them: test/data/sicd and test/data/sidd.  Generated from these files; line breaks and tabulators
    are spaces here. *)
Require Import String List.
Require Import Verif.SchemaModel.
Import ListNotations.
Local Open Scope string_scope.

Definition in_sidd : string := "urn:SIDD:2.0.0".
Definition in_ism : string := "urn:us:gov:ic:ism:13".
Definition in_none : string := "".
Definition in_common : string := "urn:SICommon:1.0".
Definition in_sicd : string := "urn:SICD:1.2.1".

(** test/data/sidd/example.sidd.xml:1-521. *)
Definition example_sidd : Xml :=
Node (in_sidd, "SIDD") [] "  " [
 Node (in_sidd, "ProductCreation") [] "   " [
  Node (in_sidd, "ProcessorInformation") [] "    " [
   Node (in_sidd, "Application") [] "Valkyrie Systems Sage | Umbra Image Formation processor 0.3.24.1" [];
   Node (in_sidd, "ProcessingDateTime") [] "2023-04-09T23:14:12.060090Z" [];
   Node (in_sidd, "Site") [] "None" []];
  Node (in_sidd, "Classification") [((in_ism, "DESVersion"), "13"); ((in_ism, "ISMCATCESVersion"), "1"); ((in_ism, "resourceElement"), "true"); ((in_ism, "compliesWith"), "USGov"); ((in_ism, "createDate"), "2023-04-09"); ((in_ism, "classification"), "U"); ((in_ism, "ownerProducer"), "USA")] "" [];
  Node (in_sidd, "ProductName") [] "unknown" [];
  Node (in_sidd, "ProductClass") [] "unknown" []];
 Node (in_sidd, "Display") [] "   " [
  Node (in_sidd, "PixelType") [] "MONO8I" [];
  Node (in_sidd, "NumBands") [] "1" [];
  Node (in_sidd, "NonInteractiveProcessing") [((in_none, "band"), "1")] "    " [
   Node (in_sidd, "ProductGenerationOptions") [] "     " [
    Node (in_sidd, "DataRemapping") [] "      " [
     Node (in_sidd, "LUTName") [] "UNKNOWN" [];
     Node (in_sidd, "Predefined") [] "       " [
      Node (in_sidd, "DatabaseName") [] "UNKNOWN" []]]];
   Node (in_sidd, "RRDS") [] "     " [
    Node (in_sidd, "DownsamplingMethod") [] "AVERAGE" [];
    Node (in_sidd, "AntiAlias") [] "      " [
     Node (in_sidd, "FilterName") [] "PLACEHOLDER" [];
     Node (in_sidd, "FilterKernel") [] "       " [
      Node (in_sidd, "Predefined") [] "        " [
       Node (in_sidd, "DatabaseName") [] "BILINEAR" []]];
     Node (in_sidd, "Operation") [] "CONVOLUTION" []];
    Node (in_sidd, "Interpolation") [] "      " [
     Node (in_sidd, "FilterName") [] "PLACEHOLDER" [];
     Node (in_sidd, "FilterKernel") [] "       " [
      Node (in_sidd, "Predefined") [] "        " [
       Node (in_sidd, "DatabaseName") [] "BILINEAR" []]];
     Node (in_sidd, "Operation") [] "CORRELATION" []]]];
  Node (in_sidd, "InteractiveProcessing") [((in_none, "band"), "1")] "    " [
   Node (in_sidd, "GeometricTransform") [] "     " [
    Node (in_sidd, "Scaling") [] "      " [
     Node (in_sidd, "AntiAlias") [] "       " [
      Node (in_sidd, "FilterName") [] "PLACEHOLDER" [];
      Node (in_sidd, "FilterKernel") [] "        " [
       Node (in_sidd, "Predefined") [] "         " [
        Node (in_sidd, "DatabaseName") [] "BILINEAR" []]];
      Node (in_sidd, "Operation") [] "CONVOLUTION" []];
     Node (in_sidd, "Interpolation") [] "       " [
      Node (in_sidd, "FilterName") [] "PLACEHOLDER" [];
      Node (in_sidd, "FilterKernel") [] "        " [
       Node (in_sidd, "Predefined") [] "         " [
        Node (in_sidd, "DatabaseName") [] "BILINEAR" []]];
      Node (in_sidd, "Operation") [] "CORRELATION" []]];
    Node (in_sidd, "Orientation") [] "      " [
     Node (in_sidd, "ShadowDirection") [] "DOWN" []]];
   Node (in_sidd, "SharpnessEnhancement") [] "     " [
    Node (in_sidd, "ModularTransferFunctionCompensation") [] "      " [
     Node (in_sidd, "FilterName") [] "PLACEHOLDER" [];
     Node (in_sidd, "FilterKernel") [] "       " [
      Node (in_sidd, "Predefined") [] "        " [
       Node (in_sidd, "DatabaseName") [] "BILINEAR" []]];
     Node (in_sidd, "Operation") [] "CONVOLUTION" []]];
   Node (in_sidd, "DynamicRangeAdjustment") [] "     " [
    Node (in_sidd, "AlgorithmType") [] "NONE" [];
    Node (in_sidd, "BandStatsSource") [] "1" []]]];
 Node (in_sidd, "GeoData") [] "   " [
  Node (in_sidd, "EarthModel") [] "WGS_84" [];
  Node (in_sidd, "ImageCorners") [] "    " [
   Node (in_sidd, "ICP") [((in_none, "index"), "1:FRFC")] "     " [
    Node (in_common, "Lat") [] "29.960450990351426" [];
    Node (in_common, "Lon") [] "31.667670895971167" []];
   Node (in_sidd, "ICP") [((in_none, "index"), "2:FRLC")] "     " [
    Node (in_common, "Lat") [] "29.9259416082788" [];
    Node (in_common, "Lon") [] "31.6797850524771" []];
   Node (in_sidd, "ICP") [((in_none, "index"), "3:LRLC")] "     " [
    Node (in_common, "Lat") [] "29.915386465958854" [];
    Node (in_common, "Lon") [] "31.640168122695233" []];
   Node (in_sidd, "ICP") [((in_none, "index"), "4:LRFC")] "     " [
    Node (in_common, "Lat") [] "29.949892260080535" [];
    Node (in_common, "Lon") [] "31.62804157169811" []]];
  Node (in_sidd, "ValidData") [((in_none, "size"), "32")] "    " [
   Node (in_sidd, "Vertex") [((in_none, "index"), "1")] "     " [
    Node (in_common, "Lat") [] "29.94319384923477" [];
    Node (in_common, "Lon") [] "31.673724714797274" []];
   Node (in_sidd, "Vertex") [((in_none, "index"), "2")] "     " [
    Node (in_common, "Lat") [] "29.938879874267304" [];
    Node (in_common, "Lon") [] "31.67524000544734" []];
   Node (in_sidd, "Vertex") [((in_none, "index"), "3")] "     " [
    Node (in_common, "Lat") [] "29.934567922238845" [];
    Node (in_common, "Lon") [] "31.676751120794282" []];
   Node (in_sidd, "Vertex") [((in_none, "index"), "4")] "     " [
    Node (in_common, "Lat") [] "29.930254598381723" [];
    Node (in_common, "Lon") [] "31.678266272261585" []];
   Node (in_sidd, "Vertex") [((in_none, "index"), "5")] "     " [
    Node (in_common, "Lat") [] "29.925940200682756" [];
    Node (in_common, "Lon") [] "31.679781915722277" []];
   Node (in_sidd, "Vertex") [((in_none, "index"), "6")] "     " [
    Node (in_common, "Lat") [] "29.92462197157604" [];
    Node (in_common, "Lon") [] "31.674829312331454" []];
   Node (in_sidd, "Vertex") [((in_none, "index"), "7")] "     " [
    Node (in_common, "Lat") [] "29.923304045961235" [];
    Node (in_common, "Lon") [] "31.66987810189035" []];
   Node (in_sidd, "Vertex") [((in_none, "index"), "8")] "     " [
    Node (in_common, "Lat") [] "29.92198395591529" [];
    Node (in_common, "Lon") [] "31.66492583549445" []];
   Node (in_sidd, "Vertex") [((in_none, "index"), "9")] "     " [
    Node (in_common, "Lat") [] "29.92066417165179" [];
    Node (in_common, "Lon") [] "31.65997493861876" []];
   Node (in_sidd, "Vertex") [((in_none, "index"), "10")] "     " [
    Node (in_common, "Lat") [] "29.91934499664061" [];
    Node (in_common, "Lon") [] "31.65502185949088" []];
   Node (in_sidd, "Vertex") [((in_none, "index"), "11")] "     " [
    Node (in_common, "Lat") [] "29.918025833387624" [];
    Node (in_common, "Lon") [] "31.650073654391683" []];
   Node (in_sidd, "Vertex") [((in_none, "index"), "12")] "     " [
    Node (in_common, "Lat") [] "29.91670758049515" [];
    Node (in_common, "Lon") [] "31.645119721062123" []];
   Node (in_sidd, "Vertex") [((in_none, "index"), "13")] "     " [
    Node (in_common, "Lat") [] "29.91538656711767" [];
    Node (in_common, "Lon") [] "31.640171742885567" []];
   Node (in_sidd, "Vertex") [((in_none, "index"), "14")] "     " [
    Node (in_common, "Lat") [] "29.919700517301457" [];
    Node (in_common, "Lon") [] "31.63865524223968" []];
   Node (in_sidd, "Vertex") [((in_none, "index"), "15")] "     " [
    Node (in_common, "Lat") [] "29.924013389992197" [];
    Node (in_common, "Lon") [] "31.63713919845624" []];
   Node (in_sidd, "Vertex") [((in_none, "index"), "16")] "     " [
    Node (in_common, "Lat") [] "29.928325196113626" [];
    Node (in_common, "Lon") [] "31.63562359978144" []];
   Node (in_sidd, "Vertex") [((in_none, "index"), "17")] "     " [
    Node (in_common, "Lat") [] "29.93263872113726" [];
    Node (in_common, "Lon") [] "31.634107346967088" []];
   Node (in_sidd, "Vertex") [((in_none, "index"), "18")] "     " [
    Node (in_common, "Lat") [] "29.93695119893857" [];
    Node (in_common, "Lon") [] "31.632591530258725" []];
   Node (in_sidd, "Vertex") [((in_none, "index"), "19")] "     " [
    Node (in_common, "Lat") [] "29.941262640400613" [];
    Node (in_common, "Lon") [] "31.631076138173853" []];
   Node (in_sidd, "Vertex") [((in_none, "index"), "20")] "     " [
    Node (in_common, "Lat") [] "29.945575827299596" [];
    Node (in_common, "Lon") [] "31.6295600929707" []];
   Node (in_sidd, "Vertex") [((in_none, "index"), "21")] "     " [
    Node (in_common, "Lat") [] "29.94988799715326" [];
    Node (in_common, "Lon") [] "31.628044463837348" []];
   Node (in_sidd, "Vertex") [((in_none, "index"), "22")] "     " [
    Node (in_common, "Lat") [] "29.951209129380363" [];
    Node (in_common, "Lon") [] "31.632996976380046" []];
   Node (in_sidd, "Vertex") [((in_none, "index"), "23")] "     " [
    Node (in_common, "Lat") [] "29.952527811679108" [];
    Node (in_common, "Lon") [] "31.63795187069465" []];
   Node (in_sidd, "Vertex") [((in_none, "index"), "24")] "     " [
    Node (in_common, "Lat") [] "29.953849880931536" [];
    Node (in_common, "Lon") [] "31.642903531736685" []];
   Node (in_sidd, "Vertex") [((in_none, "index"), "25")] "     " [
    Node (in_common, "Lat") [] "29.95516980376943" [];
    Node (in_common, "Lon") [] "31.64785407656195" []];
   Node (in_sidd, "Vertex") [((in_none, "index"), "26")] "     " [
    Node (in_common, "Lat") [] "29.956487277001372" [];
    Node (in_common, "Lon") [] "31.65280703071413" []];
   Node (in_sidd, "Vertex") [((in_none, "index"), "27")] "     " [
    Node (in_common, "Lat") [] "29.9578078271165" [];
    Node (in_common, "Lon") [] "31.657760296476912" []];
   Node (in_sidd, "Vertex") [((in_none, "index"), "28")] "     " [
    Node (in_common, "Lat") [] "29.959125922453165" [];
    Node (in_common, "Lon") [] "31.66271600612899" []];
   Node (in_sidd, "Vertex") [((in_none, "index"), "29")] "     " [
    Node (in_common, "Lat") [] "29.96044494722674" [];
    Node (in_common, "Lon") [] "31.667666032408036" []];
   Node (in_sidd, "Vertex") [((in_none, "index"), "30")] "     " [
    Node (in_common, "Lat") [] "29.956132320090838" [];
    Node (in_common, "Lon") [] "31.66918055820365" []];
   Node (in_sidd, "Vertex") [((in_none, "index"), "31")] "     " [
    Node (in_common, "Lat") [] "29.95181867987054" [];
    Node (in_common, "Lon") [] "31.670695534533824" []];
   Node (in_sidd, "Vertex") [((in_none, "index"), "32")] "     " [
    Node (in_common, "Lat") [] "29.9475067807872" [];
    Node (in_common, "Lon") [] "31.672209895044087" []]]];
 Node (in_sidd, "Measurement") [] "   " [
  Node (in_sidd, "PlaneProjection") [] "    " [
   Node (in_sidd, "ReferencePoint") [] "     " [
    Node (in_common, "ECEF") [] "      " [
     Node (in_common, "X") [] "4709073.0" [];
     Node (in_common, "Y") [] "2903153.0" [];
     Node (in_common, "Z") [] "3164621.25" []];
    Node (in_common, "Point") [] "      " [
     Node (in_common, "Row") [] "7664.0" [];
     Node (in_common, "Col") [] "7664.0" []]];
   Node (in_sidd, "SampleSpacing") [] "     " [
    Node (in_common, "Row") [] "0.26100745951378024" [];
    Node (in_common, "Col") [] "0.26100745951378024" []];
   Node (in_sidd, "TimeCOAPoly") [((in_none, "order1"), "0"); ((in_none, "order2"), "0")] "     " [
    Node (in_common, "Coef") [((in_none, "exponent1"), "0"); ((in_none, "exponent2"), "0")] "1.6840395661601488" []];
   Node (in_sidd, "ProductPlane") [] "     " [
    Node (in_sidd, "RowUnitVector") [] "      " [
     Node (in_common, "X") [] "0.6261031460016966" [];
     Node (in_common, "Y") [] "-0.7373836715705693" [];
     Node (in_common, "Z") [] "-0.2534958999603987" []];
    Node (in_sidd, "ColUnitVector") [] "      " [
     Node (in_common, "X") [] "0.2527187904343009" [];
     Node (in_common, "Y") [] "0.49945506779477" [];
     Node (in_common, "Z") [] "-0.8286602729931474" []]]];
  Node (in_sidd, "PixelFootprint") [] "    " [
   Node (in_common, "Row") [] "15328" [];
   Node (in_common, "Col") [] "15327" []];
  Node (in_sidd, "ARPPoly") [] "    " [
   Node (in_common, "X") [((in_none, "order1"), "5")] "     " [
    Node (in_common, "Coef") [((in_none, "exponent1"), "0")] "4912790.7312307395" [];
    Node (in_common, "Coef") [((in_none, "exponent1"), "1")] "4057.8244093090852" [];
    Node (in_common, "Coef") [((in_none, "exponent1"), "2")] "-2.91951946321138" [];
    Node (in_common, "Coef") [((in_none, "exponent1"), "3")] "-0.0009301224542527532" [];
    Node (in_common, "Coef") [((in_none, "exponent1"), "4")] "-2.4005632945030588e-06" [];
    Node (in_common, "Coef") [((in_none, "exponent1"), "5")] "2.911806790957113e-07" []];
   Node (in_common, "Y") [((in_none, "order1"), "5")] "     " [
    Node (in_common, "Coef") [((in_none, "exponent1"), "0")] "3323582.052408638" [];
    Node (in_common, "Coef") [((in_none, "exponent1"), "1")] "833.1339702642257" [];
    Node (in_common, "Coef") [((in_none, "exponent1"), "2")] "-2.3121539202972374" [];
    Node (in_common, "Coef") [((in_none, "exponent1"), "3")] "-2.3146610314206638e-05" [];
    Node (in_common, "Coef") [((in_none, "exponent1"), "4")] "-1.938442174581894e-06" [];
    Node (in_common, "Coef") [((in_none, "exponent1"), "5")] "2.3481575679541144e-07" []];
   Node (in_common, "Z") [((in_none, "order1"), "5")] "     " [
    Node (in_common, "Coef") [((in_none, "exponent1"), "0")] "3504195.751642983" [];
    Node (in_common, "Coef") [((in_none, "exponent1"), "1")] "-6474.829426038806" [];
    Node (in_common, "Coef") [((in_none, "exponent1"), "2")] "-2.141025135039039" [];
    Node (in_common, "Coef") [((in_none, "exponent1"), "3")] "0.001321025602566108" [];
    Node (in_common, "Coef") [((in_none, "exponent1"), "4")] "-1.74315101794343e-06" [];
    Node (in_common, "Coef") [((in_none, "exponent1"), "5")] "2.1178580795171886e-07" []]];
  Node (in_sidd, "ValidData") [((in_none, "size"), "32")] "    " [
   Node (in_sidd, "Vertex") [((in_none, "index"), "1")] "     " [
    Node (in_common, "Row") [] "1" [];
    Node (in_common, "Col") [] "7664" []];
   Node (in_sidd, "Vertex") [((in_none, "index"), "2")] "     " [
    Node (in_common, "Row") [] "1" [];
    Node (in_common, "Col") [] "9580" []];
   Node (in_sidd, "Vertex") [((in_none, "index"), "3")] "     " [
    Node (in_common, "Row") [] "2" [];
    Node (in_common, "Col") [] "11495" []];
   Node (in_sidd, "Vertex") [((in_none, "index"), "4")] "     " [
    Node (in_common, "Row") [] "1" [];
    Node (in_common, "Col") [] "13410" []];
   Node (in_sidd, "Vertex") [((in_none, "index"), "5")] "     " [
    Node (in_common, "Row") [] "1" [];
    Node (in_common, "Col") [] "15327" []];
   Node (in_sidd, "Vertex") [((in_none, "index"), "6")] "     " [
    Node (in_common, "Row") [] "1917" [];
    Node (in_common, "Col") [] "15327" []];
   Node (in_sidd, "Vertex") [((in_none, "index"), "7")] "     " [
    Node (in_common, "Row") [] "3832" [];
    Node (in_common, "Col") [] "15326" []];
   Node (in_sidd, "Vertex") [((in_none, "index"), "8")] "     " [
    Node (in_common, "Row") [] "5748" [];
    Node (in_common, "Col") [] "15327" []];
   Node (in_sidd, "Vertex") [((in_none, "index"), "9")] "     " [
    Node (in_common, "Row") [] "7664" [];
    Node (in_common, "Col") [] "15327" []];
   Node (in_sidd, "Vertex") [((in_none, "index"), "10")] "     " [
    Node (in_common, "Row") [] "9580" [];
    Node (in_common, "Col") [] "15327" []];
   Node (in_sidd, "Vertex") [((in_none, "index"), "11")] "     " [
    Node (in_common, "Row") [] "11495" [];
    Node (in_common, "Col") [] "15327" []];
   Node (in_sidd, "Vertex") [((in_none, "index"), "12")] "     " [
    Node (in_common, "Row") [] "13411" [];
    Node (in_common, "Col") [] "15326" []];
   Node (in_sidd, "Vertex") [((in_none, "index"), "13")] "     " [
    Node (in_common, "Row") [] "15326" [];
    Node (in_common, "Col") [] "15327" []];
   Node (in_sidd, "Vertex") [((in_none, "index"), "14")] "     " [
    Node (in_common, "Row") [] "15327" [];
    Node (in_common, "Col") [] "13411" []];
   Node (in_sidd, "Vertex") [((in_none, "index"), "15")] "     " [
    Node (in_common, "Row") [] "15327" [];
    Node (in_common, "Col") [] "11495" []];
   Node (in_sidd, "Vertex") [((in_none, "index"), "16")] "     " [
    Node (in_common, "Row") [] "15327" [];
    Node (in_common, "Col") [] "9580" []];
   Node (in_sidd, "Vertex") [((in_none, "index"), "17")] "     " [
    Node (in_common, "Row") [] "15327" [];
    Node (in_common, "Col") [] "7663" []];
   Node (in_sidd, "Vertex") [((in_none, "index"), "18")] "     " [
    Node (in_common, "Row") [] "15327" [];
    Node (in_common, "Col") [] "5748" []];
   Node (in_sidd, "Vertex") [((in_none, "index"), "19")] "     " [
    Node (in_common, "Row") [] "15327" [];
    Node (in_common, "Col") [] "3833" []];
   Node (in_sidd, "Vertex") [((in_none, "index"), "20")] "     " [
    Node (in_common, "Row") [] "15327" [];
    Node (in_common, "Col") [] "1917" []];
   Node (in_sidd, "Vertex") [((in_none, "index"), "21")] "     " [
    Node (in_common, "Row") [] "15327" [];
    Node (in_common, "Col") [] "2" []];
   Node (in_sidd, "Vertex") [((in_none, "index"), "22")] "     " [
    Node (in_common, "Row") [] "13411" [];
    Node (in_common, "Col") [] "1" []];
   Node (in_sidd, "Vertex") [((in_none, "index"), "23")] "     " [
    Node (in_common, "Row") [] "11495" [];
    Node (in_common, "Col") [] "2" []];
   Node (in_sidd, "Vertex") [((in_none, "index"), "24")] "     " [
    Node (in_common, "Row") [] "9579" [];
    Node (in_common, "Col") [] "1" []];
   Node (in_sidd, "Vertex") [((in_none, "index"), "25")] "     " [
    Node (in_common, "Row") [] "7664" [];
    Node (in_common, "Col") [] "1" []];
   Node (in_sidd, "Vertex") [((in_none, "index"), "26")] "     " [
    Node (in_common, "Row") [] "5749" [];
    Node (in_common, "Col") [] "2" []];
   Node (in_sidd, "Vertex") [((in_none, "index"), "27")] "     " [
    Node (in_common, "Row") [] "3833" [];
    Node (in_common, "Col") [] "1" []];
   Node (in_sidd, "Vertex") [((in_none, "index"), "28")] "     " [
    Node (in_common, "Row") [] "1917" [];
    Node (in_common, "Col") [] "2" []];
   Node (in_sidd, "Vertex") [((in_none, "index"), "29")] "     " [
    Node (in_common, "Row") [] "2" [];
    Node (in_common, "Col") [] "1" []];
   Node (in_sidd, "Vertex") [((in_none, "index"), "30")] "     " [
    Node (in_common, "Row") [] "2" [];
    Node (in_common, "Col") [] "1917" []];
   Node (in_sidd, "Vertex") [((in_none, "index"), "31")] "     " [
    Node (in_common, "Row") [] "2" [];
    Node (in_common, "Col") [] "3833" []];
   Node (in_sidd, "Vertex") [((in_none, "index"), "32")] "     " [
    Node (in_common, "Row") [] "2" [];
    Node (in_common, "Col") [] "5748" []]]];
 Node (in_sidd, "ExploitationFeatures") [] "   " [
  Node (in_sidd, "Collection") [((in_none, "identifier"), "2023-04-09T07:32:51_Umbra-05")] "    " [
   Node (in_sidd, "Information") [] "     " [
    Node (in_sidd, "SensorName") [] "Umbra-05" [];
    Node (in_sidd, "RadarMode") [] "      " [
     Node (in_common, "ModeType") [] "SPOTLIGHT" []];
    Node (in_sidd, "CollectionDateTime") [] "2023-04-09T07:32:51Z" [];
    Node (in_sidd, "CollectionDuration") [] "3.3518907721477635" [];
    Node (in_sidd, "Resolution") [] "      " [
     Node (in_common, "Range") [] "0.1590720767352322" [];
     Node (in_common, "Azimuth") [] "0.3237645142714175" []]];
   Node (in_sidd, "Geometry") [] "     " [
    Node (in_sidd, "Azimuth") [] "71.14492514854987" [];
    Node (in_sidd, "Slope") [] "65.99537981137152" [];
    Node (in_sidd, "Squint") [] "-60.159807541752805" [];
    Node (in_sidd, "Graze") [] "62.80213750317631" [];
    Node (in_sidd, "Tilt") [] "-27.12051599161032" [];
    Node (in_sidd, "DopplerConeAngle") [] "77.84707473804855" []];
   Node (in_sidd, "Phenomenology") [] "     " [
    Node (in_sidd, "Shadow") [] "      " [
     Node (in_common, "Angle") [] "1.8456022013212559" [];
     Node (in_common, "Magnitude") [] "0.5138835041367932" []];
    Node (in_sidd, "Layover") [] "      " [
     Node (in_common, "Angle") [] "151.91025936378222" [];
     Node (in_common, "Magnitude") [] "2.245553205890211" []];
    Node (in_sidd, "MultiPath") [] "157.35408103384742" [];
    Node (in_sidd, "GroundTrack") [] "62.329913319642756" []]];
  Node (in_sidd, "Product") [] "    " [
   Node (in_sidd, "Resolution") [] "     " [
    Node (in_common, "Row") [] "0.4509416741723185" [];
    Node (in_common, "Col") [] "0.450941239806248" []];
   Node (in_sidd, "Ellipticity") [] "1.0000014537021478" [];
   Node (in_sidd, "Polarization") [] "     " [
    Node (in_sidd, "TxPolarizationProc") [] "UNKNOWN" [];
    Node (in_sidd, "RcvPolarizationProc") [] "UNKNOWN" []];
   Node (in_sidd, "North") [] "-107.00944236281063" [];
   Node (in_sidd, "Extension") [((in_none, "name"), "task_id")] "ada7854e-1acb-4b93-8a8c-925260db5abe" []]];
 Node (in_sidd, "ErrorStatistics") [] "   " [
  Node (in_common, "Components") [] "    " [
   Node (in_common, "PosVelErr") [] "     " [
    Node (in_common, "Frame") [] "RIC_ECI" [];
    Node (in_common, "P1") [] "5.0" [];
    Node (in_common, "P2") [] "5.0" [];
    Node (in_common, "P3") [] "5.0" [];
    Node (in_common, "V1") [] "0.015" [];
    Node (in_common, "V2") [] "0.015" [];
    Node (in_common, "V3") [] "0.015" [];
    Node (in_common, "CorrCoefs") [] "      " [
     Node (in_common, "P1P2") [] "0.0" [];
     Node (in_common, "P1P3") [] "0.0" [];
     Node (in_common, "P1V1") [] "0.0" [];
     Node (in_common, "P1V2") [] "0.0" [];
     Node (in_common, "P1V3") [] "0.0" [];
     Node (in_common, "P2P3") [] "0.0" [];
     Node (in_common, "P2V1") [] "0.0" [];
     Node (in_common, "P2V2") [] "0.0" [];
     Node (in_common, "P2V3") [] "0.0" [];
     Node (in_common, "P3V1") [] "0.0" [];
     Node (in_common, "P3V2") [] "0.0" [];
     Node (in_common, "P3V3") [] "0.0" [];
     Node (in_common, "V1V2") [] "0.0" [];
     Node (in_common, "V1V3") [] "0.0" [];
     Node (in_common, "V2V3") [] "0.0" []]];
   Node (in_common, "RadarSensor") [] "     " [
    Node (in_common, "RangeBias") [] "149.896229" []];
   Node (in_common, "TropoError") [] "     " [
    Node (in_common, "TropoRangeVertical") [] "1.0" []]]]].

(** test/data/sidd/example.sidd-chip.xml:1-545. *)
Definition example_sidd_chip : Xml :=
Node (in_sidd, "SIDD") [] "  " [
 Node (in_sidd, "ProductCreation") [] "   " [
  Node (in_sidd, "ProcessorInformation") [] "    " [
   Node (in_sidd, "Application") [] "Valkyrie Systems Sage | Umbra Image Formation processor 0.3.24.1" [];
   Node (in_sidd, "ProcessingDateTime") [] "2023-04-09T23:14:12.060090Z" [];
   Node (in_sidd, "Site") [] "None" []];
  Node (in_sidd, "Classification") [((in_ism, "DESVersion"), "13"); ((in_ism, "ISMCATCESVersion"), "1"); ((in_ism, "resourceElement"), "true"); ((in_ism, "compliesWith"), "USGov"); ((in_ism, "createDate"), "2023-04-09"); ((in_ism, "classification"), "U"); ((in_ism, "ownerProducer"), "USA")] "" [];
  Node (in_sidd, "ProductName") [] "unknown" [];
  Node (in_sidd, "ProductClass") [] "unknown" []];
 Node (in_sidd, "Display") [] "   " [
  Node (in_sidd, "PixelType") [] "MONO8I" [];
  Node (in_sidd, "NumBands") [] "1" [];
  Node (in_sidd, "NonInteractiveProcessing") [((in_none, "band"), "1")] "    " [
   Node (in_sidd, "ProductGenerationOptions") [] "     " [
    Node (in_sidd, "DataRemapping") [] "      " [
     Node (in_sidd, "LUTName") [] "UNKNOWN" [];
     Node (in_sidd, "Predefined") [] "       " [
      Node (in_sidd, "DatabaseName") [] "UNKNOWN" []]]];
   Node (in_sidd, "RRDS") [] "     " [
    Node (in_sidd, "DownsamplingMethod") [] "AVERAGE" [];
    Node (in_sidd, "AntiAlias") [] "      " [
     Node (in_sidd, "FilterName") [] "PLACEHOLDER" [];
     Node (in_sidd, "FilterKernel") [] "       " [
      Node (in_sidd, "Predefined") [] "        " [
       Node (in_sidd, "DatabaseName") [] "BILINEAR" []]];
     Node (in_sidd, "Operation") [] "CONVOLUTION" []];
    Node (in_sidd, "Interpolation") [] "      " [
     Node (in_sidd, "FilterName") [] "PLACEHOLDER" [];
     Node (in_sidd, "FilterKernel") [] "       " [
      Node (in_sidd, "Predefined") [] "        " [
       Node (in_sidd, "DatabaseName") [] "BILINEAR" []]];
     Node (in_sidd, "Operation") [] "CORRELATION" []]]];
  Node (in_sidd, "InteractiveProcessing") [((in_none, "band"), "1")] "    " [
   Node (in_sidd, "GeometricTransform") [] "     " [
    Node (in_sidd, "Scaling") [] "      " [
     Node (in_sidd, "AntiAlias") [] "       " [
      Node (in_sidd, "FilterName") [] "PLACEHOLDER" [];
      Node (in_sidd, "FilterKernel") [] "        " [
       Node (in_sidd, "Predefined") [] "         " [
        Node (in_sidd, "DatabaseName") [] "BILINEAR" []]];
      Node (in_sidd, "Operation") [] "CONVOLUTION" []];
     Node (in_sidd, "Interpolation") [] "       " [
      Node (in_sidd, "FilterName") [] "PLACEHOLDER" [];
      Node (in_sidd, "FilterKernel") [] "        " [
       Node (in_sidd, "Predefined") [] "         " [
        Node (in_sidd, "DatabaseName") [] "BILINEAR" []]];
      Node (in_sidd, "Operation") [] "CORRELATION" []]];
    Node (in_sidd, "Orientation") [] "      " [
     Node (in_sidd, "ShadowDirection") [] "DOWN" []]];
   Node (in_sidd, "SharpnessEnhancement") [] "     " [
    Node (in_sidd, "ModularTransferFunctionCompensation") [] "      " [
     Node (in_sidd, "FilterName") [] "PLACEHOLDER" [];
     Node (in_sidd, "FilterKernel") [] "       " [
      Node (in_sidd, "Predefined") [] "        " [
       Node (in_sidd, "DatabaseName") [] "BILINEAR" []]];
     Node (in_sidd, "Operation") [] "CONVOLUTION" []]];
   Node (in_sidd, "DynamicRangeAdjustment") [] "     " [
    Node (in_sidd, "AlgorithmType") [] "NONE" [];
    Node (in_sidd, "BandStatsSource") [] "1" []]]];
 Node (in_sidd, "GeoData") [] "   " [
  Node (in_sidd, "EarthModel") [] "WGS_84" [];
  Node (in_sidd, "ImageCorners") [] "    " [
   Node (in_sidd, "ICP") [((in_none, "index"), "1:FRFC")] "     " [
    Node (in_common, "Lat") [] "29.960450990351426" [];
    Node (in_common, "Lon") [] "31.667670895971167" []];
   Node (in_sidd, "ICP") [((in_none, "index"), "2:FRLC")] "     " [
    Node (in_common, "Lat") [] "29.9259416082788" [];
    Node (in_common, "Lon") [] "31.6797850524771" []];
   Node (in_sidd, "ICP") [((in_none, "index"), "3:LRLC")] "     " [
    Node (in_common, "Lat") [] "29.915386465958854" [];
    Node (in_common, "Lon") [] "31.640168122695233" []];
   Node (in_sidd, "ICP") [((in_none, "index"), "4:LRFC")] "     " [
    Node (in_common, "Lat") [] "29.949892260080535" [];
    Node (in_common, "Lon") [] "31.62804157169811" []]];
  Node (in_sidd, "ValidData") [((in_none, "size"), "32")] "    " [
   Node (in_sidd, "Vertex") [((in_none, "index"), "1")] "     " [
    Node (in_common, "Lat") [] "29.94319384923477" [];
    Node (in_common, "Lon") [] "31.673724714797274" []];
   Node (in_sidd, "Vertex") [((in_none, "index"), "2")] "     " [
    Node (in_common, "Lat") [] "29.938879874267304" [];
    Node (in_common, "Lon") [] "31.67524000544734" []];
   Node (in_sidd, "Vertex") [((in_none, "index"), "3")] "     " [
    Node (in_common, "Lat") [] "29.934567922238845" [];
    Node (in_common, "Lon") [] "31.676751120794282" []];
   Node (in_sidd, "Vertex") [((in_none, "index"), "4")] "     " [
    Node (in_common, "Lat") [] "29.930254598381723" [];
    Node (in_common, "Lon") [] "31.678266272261585" []];
   Node (in_sidd, "Vertex") [((in_none, "index"), "5")] "     " [
    Node (in_common, "Lat") [] "29.925940200682756" [];
    Node (in_common, "Lon") [] "31.679781915722277" []];
   Node (in_sidd, "Vertex") [((in_none, "index"), "6")] "     " [
    Node (in_common, "Lat") [] "29.92462197157604" [];
    Node (in_common, "Lon") [] "31.674829312331454" []];
   Node (in_sidd, "Vertex") [((in_none, "index"), "7")] "     " [
    Node (in_common, "Lat") [] "29.923304045961235" [];
    Node (in_common, "Lon") [] "31.66987810189035" []];
   Node (in_sidd, "Vertex") [((in_none, "index"), "8")] "     " [
    Node (in_common, "Lat") [] "29.92198395591529" [];
    Node (in_common, "Lon") [] "31.66492583549445" []];
   Node (in_sidd, "Vertex") [((in_none, "index"), "9")] "     " [
    Node (in_common, "Lat") [] "29.92066417165179" [];
    Node (in_common, "Lon") [] "31.65997493861876" []];
   Node (in_sidd, "Vertex") [((in_none, "index"), "10")] "     " [
    Node (in_common, "Lat") [] "29.91934499664061" [];
    Node (in_common, "Lon") [] "31.65502185949088" []];
   Node (in_sidd, "Vertex") [((in_none, "index"), "11")] "     " [
    Node (in_common, "Lat") [] "29.918025833387624" [];
    Node (in_common, "Lon") [] "31.650073654391683" []];
   Node (in_sidd, "Vertex") [((in_none, "index"), "12")] "     " [
    Node (in_common, "Lat") [] "29.91670758049515" [];
    Node (in_common, "Lon") [] "31.645119721062123" []];
   Node (in_sidd, "Vertex") [((in_none, "index"), "13")] "     " [
    Node (in_common, "Lat") [] "29.91538656711767" [];
    Node (in_common, "Lon") [] "31.640171742885567" []];
   Node (in_sidd, "Vertex") [((in_none, "index"), "14")] "     " [
    Node (in_common, "Lat") [] "29.919700517301457" [];
    Node (in_common, "Lon") [] "31.63865524223968" []];
   Node (in_sidd, "Vertex") [((in_none, "index"), "15")] "     " [
    Node (in_common, "Lat") [] "29.924013389992197" [];
    Node (in_common, "Lon") [] "31.63713919845624" []];
   Node (in_sidd, "Vertex") [((in_none, "index"), "16")] "     " [
    Node (in_common, "Lat") [] "29.928325196113626" [];
    Node (in_common, "Lon") [] "31.63562359978144" []];
   Node (in_sidd, "Vertex") [((in_none, "index"), "17")] "     " [
    Node (in_common, "Lat") [] "29.93263872113726" [];
    Node (in_common, "Lon") [] "31.634107346967088" []];
   Node (in_sidd, "Vertex") [((in_none, "index"), "18")] "     " [
    Node (in_common, "Lat") [] "29.93695119893857" [];
    Node (in_common, "Lon") [] "31.632591530258725" []];
   Node (in_sidd, "Vertex") [((in_none, "index"), "19")] "     " [
    Node (in_common, "Lat") [] "29.941262640400613" [];
    Node (in_common, "Lon") [] "31.631076138173853" []];
   Node (in_sidd, "Vertex") [((in_none, "index"), "20")] "     " [
    Node (in_common, "Lat") [] "29.945575827299596" [];
    Node (in_common, "Lon") [] "31.6295600929707" []];
   Node (in_sidd, "Vertex") [((in_none, "index"), "21")] "     " [
    Node (in_common, "Lat") [] "29.94988799715326" [];
    Node (in_common, "Lon") [] "31.628044463837348" []];
   Node (in_sidd, "Vertex") [((in_none, "index"), "22")] "     " [
    Node (in_common, "Lat") [] "29.951209129380363" [];
    Node (in_common, "Lon") [] "31.632996976380046" []];
   Node (in_sidd, "Vertex") [((in_none, "index"), "23")] "     " [
    Node (in_common, "Lat") [] "29.952527811679108" [];
    Node (in_common, "Lon") [] "31.63795187069465" []];
   Node (in_sidd, "Vertex") [((in_none, "index"), "24")] "     " [
    Node (in_common, "Lat") [] "29.953849880931536" [];
    Node (in_common, "Lon") [] "31.642903531736685" []];
   Node (in_sidd, "Vertex") [((in_none, "index"), "25")] "     " [
    Node (in_common, "Lat") [] "29.95516980376943" [];
    Node (in_common, "Lon") [] "31.64785407656195" []];
   Node (in_sidd, "Vertex") [((in_none, "index"), "26")] "     " [
    Node (in_common, "Lat") [] "29.956487277001372" [];
    Node (in_common, "Lon") [] "31.65280703071413" []];
   Node (in_sidd, "Vertex") [((in_none, "index"), "27")] "     " [
    Node (in_common, "Lat") [] "29.9578078271165" [];
    Node (in_common, "Lon") [] "31.657760296476912" []];
   Node (in_sidd, "Vertex") [((in_none, "index"), "28")] "     " [
    Node (in_common, "Lat") [] "29.959125922453165" [];
    Node (in_common, "Lon") [] "31.66271600612899" []];
   Node (in_sidd, "Vertex") [((in_none, "index"), "29")] "     " [
    Node (in_common, "Lat") [] "29.96044494722674" [];
    Node (in_common, "Lon") [] "31.667666032408036" []];
   Node (in_sidd, "Vertex") [((in_none, "index"), "30")] "     " [
    Node (in_common, "Lat") [] "29.956132320090838" [];
    Node (in_common, "Lon") [] "31.66918055820365" []];
   Node (in_sidd, "Vertex") [((in_none, "index"), "31")] "     " [
    Node (in_common, "Lat") [] "29.95181867987054" [];
    Node (in_common, "Lon") [] "31.670695534533824" []];
   Node (in_sidd, "Vertex") [((in_none, "index"), "32")] "     " [
    Node (in_common, "Lat") [] "29.9475067807872" [];
    Node (in_common, "Lon") [] "31.672209895044087" []]]];
 Node (in_sidd, "Measurement") [] "   " [
  Node (in_sidd, "PlaneProjection") [] "    " [
   Node (in_sidd, "ReferencePoint") [] "     " [
    Node (in_common, "ECEF") [] "      " [
     Node (in_common, "X") [] "4709073.0" [];
     Node (in_common, "Y") [] "2903153.0" [];
     Node (in_common, "Z") [] "3164621.25" []];
    Node (in_common, "Point") [] "      " [
     Node (in_common, "Row") [] "7664.0" [];
     Node (in_common, "Col") [] "7664.0" []]];
   Node (in_sidd, "SampleSpacing") [] "     " [
    Node (in_common, "Row") [] "0.26100745951378024" [];
    Node (in_common, "Col") [] "0.26100745951378024" []];
   Node (in_sidd, "TimeCOAPoly") [((in_none, "order1"), "0"); ((in_none, "order2"), "0")] "     " [
    Node (in_common, "Coef") [((in_none, "exponent1"), "0"); ((in_none, "exponent2"), "0")] "1.6840395661601488" []];
   Node (in_sidd, "ProductPlane") [] "     " [
    Node (in_sidd, "RowUnitVector") [] "      " [
     Node (in_common, "X") [] "0.6261031460016966" [];
     Node (in_common, "Y") [] "-0.7373836715705693" [];
     Node (in_common, "Z") [] "-0.2534958999603987" []];
    Node (in_sidd, "ColUnitVector") [] "      " [
     Node (in_common, "X") [] "0.2527187904343009" [];
     Node (in_common, "Y") [] "0.49945506779477" [];
     Node (in_common, "Z") [] "-0.8286602729931474" []]]];
  Node (in_sidd, "PixelFootprint") [] "    " [
   Node (in_common, "Row") [] "15328" [];
   Node (in_common, "Col") [] "15327" []];
  Node (in_sidd, "ARPPoly") [] "    " [
   Node (in_common, "X") [((in_none, "order1"), "5")] "     " [
    Node (in_common, "Coef") [((in_none, "exponent1"), "0")] "4912790.7312307395" [];
    Node (in_common, "Coef") [((in_none, "exponent1"), "1")] "4057.8244093090852" [];
    Node (in_common, "Coef") [((in_none, "exponent1"), "2")] "-2.91951946321138" [];
    Node (in_common, "Coef") [((in_none, "exponent1"), "3")] "-0.0009301224542527532" [];
    Node (in_common, "Coef") [((in_none, "exponent1"), "4")] "-2.4005632945030588e-06" [];
    Node (in_common, "Coef") [((in_none, "exponent1"), "5")] "2.911806790957113e-07" []];
   Node (in_common, "Y") [((in_none, "order1"), "5")] "     " [
    Node (in_common, "Coef") [((in_none, "exponent1"), "0")] "3323582.052408638" [];
    Node (in_common, "Coef") [((in_none, "exponent1"), "1")] "833.1339702642257" [];
    Node (in_common, "Coef") [((in_none, "exponent1"), "2")] "-2.3121539202972374" [];
    Node (in_common, "Coef") [((in_none, "exponent1"), "3")] "-2.3146610314206638e-05" [];
    Node (in_common, "Coef") [((in_none, "exponent1"), "4")] "-1.938442174581894e-06" [];
    Node (in_common, "Coef") [((in_none, "exponent1"), "5")] "2.3481575679541144e-07" []];
   Node (in_common, "Z") [((in_none, "order1"), "5")] "     " [
    Node (in_common, "Coef") [((in_none, "exponent1"), "0")] "3504195.751642983" [];
    Node (in_common, "Coef") [((in_none, "exponent1"), "1")] "-6474.829426038806" [];
    Node (in_common, "Coef") [((in_none, "exponent1"), "2")] "-2.141025135039039" [];
    Node (in_common, "Coef") [((in_none, "exponent1"), "3")] "0.001321025602566108" [];
    Node (in_common, "Coef") [((in_none, "exponent1"), "4")] "-1.74315101794343e-06" [];
    Node (in_common, "Coef") [((in_none, "exponent1"), "5")] "2.1178580795171886e-07" []]];
  Node (in_sidd, "ValidData") [((in_none, "size"), "32")] "    " [
   Node (in_sidd, "Vertex") [((in_none, "index"), "1")] "     " [
    Node (in_common, "Row") [] "1" [];
    Node (in_common, "Col") [] "7664" []];
   Node (in_sidd, "Vertex") [((in_none, "index"), "2")] "     " [
    Node (in_common, "Row") [] "1" [];
    Node (in_common, "Col") [] "9580" []];
   Node (in_sidd, "Vertex") [((in_none, "index"), "3")] "     " [
    Node (in_common, "Row") [] "2" [];
    Node (in_common, "Col") [] "11495" []];
   Node (in_sidd, "Vertex") [((in_none, "index"), "4")] "     " [
    Node (in_common, "Row") [] "1" [];
    Node (in_common, "Col") [] "13410" []];
   Node (in_sidd, "Vertex") [((in_none, "index"), "5")] "     " [
    Node (in_common, "Row") [] "1" [];
    Node (in_common, "Col") [] "15327" []];
   Node (in_sidd, "Vertex") [((in_none, "index"), "6")] "     " [
    Node (in_common, "Row") [] "1917" [];
    Node (in_common, "Col") [] "15327" []];
   Node (in_sidd, "Vertex") [((in_none, "index"), "7")] "     " [
    Node (in_common, "Row") [] "3832" [];
    Node (in_common, "Col") [] "15326" []];
   Node (in_sidd, "Vertex") [((in_none, "index"), "8")] "     " [
    Node (in_common, "Row") [] "5748" [];
    Node (in_common, "Col") [] "15327" []];
   Node (in_sidd, "Vertex") [((in_none, "index"), "9")] "     " [
    Node (in_common, "Row") [] "7664" [];
    Node (in_common, "Col") [] "15327" []];
   Node (in_sidd, "Vertex") [((in_none, "index"), "10")] "     " [
    Node (in_common, "Row") [] "9580" [];
    Node (in_common, "Col") [] "15327" []];
   Node (in_sidd, "Vertex") [((in_none, "index"), "11")] "     " [
    Node (in_common, "Row") [] "11495" [];
    Node (in_common, "Col") [] "15327" []];
   Node (in_sidd, "Vertex") [((in_none, "index"), "12")] "     " [
    Node (in_common, "Row") [] "13411" [];
    Node (in_common, "Col") [] "15326" []];
   Node (in_sidd, "Vertex") [((in_none, "index"), "13")] "     " [
    Node (in_common, "Row") [] "15326" [];
    Node (in_common, "Col") [] "15327" []];
   Node (in_sidd, "Vertex") [((in_none, "index"), "14")] "     " [
    Node (in_common, "Row") [] "15327" [];
    Node (in_common, "Col") [] "13411" []];
   Node (in_sidd, "Vertex") [((in_none, "index"), "15")] "     " [
    Node (in_common, "Row") [] "15327" [];
    Node (in_common, "Col") [] "11495" []];
   Node (in_sidd, "Vertex") [((in_none, "index"), "16")] "     " [
    Node (in_common, "Row") [] "15327" [];
    Node (in_common, "Col") [] "9580" []];
   Node (in_sidd, "Vertex") [((in_none, "index"), "17")] "     " [
    Node (in_common, "Row") [] "15327" [];
    Node (in_common, "Col") [] "7663" []];
   Node (in_sidd, "Vertex") [((in_none, "index"), "18")] "     " [
    Node (in_common, "Row") [] "15327" [];
    Node (in_common, "Col") [] "5748" []];
   Node (in_sidd, "Vertex") [((in_none, "index"), "19")] "     " [
    Node (in_common, "Row") [] "15327" [];
    Node (in_common, "Col") [] "3833" []];
   Node (in_sidd, "Vertex") [((in_none, "index"), "20")] "     " [
    Node (in_common, "Row") [] "15327" [];
    Node (in_common, "Col") [] "1917" []];
   Node (in_sidd, "Vertex") [((in_none, "index"), "21")] "     " [
    Node (in_common, "Row") [] "15327" [];
    Node (in_common, "Col") [] "2" []];
   Node (in_sidd, "Vertex") [((in_none, "index"), "22")] "     " [
    Node (in_common, "Row") [] "13411" [];
    Node (in_common, "Col") [] "1" []];
   Node (in_sidd, "Vertex") [((in_none, "index"), "23")] "     " [
    Node (in_common, "Row") [] "11495" [];
    Node (in_common, "Col") [] "2" []];
   Node (in_sidd, "Vertex") [((in_none, "index"), "24")] "     " [
    Node (in_common, "Row") [] "9579" [];
    Node (in_common, "Col") [] "1" []];
   Node (in_sidd, "Vertex") [((in_none, "index"), "25")] "     " [
    Node (in_common, "Row") [] "7664" [];
    Node (in_common, "Col") [] "1" []];
   Node (in_sidd, "Vertex") [((in_none, "index"), "26")] "     " [
    Node (in_common, "Row") [] "5749" [];
    Node (in_common, "Col") [] "2" []];
   Node (in_sidd, "Vertex") [((in_none, "index"), "27")] "     " [
    Node (in_common, "Row") [] "3833" [];
    Node (in_common, "Col") [] "1" []];
   Node (in_sidd, "Vertex") [((in_none, "index"), "28")] "     " [
    Node (in_common, "Row") [] "1917" [];
    Node (in_common, "Col") [] "2" []];
   Node (in_sidd, "Vertex") [((in_none, "index"), "29")] "     " [
    Node (in_common, "Row") [] "2" [];
    Node (in_common, "Col") [] "1" []];
   Node (in_sidd, "Vertex") [((in_none, "index"), "30")] "     " [
    Node (in_common, "Row") [] "2" [];
    Node (in_common, "Col") [] "1917" []];
   Node (in_sidd, "Vertex") [((in_none, "index"), "31")] "     " [
    Node (in_common, "Row") [] "2" [];
    Node (in_common, "Col") [] "3833" []];
   Node (in_sidd, "Vertex") [((in_none, "index"), "32")] "     " [
    Node (in_common, "Row") [] "2" [];
    Node (in_common, "Col") [] "5748" []]]];
 Node (in_sidd, "ExploitationFeatures") [] "   " [
  Node (in_sidd, "Collection") [((in_none, "identifier"), "2023-04-09T07:32:51_Umbra-05")] "    " [
   Node (in_sidd, "Information") [] "     " [
    Node (in_sidd, "SensorName") [] "Umbra-05" [];
    Node (in_sidd, "RadarMode") [] "      " [
     Node (in_common, "ModeType") [] "SPOTLIGHT" []];
    Node (in_sidd, "CollectionDateTime") [] "2023-04-09T07:32:51Z" [];
    Node (in_sidd, "CollectionDuration") [] "3.3518907721477635" [];
    Node (in_sidd, "Resolution") [] "      " [
     Node (in_common, "Range") [] "0.1590720767352322" [];
     Node (in_common, "Azimuth") [] "0.3237645142714175" []]];
   Node (in_sidd, "Geometry") [] "     " [
    Node (in_sidd, "Azimuth") [] "71.14492514854987" [];
    Node (in_sidd, "Slope") [] "65.99537981137152" [];
    Node (in_sidd, "Squint") [] "-60.159807541752805" [];
    Node (in_sidd, "Graze") [] "62.80213750317631" [];
    Node (in_sidd, "Tilt") [] "-27.12051599161032" [];
    Node (in_sidd, "DopplerConeAngle") [] "77.84707473804855" []];
   Node (in_sidd, "Phenomenology") [] "     " [
    Node (in_sidd, "Shadow") [] "      " [
     Node (in_common, "Angle") [] "1.8456022013212559" [];
     Node (in_common, "Magnitude") [] "0.5138835041367932" []];
    Node (in_sidd, "Layover") [] "      " [
     Node (in_common, "Angle") [] "151.91025936378222" [];
     Node (in_common, "Magnitude") [] "2.245553205890211" []];
    Node (in_sidd, "MultiPath") [] "157.35408103384742" [];
    Node (in_sidd, "GroundTrack") [] "62.329913319642756" []]];
  Node (in_sidd, "Product") [] "    " [
   Node (in_sidd, "Resolution") [] "     " [
    Node (in_common, "Row") [] "0.4509416741723185" [];
    Node (in_common, "Col") [] "0.450941239806248" []];
   Node (in_sidd, "Ellipticity") [] "1.0000014537021478" [];
   Node (in_sidd, "Polarization") [] "     " [
    Node (in_sidd, "TxPolarizationProc") [] "UNKNOWN" [];
    Node (in_sidd, "RcvPolarizationProc") [] "UNKNOWN" []];
   Node (in_sidd, "North") [] "-107.00944236281063" [];
   Node (in_sidd, "Extension") [((in_none, "name"), "task_id")] "ada7854e-1acb-4b93-8a8c-925260db5abe" []]];
 Node (in_sidd, "DownstreamReprocessing") [] "   " [
  Node (in_sidd, "GeometricChip") [] "    " [
   Node (in_sidd, "ChipSize") [] "     " [
    Node (in_common, "Row") [] "512" [];
    Node (in_common, "Col") [] "512" []];
   Node (in_sidd, "OriginalUpperLeftCoordinate") [] "     " [
    Node (in_common, "Row") [] "512" [];
    Node (in_common, "Col") [] "512" []];
   Node (in_sidd, "OriginalUpperRightCoordinate") [] "     " [
    Node (in_common, "Row") [] "512" [];
    Node (in_common, "Col") [] "1024" []];
   Node (in_sidd, "OriginalLowerLeftCoordinate") [] "     " [
    Node (in_common, "Row") [] "1024" [];
    Node (in_common, "Col") [] "512" []];
   Node (in_sidd, "OriginalLowerRightCoordinate") [] "     " [
    Node (in_common, "Row") [] "1024" [];
    Node (in_common, "Col") [] "1024" []]]];
 Node (in_sidd, "ErrorStatistics") [] "   " [
  Node (in_common, "Components") [] "    " [
   Node (in_common, "PosVelErr") [] "     " [
    Node (in_common, "Frame") [] "RIC_ECI" [];
    Node (in_common, "P1") [] "5.0" [];
    Node (in_common, "P2") [] "5.0" [];
    Node (in_common, "P3") [] "5.0" [];
    Node (in_common, "V1") [] "0.015" [];
    Node (in_common, "V2") [] "0.015" [];
    Node (in_common, "V3") [] "0.015" [];
    Node (in_common, "CorrCoefs") [] "      " [
     Node (in_common, "P1P2") [] "0.0" [];
     Node (in_common, "P1P3") [] "0.0" [];
     Node (in_common, "P1V1") [] "0.0" [];
     Node (in_common, "P1V2") [] "0.0" [];
     Node (in_common, "P1V3") [] "0.0" [];
     Node (in_common, "P2P3") [] "0.0" [];
     Node (in_common, "P2V1") [] "0.0" [];
     Node (in_common, "P2V2") [] "0.0" [];
     Node (in_common, "P2V3") [] "0.0" [];
     Node (in_common, "P3V1") [] "0.0" [];
     Node (in_common, "P3V2") [] "0.0" [];
     Node (in_common, "P3V3") [] "0.0" [];
     Node (in_common, "V1V2") [] "0.0" [];
     Node (in_common, "V1V3") [] "0.0" [];
     Node (in_common, "V2V3") [] "0.0" []]];
   Node (in_common, "RadarSensor") [] "     " [
    Node (in_common, "RangeBias") [] "149.896229" []];
   Node (in_common, "TropoError") [] "     " [
    Node (in_common, "TropoRangeVertical") [] "1.0" []]]]].

(** test/data/sicd/example.sicd121.pfa.xml:1-1157. *)
Definition example_pfa : Xml :=
Node (in_sicd, "SICD") [] "     " [
 Node (in_sicd, "CollectionInfo") [] "         " [
  Node (in_sicd, "CollectorName") [] "Synthetic" [];
  Node (in_sicd, "CoreName") [] "SyntheticCore" [];
  Node (in_sicd, "CollectType") [] "MONOSTATIC" [];
  Node (in_sicd, "RadarMode") [] "             " [
   Node (in_sicd, "ModeType") [] "SPOTLIGHT" []];
  Node (in_sicd, "Classification") [] "UNCLASSIFIED" []];
 Node (in_sicd, "ImageCreation") [] "         " [
  Node (in_sicd, "Application") [] "Valkyrie Systems Sage | sar_common_kit 1.9.0.0" [];
  Node (in_sicd, "DateTime") [] "2022-12-05T18:43:30.208726Z" []];
 Node (in_sicd, "ImageData") [] "         " [
  Node (in_sicd, "PixelType") [] "RE32F_IM32F" [];
  Node (in_sicd, "NumRows") [] "1494" [];
  Node (in_sicd, "NumCols") [] "1723" [];
  Node (in_sicd, "FirstRow") [] "0" [];
  Node (in_sicd, "FirstCol") [] "0" [];
  Node (in_sicd, "FullImage") [] "             " [
   Node (in_sicd, "NumRows") [] "1494" [];
   Node (in_sicd, "NumCols") [] "1723" []];
  Node (in_sicd, "SCPPixel") [] "             " [
   Node (in_sicd, "Row") [] "747" [];
   Node (in_sicd, "Col") [] "861" []];
  Node (in_sicd, "ValidData") [((in_none, "size"), "32")] "             " [
   Node (in_sicd, "Vertex") [((in_none, "index"), "1")] "                 " [
    Node (in_sicd, "Row") [] "256" [];
    Node (in_sicd, "Col") [] "343" []];
   Node (in_sicd, "Vertex") [((in_none, "index"), "2")] "                 " [
    Node (in_sicd, "Row") [] "256" [];
    Node (in_sicd, "Col") [] "484" []];
   Node (in_sicd, "Vertex") [((in_none, "index"), "3")] "                 " [
    Node (in_sicd, "Row") [] "256" [];
    Node (in_sicd, "Col") [] "624" []];
   Node (in_sicd, "Vertex") [((in_none, "index"), "4")] "                 " [
    Node (in_sicd, "Row") [] "256" [];
    Node (in_sicd, "Col") [] "765" []];
   Node (in_sicd, "Vertex") [((in_none, "index"), "5")] "                 " [
    Node (in_sicd, "Row") [] "256" [];
    Node (in_sicd, "Col") [] "905" []];
   Node (in_sicd, "Vertex") [((in_none, "index"), "6")] "                 " [
    Node (in_sicd, "Row") [] "256" [];
    Node (in_sicd, "Col") [] "1046" []];
   Node (in_sicd, "Vertex") [((in_none, "index"), "7")] "                 " [
    Node (in_sicd, "Row") [] "256" [];
    Node (in_sicd, "Col") [] "1186" []];
   Node (in_sicd, "Vertex") [((in_none, "index"), "8")] "                 " [
    Node (in_sicd, "Row") [] "256" [];
    Node (in_sicd, "Col") [] "1327" []];
   Node (in_sicd, "Vertex") [((in_none, "index"), "9")] "                 " [
    Node (in_sicd, "Row") [] "256" [];
    Node (in_sicd, "Col") [] "1468" []];
   Node (in_sicd, "Vertex") [((in_none, "index"), "10")] "                 " [
    Node (in_sicd, "Row") [] "379" [];
    Node (in_sicd, "Col") [] "1456" []];
   Node (in_sicd, "Vertex") [((in_none, "index"), "11")] "                 " [
    Node (in_sicd, "Row") [] "502" [];
    Node (in_sicd, "Col") [] "1445" []];
   Node (in_sicd, "Vertex") [((in_none, "index"), "12")] "                 " [
    Node (in_sicd, "Row") [] "624" [];
    Node (in_sicd, "Col") [] "1434" []];
   Node (in_sicd, "Vertex") [((in_none, "index"), "13")] "                 " [
    Node (in_sicd, "Row") [] "747" [];
    Node (in_sicd, "Col") [] "1423" []];
   Node (in_sicd, "Vertex") [((in_none, "index"), "14")] "                 " [
    Node (in_sicd, "Row") [] "870" [];
    Node (in_sicd, "Col") [] "1412" []];
   Node (in_sicd, "Vertex") [((in_none, "index"), "15")] "                 " [
    Node (in_sicd, "Row") [] "992" [];
    Node (in_sicd, "Col") [] "1401" []];
   Node (in_sicd, "Vertex") [((in_none, "index"), "16")] "                 " [
    Node (in_sicd, "Row") [] "1115" [];
    Node (in_sicd, "Col") [] "1390" []];
   Node (in_sicd, "Vertex") [((in_none, "index"), "17")] "                 " [
    Node (in_sicd, "Row") [] "1238" [];
    Node (in_sicd, "Col") [] "1378" []];
   Node (in_sicd, "Vertex") [((in_none, "index"), "18")] "                 " [
    Node (in_sicd, "Row") [] "1238" [];
    Node (in_sicd, "Col") [] "1238" []];
   Node (in_sicd, "Vertex") [((in_none, "index"), "19")] "                 " [
    Node (in_sicd, "Row") [] "1238" [];
    Node (in_sicd, "Col") [] "1097" []];
   Node (in_sicd, "Vertex") [((in_none, "index"), "20")] "                 " [
    Node (in_sicd, "Row") [] "1238" [];
    Node (in_sicd, "Col") [] "957" []];
   Node (in_sicd, "Vertex") [((in_none, "index"), "21")] "                 " [
    Node (in_sicd, "Row") [] "1238" [];
    Node (in_sicd, "Col") [] "817" []];
   Node (in_sicd, "Vertex") [((in_none, "index"), "22")] "                 " [
    Node (in_sicd, "Row") [] "1238" [];
    Node (in_sicd, "Col") [] "676" []];
   Node (in_sicd, "Vertex") [((in_none, "index"), "23")] "                 " [
    Node (in_sicd, "Row") [] "1238" [];
    Node (in_sicd, "Col") [] "536" []];
   Node (in_sicd, "Vertex") [((in_none, "index"), "24")] "                 " [
    Node (in_sicd, "Row") [] "1238" [];
    Node (in_sicd, "Col") [] "395" []];
   Node (in_sicd, "Vertex") [((in_none, "index"), "25")] "                 " [
    Node (in_sicd, "Row") [] "1238" [];
    Node (in_sicd, "Col") [] "255" []];
   Node (in_sicd, "Vertex") [((in_none, "index"), "26")] "                 " [
    Node (in_sicd, "Row") [] "1115" [];
    Node (in_sicd, "Col") [] "266" []];
   Node (in_sicd, "Vertex") [((in_none, "index"), "27")] "                 " [
    Node (in_sicd, "Row") [] "992" [];
    Node (in_sicd, "Col") [] "277" []];
   Node (in_sicd, "Vertex") [((in_none, "index"), "28")] "                 " [
    Node (in_sicd, "Row") [] "870" [];
    Node (in_sicd, "Col") [] "288" []];
   Node (in_sicd, "Vertex") [((in_none, "index"), "29")] "                 " [
    Node (in_sicd, "Row") [] "747" [];
    Node (in_sicd, "Col") [] "299" []];
   Node (in_sicd, "Vertex") [((in_none, "index"), "30")] "                 " [
    Node (in_sicd, "Row") [] "624" [];
    Node (in_sicd, "Col") [] "310" []];
   Node (in_sicd, "Vertex") [((in_none, "index"), "31")] "                 " [
    Node (in_sicd, "Row") [] "502" [];
    Node (in_sicd, "Col") [] "321" []];
   Node (in_sicd, "Vertex") [((in_none, "index"), "32")] "                 " [
    Node (in_sicd, "Row") [] "379" [];
    Node (in_sicd, "Col") [] "332" []]]];
 Node (in_sicd, "GeoData") [] "         " [
  Node (in_sicd, "EarthModel") [] "WGS_84" [];
  Node (in_sicd, "SCP") [] "             " [
   Node (in_sicd, "ECF") [] "                 " [
    Node (in_sicd, "X") [] "6378137" [];
    Node (in_sicd, "Y") [] "0" [];
    Node (in_sicd, "Z") [] "0" []];
   Node (in_sicd, "LLH") [] "                 " [
    Node (in_sicd, "Lat") [] "0" [];
    Node (in_sicd, "Lon") [] "0" [];
    Node (in_sicd, "HAE") [] "0" []]];
  Node (in_sicd, "ImageCorners") [] "             " [
   Node (in_sicd, "ICP") [((in_none, "index"), "1:FRFC")] "                 " [
    Node (in_sicd, "Lat") [] "0.0080807974971151136" [];
    Node (in_sicd, "Lon") [] "-0.0061258326901634519" []];
   Node (in_sicd, "ICP") [((in_none, "index"), "2:FRLC")] "                 " [
    Node (in_sicd, "Lat") [] "0.0056733384282420182" [];
    Node (in_sicd, "Lon") [] "0.0074368679872295704" []];
   Node (in_sicd, "ICP") [((in_none, "index"), "3:LRLC")] "                 " [
    Node (in_sicd, "Lat") [] "-0.008071597406306948" [];
    Node (in_sicd, "Lon") [] "0.0061267096368526897" []];
   Node (in_sicd, "ICP") [((in_none, "index"), "4:LRFC")] "                 " [
    Node (in_sicd, "Lat") [] "-0.0056641383373949505" [];
    Node (in_sicd, "Lon") [] "-0.0074359910405444127" []]];
  Node (in_sicd, "ValidData") [((in_none, "size"), "32")] "             " [
   Node (in_sicd, "Vertex") [((in_none, "index"), "1")] "                 " [
    Node (in_sicd, "Lat") [] "0.005238360895824838" [];
    Node (in_sicd, "Lon") [] "-0.0036433852169764111" []];
   Node (in_sicd, "Vertex") [((in_none, "index"), "2")] "                 " [
    Node (in_sicd, "Lat") [] "0.0050420582635510016" [];
    Node (in_sicd, "Lon") [] "-0.0025375503997010318" []];
   Node (in_sicd, "Vertex") [((in_none, "index"), "3")] "                 " [
    Node (in_sicd, "Lat") [] "0.004845755628902701" [];
    Node (in_sicd, "Lon") [] "-0.0014317155805202205" []];
   Node (in_sicd, "Vertex") [((in_none, "index"), "4")] "                 " [
    Node (in_sicd, "Lat") [] "0.0046494529921086835" [];
    Node (in_sicd, "Lon") [] "-0.00032588076026081428" []];
   Node (in_sicd, "Vertex") [((in_none, "index"), "5")] "                 " [
    Node (in_sicd, "Lat") [] "0.0044531503533953975" [];
    Node (in_sicd, "Lon") [] "0.00077995406025051814" []];
   Node (in_sicd, "Vertex") [((in_none, "index"), "6")] "                 " [
    Node (in_sicd, "Lat") [] "0.0042568477129873231" [];
    Node (in_sicd, "Lon") [] "0.0018857888801836113" []];
   Node (in_sicd, "Vertex") [((in_none, "index"), "7")] "                 " [
    Node (in_sicd, "Lat") [] "0.004060545071107439" [];
    Node (in_sicd, "Lon") [] "0.0029916236987124986" []];
   Node (in_sicd, "Vertex") [((in_none, "index"), "8")] "                 " [
    Node (in_sicd, "Lat") [] "0.0038642424279800454" [];
    Node (in_sicd, "Lon") [] "0.0040974585150061532" []];
   Node (in_sicd, "Vertex") [((in_none, "index"), "9")] "                 " [
    Node (in_sicd, "Lat") [] "0.003667939783831225" [];
    Node (in_sicd, "Lon") [] "0.0052032933282371652" []];
   Node (in_sicd, "Vertex") [((in_none, "index"), "10")] "                 " [
    Node (in_sicd, "Lat") [] "0.0025546522020080289" [];
    Node (in_sicd, "Lon") [] "0.0050083048147242385" []];
   Node (in_sicd, "Vertex") [((in_none, "index"), "11")] "                 " [
    Node (in_sicd, "Lat") [] "0.0014413646175311253" [];
    Node (in_sicd, "Lon") [] "0.0048133163010931164" []];
   Node (in_sicd, "Vertex") [((in_none, "index"), "12")] "                 " [
    Node (in_sicd, "Lat") [] "0.00032807703126864579" [];
    Node (in_sicd, "Lon") [] "0.0046183277873471356" []];
   Node (in_sicd, "Vertex") [((in_none, "index"), "13")] "                 " [
    Node (in_sicd, "Lat") [] "-0.00078521055587245359" [];
    Node (in_sicd, "Lon") [] "0.0044233392734964747" []];
   Node (in_sicd, "Vertex") [((in_none, "index"), "14")] "                 " [
    Node (in_sicd, "Lat") [] "-0.0018984981430081194" [];
    Node (in_sicd, "Lon") [] "0.0042283507595426628" []];
   Node (in_sicd, "Vertex") [((in_none, "index"), "15")] "                 " [
    Node (in_sicd, "Lat") [] "-0.003011785729254395" [];
    Node (in_sicd, "Lon") [] "0.0040333622454942607" []];
   Node (in_sicd, "Vertex") [((in_none, "index"), "16")] "                 " [
    Node (in_sicd, "Lat") [] "-0.0041250733137164937" [];
    Node (in_sicd, "Lon") [] "0.0038383737313532821" []];
   Node (in_sicd, "Vertex") [((in_none, "index"), "17")] "                 " [
    Node (in_sicd, "Lat") [] "-0.0052383608955085424" [];
    Node (in_sicd, "Lon") [] "0.003643385217128532" []];
   Node (in_sicd, "Vertex") [((in_none, "index"), "18")] "                 " [
    Node (in_sicd, "Lat") [] "-0.0050420582632763646" [];
    Node (in_sicd, "Lon") [] "0.0025375503997804791" []];
   Node (in_sicd, "Vertex") [((in_none, "index"), "19")] "                 " [
    Node (in_sicd, "Lat") [] "-0.0048457556287156058" [];
    Node (in_sicd, "Lon") [] "0.0014317155805582487" []];
   Node (in_sicd, "Vertex") [((in_none, "index"), "20")] "                 " [
    Node (in_sicd, "Lat") [] "-0.0046494529920602899" [];
    Node (in_sicd, "Lon") [] "0.00032588076028108935" []];
   Node (in_sicd, "Vertex") [((in_none, "index"), "21")] "                 " [
    Node (in_sicd, "Lat") [] "-0.0044531503535271385" [];
    Node (in_sicd, "Lon") [] "-0.00077995406023062997" []];
   Node (in_sicd, "Vertex") [((in_none, "index"), "22")] "                 " [
    Node (in_sicd, "Lat") [] "-0.0042568477133461038" [];
    Node (in_sicd, "Lon") [] "-0.0018857888801565275" []];
   Node (in_sicd, "Vertex") [((in_none, "index"), "23")] "                 " [
    Node (in_sicd, "Lat") [] "-0.0040605450717476526" [];
    Node (in_sicd, "Lon") [] "-0.0029916236986777789" []];
   Node (in_sicd, "Vertex") [((in_none, "index"), "24")] "                 " [
    Node (in_sicd, "Lat") [] "-0.0038642424289528294" [];
    Node (in_sicd, "Lon") [] "-0.004097458514977414" []];
   Node (in_sicd, "Vertex") [((in_none, "index"), "25")] "                 " [
    Node (in_sicd, "Lat") [] "-0.0036679397851883686" [];
    Node (in_sicd, "Lon") [] "-0.0052032933282338163" []];
   Node (in_sicd, "Vertex") [((in_none, "index"), "26")] "                 " [
    Node (in_sicd, "Lat") [] "-0.0025546522030494749" [];
    Node (in_sicd, "Lon") [] "-0.0050083048147000261" []];
   Node (in_sicd, "Vertex") [((in_none, "index"), "27")] "                 " [
    Node (in_sicd, "Lat") [] "-0.0014413646182779216" [];
    Node (in_sicd, "Lon") [] "-0.0048133163010521838" []];
   Node (in_sicd, "Vertex") [((in_none, "index"), "28")] "                 " [
    Node (in_sicd, "Lat") [] "-0.00032807703177041223" [];
    Node (in_sicd, "Lon") [] "-0.0046183277872955016" []];
   Node (in_sicd, "Vertex") [((in_none, "index"), "29")] "                 " [
    Node (in_sicd, "Lat") [] "0.00078521055559128701" [];
    Node (in_sicd, "Lon") [] "-0.0044233392734311441" []];
   Node (in_sicd, "Vertex") [((in_none, "index"), "30")] "                 " [
    Node (in_sicd, "Lat") [] "0.0018984981429170419" [];
    Node (in_sicd, "Lon") [] "-0.0042283507594636036" []];
   Node (in_sicd, "Vertex") [((in_none, "index"), "31")] "                 " [
    Node (in_sicd, "Lat") [] "0.003011785729324451" [];
    Node (in_sicd, "Lon") [] "-0.0040333622453953642" []];
   Node (in_sicd, "Vertex") [((in_none, "index"), "32")] "                 " [
    Node (in_sicd, "Lat") [] "0.0041250733139214331" [];
    Node (in_sicd, "Lon") [] "-0.0038383737312319729" []]];
  Node (in_sicd, "GeoInfo") [((in_none, "name"), "synthetic_targets")] "             " [
   Node (in_sicd, "GeoInfo") [((in_none, "name"), "target0")] "                 " [
    Node (in_sicd, "Desc") [((in_none, "name"), "ecef")] "[6378137.0, -405.5797876726389, 579.2279653395692]" []];
   Node (in_sicd, "GeoInfo") [((in_none, "name"), "target1")] "                 " [
    Node (in_sicd, "Desc") [((in_none, "name"), "ecef")] "[6378137.0, 86.82408883346518, 492.403876506104]" []];
   Node (in_sicd, "GeoInfo") [((in_none, "name"), "target2")] "                 " [
    Node (in_sicd, "Desc") [((in_none, "name"), "ecef")] "[6378137.0, 579.2279653395692, 405.5797876726388]" []];
   Node (in_sicd, "GeoInfo") [((in_none, "name"), "target3")] "                 " [
    Node (in_sicd, "Desc") [((in_none, "name"), "ecef")] "[6378137.0, -492.40387650610404, 86.8240888334652]" []];
   Node (in_sicd, "GeoInfo") [((in_none, "name"), "target4")] "                 " [
    Node (in_sicd, "Desc") [((in_none, "name"), "ecef")] "[6378137.0, 0.0, 0.0]" []];
   Node (in_sicd, "GeoInfo") [((in_none, "name"), "target5")] "                 " [
    Node (in_sicd, "Desc") [((in_none, "name"), "ecef")] "[6378137.0, 492.40387650610404, -86.8240888334652]" []];
   Node (in_sicd, "GeoInfo") [((in_none, "name"), "target6")] "                 " [
    Node (in_sicd, "Desc") [((in_none, "name"), "ecef")] "[6378137.0, -579.2279653395692, -405.5797876726388]" []];
   Node (in_sicd, "GeoInfo") [((in_none, "name"), "target7")] "                 " [
    Node (in_sicd, "Desc") [((in_none, "name"), "ecef")] "[6378137.0, -86.82408883346518, -492.403876506104]" []];
   Node (in_sicd, "GeoInfo") [((in_none, "name"), "target8")] "                 " [
    Node (in_sicd, "Desc") [((in_none, "name"), "ecef")] "[6378137.0, 405.5797876726389, -579.2279653395692]" []]]];
 Node (in_sicd, "Grid") [] "         " [
  Node (in_sicd, "ImagePlane") [] "SLANT" [];
  Node (in_sicd, "Type") [] "RGAZIM" [];
  Node (in_sicd, "TimeCOAPoly") [((in_none, "order1"), "0"); ((in_none, "order2"), "0")] "             " [
   Node (in_sicd, "Coef") [((in_none, "exponent1"), "0"); ((in_none, "exponent2"), "0")] "1.6800674762530383" []];
  Node (in_sicd, "Row") [] "             " [
   Node (in_sicd, "UVectECF") [] "                 " [
    Node (in_sicd, "X") [] "-0.50000122375786304" [];
    Node (in_sicd, "Y") [] "-0.15037583977714006" [];
    Node (in_sicd, "Z") [] "-0.8528692064148875" []];
   Node (in_sicd, "SS") [] "0.88229809656554448" [];
   Node (in_sicd, "ImpRespWid") [] "0.99747529707162585" [];
   Node (in_sicd, "Sgn") [] "-1" [];
   Node (in_sicd, "ImpRespBW") [] "0.88798408351600244" [];
   Node (in_sicd, "KCtr") [] "66.712157247222834" [];
   Node (in_sicd, "DeltaK1") [] "-0.44399204175799412" [];
   Node (in_sicd, "DeltaK2") [] "0.44399204175800833" [];
   Node (in_sicd, "DeltaKCOAPoly") [((in_none, "order1"), "0"); ((in_none, "order2"), "0")] "                 " [
    Node (in_sicd, "Coef") [((in_none, "exponent1"), "0"); ((in_none, "exponent2"), "0")] "-0" []]];
  Node (in_sicd, "Col") [] "             " [
   Node (in_sicd, "UVectECF") [] "                 " [
    Node (in_sicd, "X") [] "-0.13518643844872713" [];
    Node (in_sicd, "Y") [] "0.98628938466763816" [];
    Node (in_sicd, "Z") [] "-0.094646059985916131" []];
   Node (in_sicd, "SS") [] "0.8788669876603048" [];
   Node (in_sicd, "ImpRespWid") [] "0.99666461341322399" [];
   Node (in_sicd, "Sgn") [] "-1" [];
   Node (in_sicd, "ImpRespBW") [] "0.88870636679539183" [];
   Node (in_sicd, "KCtr") [] "1.3449549529642717e-08" [];
   Node (in_sicd, "DeltaK1") [] "-0.44435318339769592" [];
   Node (in_sicd, "DeltaK2") [] "0.44435318339769592" [];
   Node (in_sicd, "DeltaKCOAPoly") [((in_none, "order1"), "0"); ((in_none, "order2"), "0")] "                 " [
    Node (in_sicd, "Coef") [((in_none, "exponent1"), "0"); ((in_none, "exponent2"), "0")] "-0" []]]];
 Node (in_sicd, "Timeline") [] "         " [
  Node (in_sicd, "CollectStart") [] "2022-12-05T18:41:24.051402Z" [];
  Node (in_sicd, "CollectDuration") [] "3.4668291025146964" [];
  Node (in_sicd, "IPP") [((in_none, "size"), "2")] "             " [
   Node (in_sicd, "Set") [((in_none, "index"), "1")] "                 " [
    Node (in_sicd, "TStart") [] "0.0056816659534297907" [];
    Node (in_sicd, "TEnd") [] "1.734252544716481" [];
    Node (in_sicd, "IPPStart") [] "0" [];
    Node (in_sicd, "IPPEnd") [] "1040" [];
    Node (in_sicd, "IPPPoly") [((in_none, "order1"), "5")] "                     " [
     Node (in_sicd, "Coef") [((in_none, "exponent1"), "0")] "-3.4200358124461596" [];
     Node (in_sicd, "Coef") [((in_none, "exponent1"), "1")] "601.94243049797956" [];
     Node (in_sicd, "Coef") [((in_none, "exponent1"), "2")] "-2.5957560931224679e-05" [];
     Node (in_sicd, "Coef") [((in_none, "exponent1"), "3")] "-2.0559365748016132e-08" [];
     Node (in_sicd, "Coef") [((in_none, "exponent1"), "4")] "8.5465035653447778e-11" [];
     Node (in_sicd, "Coef") [((in_none, "exponent1"), "5")] "1.5613913034987107e-13" []]];
   Node (in_sicd, "Set") [((in_none, "index"), "2")] "                 " [
    Node (in_sicd, "TStart") [] "1.734252544716481" [];
    Node (in_sicd, "TEnd") [] "3.4628234234795321" [];
    Node (in_sicd, "IPPStart") [] "1041" [];
    Node (in_sicd, "IPPEnd") [] "2080" [];
    Node (in_sicd, "IPPPoly") [((in_none, "order1"), "5")] "                     " [
     Node (in_sicd, "Coef") [((in_none, "exponent1"), "0")] "-3.4200358124461596" [];
     Node (in_sicd, "Coef") [((in_none, "exponent1"), "1")] "601.94243049797956" [];
     Node (in_sicd, "Coef") [((in_none, "exponent1"), "2")] "-2.5957560931224679e-05" [];
     Node (in_sicd, "Coef") [((in_none, "exponent1"), "3")] "-2.0559365748016132e-08" [];
     Node (in_sicd, "Coef") [((in_none, "exponent1"), "4")] "8.5465035653447778e-11" [];
     Node (in_sicd, "Coef") [((in_none, "exponent1"), "5")] "1.5613913034987107e-13" []]]]];
 Node (in_sicd, "Position") [] "         " [
  Node (in_sicd, "ARPPoly") [] "             " [
   Node (in_sicd, "X") [((in_none, "order1"), "5")] "                 " [
    Node (in_sicd, "Coef") [((in_none, "exponent1"), "0")] "7228127.9124448663" [];
    Node (in_sicd, "Coef") [((in_none, "exponent1"), "1")] "352.53242998756502" [];
    Node (in_sicd, "Coef") [((in_none, "exponent1"), "2")] "-3.5891719134975157" [];
    Node (in_sicd, "Coef") [((in_none, "exponent1"), "3")] "-5.7694198643316104e-05" [];
    Node (in_sicd, "Coef") [((in_none, "exponent1"), "4")] "2.7699968593303768e-07" [];
    Node (in_sicd, "Coef") [((in_none, "exponent1"), "5")] "2.1592636134572539e-09" []];
   Node (in_sicd, "Y") [((in_none, "order1"), "5")] "                 " [
    Node (in_sicd, "Coef") [((in_none, "exponent1"), "0")] "268129.91744542622" [];
    Node (in_sicd, "Coef") [((in_none, "exponent1"), "1")] "-7332.3823879634392" [];
    Node (in_sicd, "Coef") [((in_none, "exponent1"), "2")] "-0.13313219332893028" [];
    Node (in_sicd, "Coef") [((in_none, "exponent1"), "3")] "0.0012135963117010783" [];
    Node (in_sicd, "Coef") [((in_none, "exponent1"), "4")] "1.0196690368353028e-08" [];
    Node (in_sicd, "Coef") [((in_none, "exponent1"), "5")] "1.3607911396273635e-11" []];
   Node (in_sicd, "Z") [((in_none, "order1"), "5")] "                 " [
    Node (in_sicd, "Coef") [((in_none, "exponent1"), "0")] "1451527.4824241539" [];
    Node (in_sicd, "Coef") [((in_none, "exponent1"), "1")] "-401.08990372640221" [];
    Node (in_sicd, "Coef") [((in_none, "exponent1"), "2")] "-0.72076439428225647" [];
    Node (in_sicd, "Coef") [((in_none, "exponent1"), "3")] "6.6511087447480695e-05" [];
    Node (in_sicd, "Coef") [((in_none, "exponent1"), "4")] "5.6690990559856781e-08" [];
    Node (in_sicd, "Coef") [((in_none, "exponent1"), "5")] "3.2123861103114586e-10" []]];
  Node (in_sicd, "GRPPoly") [] "             " [
   Node (in_sicd, "X") [((in_none, "order1"), "4")] "                 " [
    Node (in_sicd, "Coef") [((in_none, "exponent1"), "0")] "6378136.9999999972" [];
    Node (in_sicd, "Coef") [((in_none, "exponent1"), "1")] "-2.7603991862673482e-10" [];
    Node (in_sicd, "Coef") [((in_none, "exponent1"), "2")] "-8.8046691538817019e-10" [];
    Node (in_sicd, "Coef") [((in_none, "exponent1"), "3")] "3.6552842678534889e-10" [];
    Node (in_sicd, "Coef") [((in_none, "exponent1"), "4")] "-4.5501609492503518e-13" []];
   Node (in_sicd, "Y") [((in_none, "order1"), "4")] "                 " [
    Node (in_sicd, "Coef") [((in_none, "exponent1"), "0")] "0" [];
    Node (in_sicd, "Coef") [((in_none, "exponent1"), "1")] "0" [];
    Node (in_sicd, "Coef") [((in_none, "exponent1"), "2")] "0" [];
    Node (in_sicd, "Coef") [((in_none, "exponent1"), "3")] "0" [];
    Node (in_sicd, "Coef") [((in_none, "exponent1"), "4")] "0" []];
   Node (in_sicd, "Z") [((in_none, "order1"), "4")] "                 " [
    Node (in_sicd, "Coef") [((in_none, "exponent1"), "0")] "0" [];
    Node (in_sicd, "Coef") [((in_none, "exponent1"), "1")] "0" [];
    Node (in_sicd, "Coef") [((in_none, "exponent1"), "2")] "0" [];
    Node (in_sicd, "Coef") [((in_none, "exponent1"), "3")] "0" [];
    Node (in_sicd, "Coef") [((in_none, "exponent1"), "4")] "0" []]];
  Node (in_sicd, "TxAPCPoly") [] "             " [
   Node (in_sicd, "X") [((in_none, "order1"), "5")] "                 " [
    Node (in_sicd, "Coef") [((in_none, "exponent1"), "0")] "7228127.9122881154" [];
    Node (in_sicd, "Coef") [((in_none, "exponent1"), "1")] "352.53243031729494" [];
    Node (in_sicd, "Coef") [((in_none, "exponent1"), "2")] "-3.5891718145261389" [];
    Node (in_sicd, "Coef") [((in_none, "exponent1"), "3")] "-5.7760778794926364e-05" [];
    Node (in_sicd, "Coef") [((in_none, "exponent1"), "4")] "2.961407356089768e-07" [];
    Node (in_sicd, "Coef") [((in_none, "exponent1"), "5")] "1.5152746784999351e-10" []];
   Node (in_sicd, "Y") [((in_none, "order1"), "5")] "                 " [
    Node (in_sicd, "Coef") [((in_none, "exponent1"), "0")] "268129.91754994984" [];
    Node (in_sicd, "Coef") [((in_none, "exponent1"), "1")] "-7332.3823894408897" [];
    Node (in_sicd, "Coef") [((in_none, "exponent1"), "2")] "-0.13313219336015877" [];
    Node (in_sicd, "Coef") [((in_none, "exponent1"), "3")] "0.0012135939299440443" [];
    Node (in_sicd, "Coef") [((in_none, "exponent1"), "4")] "1.0894413139775905e-08" [];
    Node (in_sicd, "Coef") [((in_none, "exponent1"), "5")] "-6.1574812416329165e-11" []];
   Node (in_sicd, "Z") [((in_none, "order1"), "5")] "                 " [
    Node (in_sicd, "Coef") [((in_none, "exponent1"), "0")] "1451527.4820069293" [];
    Node (in_sicd, "Coef") [((in_none, "exponent1"), "1")] "-401.0899032701904" [];
    Node (in_sicd, "Coef") [((in_none, "exponent1"), "2")] "-0.72076438617145899" [];
    Node (in_sicd, "Coef") [((in_none, "exponent1"), "3")] "6.6502336106517436e-05" [];
    Node (in_sicd, "Coef") [((in_none, "exponent1"), "4")] "5.9235211780521735e-08" [];
    Node (in_sicd, "Coef") [((in_none, "exponent1"), "5")] "4.8536679801755301e-11" []]];
  Node (in_sicd, "RcvAPC") [((in_none, "size"), "1")] "             " [
   Node (in_sicd, "RcvAPCPoly") [((in_none, "index"), "1")] "                 " [
    Node (in_sicd, "X") [((in_none, "order1"), "5")] "                     " [
     Node (in_sicd, "Coef") [((in_none, "exponent1"), "0")] "7228127.9122881237" [];
     Node (in_sicd, "Coef") [((in_none, "exponent1"), "1")] "352.53243031084878" [];
     Node (in_sicd, "Coef") [((in_none, "exponent1"), "2")] "-3.5891718013492584" [];
     Node (in_sicd, "Coef") [((in_none, "exponent1"), "3")] "-5.7769234785477141e-05" [];
     Node (in_sicd, "Coef") [((in_none, "exponent1"), "4")] "2.985788077956373e-07" [];
     Node (in_sicd, "Coef") [((in_none, "exponent1"), "5")] "-1.4884336849092922e-10" []];
    Node (in_sicd, "Y") [((in_none, "order1"), "5")] "                     " [
     Node (in_sicd, "Coef") [((in_none, "exponent1"), "0")] "268129.91754994984" [];
     Node (in_sicd, "Coef") [((in_none, "exponent1"), "1")] "-7332.3823894398674" [];
     Node (in_sicd, "Coef") [((in_none, "exponent1"), "2")] "-0.13313219479068839" [];
     Node (in_sicd, "Coef") [((in_none, "exponent1"), "3")] "0.0012135948482529309" [];
     Node (in_sicd, "Coef") [((in_none, "exponent1"), "4")] "1.0630300780216877e-08" [];
     Node (in_sicd, "Coef") [((in_none, "exponent1"), "5")] "-3.4535962553841784e-11" []];
    Node (in_sicd, "Z") [((in_none, "order1"), "5")] "                     " [
     Node (in_sicd, "Coef") [((in_none, "exponent1"), "0")] "1451527.4820069303" [];
     Node (in_sicd, "Coef") [((in_none, "exponent1"), "1")] "-401.08990326673984" [];
     Node (in_sicd, "Coef") [((in_none, "exponent1"), "2")] "-0.72076439093449318" [];
     Node (in_sicd, "Coef") [((in_none, "exponent1"), "3")] "6.6505493849440306e-05" [];
     Node (in_sicd, "Coef") [((in_none, "exponent1"), "4")] "5.8315612455559405e-08" [];
     Node (in_sicd, "Coef") [((in_none, "exponent1"), "5")] "1.3835573401835279e-10" []]]]];
 Node (in_sicd, "RadarCollection") [] "         " [
  Node (in_sicd, "TxFrequency") [] "             " [
   Node (in_sicd, "Min") [] "9933296178.0950012" [];
   Node (in_sicd, "Max") [] "10066703821.904999" []];
  Node (in_sicd, "Waveform") [((in_none, "size"), "1")] "             " [
   Node (in_sicd, "WFParameters") [((in_none, "index"), "1")] "" []];
  Node (in_sicd, "TxPolarization") [] "V" [];
  Node (in_sicd, "RcvChannels") [((in_none, "size"), "1")] "             " [
   Node (in_sicd, "ChanParameters") [((in_none, "index"), "1")] "                 " [
    Node (in_sicd, "TxRcvPolarization") [] "V:V" [];
    Node (in_sicd, "RcvAPCIndex") [] "1" []]];
  Node (in_sicd, "Area") [] "             " [
   Node (in_sicd, "Corner") [] "                 " [
    Node (in_sicd, "ACP") [((in_none, "index"), "1")] "                     " [
     Node (in_sicd, "Lat") [] "0.0052383608956667301" [];
     Node (in_sicd, "Lon") [] "-0.0036433852170520572" [];
     Node (in_sicd, "HAE") [] "0.039373653940856457" []];
    Node (in_sicd, "ACP") [((in_none, "index"), "2")] "                     " [
     Node (in_sicd, "Lat") [] "0.0036679397845088379" [];
     Node (in_sicd, "Lon") [] "0.0052032933282355155" [];
     Node (in_sicd, "HAE") [] "0.039283305406570435" []];
    Node (in_sicd, "ACP") [((in_none, "index"), "3")] "                     " [
     Node (in_sicd, "Lat") [] "-0.0052383608956667301" [];
     Node (in_sicd, "Lon") [] "0.0036433852170520572" [];
     Node (in_sicd, "HAE") [] "0.039373653940856457" []];
    Node (in_sicd, "ACP") [((in_none, "index"), "4")] "                     " [
     Node (in_sicd, "Lat") [] "-0.0036679397845088379" [];
     Node (in_sicd, "Lon") [] "-0.0052032933282355155" [];
     Node (in_sicd, "HAE") [] "0.039283305406570435" []]];
   Node (in_sicd, "Plane") [] "                 " [
    Node (in_sicd, "RefPt") [] "                     " [
     Node (in_sicd, "ECF") [] "                         " [
      Node (in_sicd, "X") [] "6378137" [];
      Node (in_sicd, "Y") [] "0" [];
      Node (in_sicd, "Z") [] "0" []];
     Node (in_sicd, "Line") [] "650" [];
     Node (in_sicd, "Sample") [] "750" []];
    Node (in_sicd, "XDir") [] "                     " [
     Node (in_sicd, "UVectECF") [] "                         " [
      Node (in_sicd, "X") [] "0" [];
      Node (in_sicd, "Y") [] "-0.17364817766693033" [];
      Node (in_sicd, "Z") [] "-0.98480775301220813" []];
     Node (in_sicd, "LineSpacing") [] "0.76980043496519579" [];
     Node (in_sicd, "NumLines") [] "1301" [];
     Node (in_sicd, "FirstLine") [] "0" []];
    Node (in_sicd, "YDir") [] "                     " [
     Node (in_sicd, "UVectECF") [] "                         " [
      Node (in_sicd, "X") [] "0" [];
      Node (in_sicd, "Y") [] "0.98480775301220813" [];
      Node (in_sicd, "Z") [] "-0.17364817766693033" []];
     Node (in_sicd, "SampleSpacing") [] "0.66641108974957253" [];
     Node (in_sicd, "NumSamples") [] "1501" [];
     Node (in_sicd, "FirstSample") [] "0" []]]]];
 Node (in_sicd, "ImageFormation") [] "         " [
  Node (in_sicd, "RcvChanProc") [] "             " [
   Node (in_sicd, "NumChanProc") [] "1" [];
   Node (in_sicd, "ChanIndex") [] "1" []];
  Node (in_sicd, "TxRcvPolarizationProc") [] "V:V" [];
  Node (in_sicd, "TStartProc") [] "0.0056816659534327432" [];
  Node (in_sicd, "TEndProc") [] "3.4611621345438324" [];
  Node (in_sicd, "TxFrequencyProc") [] "             " [
   Node (in_sicd, "MinProc") [] "9933296178.0950298" [];
   Node (in_sicd, "MaxProc") [] "10066703821.905016" []];
  Node (in_sicd, "ImageFormAlgo") [] "PFA" [];
  Node (in_sicd, "STBeamComp") [] "NO" [];
  Node (in_sicd, "ImageBeamComp") [] "NO" [];
  Node (in_sicd, "AzAutofocus") [] "NO" [];
  Node (in_sicd, "RgAutofocus") [] "NO" [];
  Node (in_sicd, "Processing") [] "             " [
   Node (in_sicd, "Type") [] "inscription" [];
   Node (in_sicd, "Applied") [] "true" [];
   Node (in_sicd, "Parameter") [((in_none, "name"), "krange")] "fixed" [];
   Node (in_sicd, "Parameter") [((in_none, "name"), "kazimuth")] "fixed" []];
  Node (in_sicd, "Processing") [] "             " [
   Node (in_sicd, "Type") [] "polar_deterministic_phase" [];
   Node (in_sicd, "Applied") [] "true" [];
   Node (in_sicd, "Parameter") [((in_none, "name"), "phase_contiguous")] "true" [];
   Node (in_sicd, "Parameter") [((in_none, "name"), "quadratic_type")] "none" [];
   Node (in_sicd, "Parameter") [((in_none, "name"), "linear_type")] "none" [];
   Node (in_sicd, "Parameter") [((in_none, "name"), "constant_type")] "one_dimensional" []]];
 Node (in_sicd, "SCPCOA") [] "         " [
  Node (in_sicd, "SCPTime") [] "1.6800674762530383" [];
  Node (in_sicd, "ARPPos") [] "             " [
   Node (in_sicd, "X") [] "7228710.0595508879" [];
   Node (in_sicd, "Y") [] "255810.65024467336" [];
   Node (in_sicd, "Z") [] "1450851.5901888732" []];
  Node (in_sicd, "ARPVel") [] "             " [
   Node (in_sicd, "X") [] "340.47184478328006" [];
   Node (in_sicd, "Y") [] "-7332.8194533174392" [];
   Node (in_sicd, "Z") [] "-403.5112050640754" []];
  Node (in_sicd, "ARPAcc") [] "             " [
   Node (in_sicd, "X") [] "-7.1789158206813477" [];
   Node (in_sicd, "Y") [] "-0.25403049783428427" [];
   Node (in_sicd, "Z") [] "-1.4408563791978921" []];
  Node (in_sicd, "SideOfTrack") [] "L" [];
  Node (in_sicd, "SlantRange") [] "1701141.9562064605" [];
  Node (in_sicd, "GroundRange") [] "1282320.3392587577" [];
  Node (in_sicd, "DopplerConeAng") [] "80.000333057346595" [];
  Node (in_sicd, "GrazeAng") [] "30.000080950049" [];
  Node (in_sicd, "IncidenceAng") [] "59.999919049951004" [];
  Node (in_sicd, "TwistAng") [] "8.9805970546123763" [];
  Node (in_sicd, "SlopeAng") [] "31.195125856239255" [];
  Node (in_sicd, "AzimAng") [] "9.9994779614198173" [];
  Node (in_sicd, "LayoverAng") [] "352.45909403041333" []];
 Node (in_sicd, "Radiometric") [] "         " [
  Node (in_sicd, "NoiseLevel") [] "             " [
   Node (in_sicd, "NoiseLevelType") [] "ABSOLUTE" [];
   Node (in_sicd, "NoisePoly") [((in_none, "order1"), "0"); ((in_none, "order2"), "0")] "                 " [
    Node (in_sicd, "Coef") [((in_none, "exponent1"), "0"); ((in_none, "exponent2"), "0")] "-47.698407849729996" []]];
  Node (in_sicd, "RCSSFPoly") [((in_none, "order1"), "5"); ((in_none, "order2"), "6")] "             " [
   Node (in_sicd, "Coef") [((in_none, "exponent1"), "0"); ((in_none, "exponent2"), "0")] "234.567891" [];
   Node (in_sicd, "Coef") [((in_none, "exponent1"), "0"); ((in_none, "exponent2"), "1")] "0.0123456789" [];
   Node (in_sicd, "Coef") [((in_none, "exponent1"), "0"); ((in_none, "exponent2"), "2")] "3.45678912e-05" [];
   Node (in_sicd, "Coef") [((in_none, "exponent1"), "0"); ((in_none, "exponent2"), "3")] "1.23456789e-09" [];
   Node (in_sicd, "Coef") [((in_none, "exponent1"), "0"); ((in_none, "exponent2"), "4")] "2.34567891e-12" [];
   Node (in_sicd, "Coef") [((in_none, "exponent1"), "0"); ((in_none, "exponent2"), "5")] "1.23456789e-16" [];
   Node (in_sicd, "Coef") [((in_none, "exponent1"), "0"); ((in_none, "exponent2"), "6")] "1.23456789e-19" [];
   Node (in_sicd, "Coef") [((in_none, "exponent1"), "1"); ((in_none, "exponent2"), "0")] "-0.023456789" [];
   Node (in_sicd, "Coef") [((in_none, "exponent1"), "1"); ((in_none, "exponent2"), "1")] "-5.67891234e-06" [];
   Node (in_sicd, "Coef") [((in_none, "exponent1"), "1"); ((in_none, "exponent2"), "2")] "-4.56789123e-09" [];
   Node (in_sicd, "Coef") [((in_none, "exponent1"), "1"); ((in_none, "exponent2"), "3")] "-8.91234567e-13" [];
   Node (in_sicd, "Coef") [((in_none, "exponent1"), "1"); ((in_none, "exponent2"), "4")] "-4.56789123e-16" [];
   Node (in_sicd, "Coef") [((in_none, "exponent1"), "1"); ((in_none, "exponent2"), "5")] "-9.12345678e-20" [];
   Node (in_sicd, "Coef") [((in_none, "exponent1"), "1"); ((in_none, "exponent2"), "6")] "-3.45678912e-23" [];
   Node (in_sicd, "Coef") [((in_none, "exponent1"), "2"); ((in_none, "exponent2"), "0")] "5.67891234e-05" [];
   Node (in_sicd, "Coef") [((in_none, "exponent1"), "2"); ((in_none, "exponent2"), "1")] "3.45678912e-09" [];
   Node (in_sicd, "Coef") [((in_none, "exponent1"), "2"); ((in_none, "exponent2"), "2")] "7.89123456e-12" [];
   Node (in_sicd, "Coef") [((in_none, "exponent1"), "2"); ((in_none, "exponent2"), "3")] "4.56789123e-16" [];
   Node (in_sicd, "Coef") [((in_none, "exponent1"), "2"); ((in_none, "exponent2"), "4")] "5.67891234e-19" [];
   Node (in_sicd, "Coef") [((in_none, "exponent1"), "2"); ((in_none, "exponent2"), "5")] "6.78912345e-23" [];
   Node (in_sicd, "Coef") [((in_none, "exponent1"), "2"); ((in_none, "exponent2"), "6")] "5.67891234e-26" [];
   Node (in_sicd, "Coef") [((in_none, "exponent1"), "3"); ((in_none, "exponent2"), "0")] "-6.78912345e-09" [];
   Node (in_sicd, "Coef") [((in_none, "exponent1"), "3"); ((in_none, "exponent2"), "1")] "-1.23456789e-12" [];
   Node (in_sicd, "Coef") [((in_none, "exponent1"), "3"); ((in_none, "exponent2"), "2")] "-1.23456789e-15" [];
   Node (in_sicd, "Coef") [((in_none, "exponent1"), "3"); ((in_none, "exponent2"), "3")] "-7.89123456e-20" [];
   Node (in_sicd, "Coef") [((in_none, "exponent1"), "3"); ((in_none, "exponent2"), "4")] "-6.78912345e-23" [];
   Node (in_sicd, "Coef") [((in_none, "exponent1"), "3"); ((in_none, "exponent2"), "5")] "-5.67891234e-26" [];
   Node (in_sicd, "Coef") [((in_none, "exponent1"), "3"); ((in_none, "exponent2"), "6")] "-1.23456789e-29" [];
   Node (in_sicd, "Coef") [((in_none, "exponent1"), "4"); ((in_none, "exponent2"), "0")] "7.89123456e-12" [];
   Node (in_sicd, "Coef") [((in_none, "exponent1"), "4"); ((in_none, "exponent2"), "1")] "5.67891234e-16" [];
   Node (in_sicd, "Coef") [((in_none, "exponent1"), "4"); ((in_none, "exponent2"), "2")] "1.23456789e-18" [];
   Node (in_sicd, "Coef") [((in_none, "exponent1"), "4"); ((in_none, "exponent2"), "3")] "1.23456789e-22" [];
   Node (in_sicd, "Coef") [((in_none, "exponent1"), "4"); ((in_none, "exponent2"), "4")] "1.23456789e-25" [];
   Node (in_sicd, "Coef") [((in_none, "exponent1"), "4"); ((in_none, "exponent2"), "5")] "1.23456789e-29" [];
   Node (in_sicd, "Coef") [((in_none, "exponent1"), "4"); ((in_none, "exponent2"), "6")] "6.78912345e-33" [];
   Node (in_sicd, "Coef") [((in_none, "exponent1"), "5"); ((in_none, "exponent2"), "0")] "-1.23456789e-15" [];
   Node (in_sicd, "Coef") [((in_none, "exponent1"), "5"); ((in_none, "exponent2"), "1")] "-1.23456789e-19" [];
   Node (in_sicd, "Coef") [((in_none, "exponent1"), "5"); ((in_none, "exponent2"), "2")] "-1.23456789e-22" [];
   Node (in_sicd, "Coef") [((in_none, "exponent1"), "5"); ((in_none, "exponent2"), "3")] "-8.91234567e-26" [];
   Node (in_sicd, "Coef") [((in_none, "exponent1"), "5"); ((in_none, "exponent2"), "4")] "-4.56789123e-29" [];
   Node (in_sicd, "Coef") [((in_none, "exponent1"), "5"); ((in_none, "exponent2"), "5")] "9.12345678e-33" [];
   Node (in_sicd, "Coef") [((in_none, "exponent1"), "5"); ((in_none, "exponent2"), "6")] "2.34567891e-36" []]];
 Node (in_sicd, "Antenna") [] "         " [
  Node (in_sicd, "Tx") [] "             " [
   Node (in_sicd, "XAxisPoly") [] "                 " [
    Node (in_sicd, "X") [((in_none, "order1"), "5")] "                     " [
     Node (in_sicd, "Coef") [((in_none, "exponent1"), "0")] "0.13982986262005959" [];
     Node (in_sicd, "Coef") [((in_none, "exponent1"), "1")] "-0.0027594341203054122" [];
     Node (in_sicd, "Coef") [((in_none, "exponent1"), "2")] "-2.642141233211328e-06" [];
     Node (in_sicd, "Coef") [((in_none, "exponent1"), "3")] "1.4412928975132546e-08" [];
     Node (in_sicd, "Coef") [((in_none, "exponent1"), "4")] "4.9106827976192821e-11" [];
     Node (in_sicd, "Coef") [((in_none, "exponent1"), "5")] "-1.1406011989724555e-13" []];
    Node (in_sicd, "Y") [((in_none, "order1"), "5")] "                     " [
     Node (in_sicd, "Coef") [((in_none, "exponent1"), "0")] "-0.985103968766331" [];
     Node (in_sicd, "Coef") [((in_none, "exponent1"), "1")] "-0.00072022999981332595" [];
     Node (in_sicd, "Coef") [((in_none, "exponent1"), "2")] "8.6929909937280073e-06" [];
     Node (in_sicd, "Coef") [((in_none, "exponent1"), "3")] "1.7419413461433799e-08" [];
     Node (in_sicd, "Coef") [((in_none, "exponent1"), "4")] "-7.0195266020811239e-11" [];
     Node (in_sicd, "Coef") [((in_none, "exponent1"), "5")] "-3.1383419971071391e-13" []];
    Node (in_sicd, "Z") [((in_none, "order1"), "5")] "                     " [
     Node (in_sicd, "Coef") [((in_none, "exponent1"), "0")] "0.10008886172036295" [];
     Node (in_sicd, "Coef") [((in_none, "exponent1"), "1")] "-0.0032336279155612555" [];
     Node (in_sicd, "Coef") [((in_none, "exponent1"), "2")] "-3.6150726160461875e-06" [];
     Node (in_sicd, "Coef") [((in_none, "exponent1"), "3")] "2.4227194540266762e-08" [];
     Node (in_sicd, "Coef") [((in_none, "exponent1"), "4")] "6.8535490141060762e-11" [];
     Node (in_sicd, "Coef") [((in_none, "exponent1"), "5")] "-1.9455706113121084e-13" []]];
   Node (in_sicd, "YAxisPoly") [] "                 " [
    Node (in_sicd, "X") [((in_none, "order1"), "5")] "                     " [
     Node (in_sicd, "Coef") [((in_none, "exponent1"), "0")] "-0.85523535607199153" [];
     Node (in_sicd, "Coef") [((in_none, "exponent1"), "1")] "-0.00010473716447760117" [];
     Node (in_sicd, "Coef") [((in_none, "exponent1"), "2")] "1.0612386361416289e-06" [];
     Node (in_sicd, "Coef") [((in_none, "exponent1"), "3")] "1.2191988789775561e-10" [];
     Node (in_sicd, "Coef") [((in_none, "exponent1"), "4")] "-6.5342561715559025e-13" [];
     Node (in_sicd, "Coef") [((in_none, "exponent1"), "5")] "3.2519400278010645e-16" []];
    Node (in_sicd, "Y") [((in_none, "order1"), "5")] "                     " [
     Node (in_sicd, "Coef") [((in_none, "exponent1"), "0")] "-0.06921308838843146" [];
     Node (in_sicd, "Coef") [((in_none, "exponent1"), "1")] "0.00073787526119144643" [];
     Node (in_sicd, "Coef") [((in_none, "exponent1"), "2")] "7.399077245060788e-08" [];
     Node (in_sicd, "Coef") [((in_none, "exponent1"), "3")] "-1.0525875572605681e-09" [];
     Node (in_sicd, "Coef") [((in_none, "exponent1"), "4")] "-3.3788216228145983e-14" [];
     Node (in_sicd, "Coef") [((in_none, "exponent1"), "5")] "7.6241787500235205e-16" []];
    Node (in_sicd, "Z") [((in_none, "order1"), "5")] "                     " [
     Node (in_sicd, "Coef") [((in_none, "exponent1"), "0")] "0.51359715158881925" [];
     Node (in_sicd, "Coef") [((in_none, "exponent1"), "1")] "-7.4969848184029868e-05" [];
     Node (in_sicd, "Coef") [((in_none, "exponent1"), "2")] "1.2309351838082699e-06" [];
     Node (in_sicd, "Coef") [((in_none, "exponent1"), "3")] "3.5096979204331667e-10" [];
     Node (in_sicd, "Coef") [((in_none, "exponent1"), "4")] "-2.0820927565561895e-12" [];
     Node (in_sicd, "Coef") [((in_none, "exponent1"), "5")] "-5.4913780628865013e-16" []]];
   Node (in_sicd, "FreqZero") [] "10000000000" [];
   Node (in_sicd, "EB") [] "                 " [
    Node (in_sicd, "DCXPoly") [((in_none, "order1"), "0")] "                     " [
     Node (in_sicd, "Coef") [((in_none, "exponent1"), "0")] "0" []];
    Node (in_sicd, "DCYPoly") [((in_none, "order1"), "0")] "                     " [
     Node (in_sicd, "Coef") [((in_none, "exponent1"), "0")] "0" []]];
   Node (in_sicd, "Array") [] "                 " [
    Node (in_sicd, "GainPoly") [((in_none, "order1"), "8"); ((in_none, "order2"), "8")] "                     " [
     Node (in_sicd, "Coef") [((in_none, "exponent1"), "0"); ((in_none, "exponent2"), "0")] "0" [];
     Node (in_sicd, "Coef") [((in_none, "exponent1"), "0"); ((in_none, "exponent2"), "1")] "-4.1430777012935061e-12" [];
     Node (in_sicd, "Coef") [((in_none, "exponent1"), "0"); ((in_none, "exponent2"), "2")] "-25810177.686242383" [];
     Node (in_sicd, "Coef") [((in_none, "exponent1"), "0"); ((in_none, "exponent2"), "3")] "-0.00014382609695309318" [];
     Node (in_sicd, "Coef") [((in_none, "exponent1"), "0"); ((in_none, "exponent2"), "4")] "-13687592749336.885" [];
     Node (in_sicd, "Coef") [((in_none, "exponent1"), "0"); ((in_none, "exponent2"), "5")] "292.19947867443852" [];
     Node (in_sicd, "Coef") [((in_none, "exponent1"), "0"); ((in_none, "exponent2"), "6")] "-4.2115648774405212e+18" [];
     Node (in_sicd, "Coef") [((in_none, "exponent1"), "0"); ((in_none, "exponent2"), "7")] "-1442527537.8580344" [];
     Node (in_sicd, "Coef") [((in_none, "exponent1"), "0"); ((in_none, "exponent2"), "8")] "-4.4559066869820204e+25" [];
     Node (in_sicd, "Coef") [((in_none, "exponent1"), "1"); ((in_none, "exponent2"), "0")] "-4.1430777012935061e-12" [];
     Node (in_sicd, "Coef") [((in_none, "exponent1"), "1"); ((in_none, "exponent2"), "1")] "0" [];
     Node (in_sicd, "Coef") [((in_none, "exponent1"), "1"); ((in_none, "exponent2"), "2")] "0" [];
     Node (in_sicd, "Coef") [((in_none, "exponent1"), "1"); ((in_none, "exponent2"), "3")] "0" [];
     Node (in_sicd, "Coef") [((in_none, "exponent1"), "1"); ((in_none, "exponent2"), "4")] "0" [];
     Node (in_sicd, "Coef") [((in_none, "exponent1"), "1"); ((in_none, "exponent2"), "5")] "0" [];
     Node (in_sicd, "Coef") [((in_none, "exponent1"), "1"); ((in_none, "exponent2"), "6")] "0" [];
     Node (in_sicd, "Coef") [((in_none, "exponent1"), "1"); ((in_none, "exponent2"), "7")] "0" [];
     Node (in_sicd, "Coef") [((in_none, "exponent1"), "1"); ((in_none, "exponent2"), "8")] "0" [];
     Node (in_sicd, "Coef") [((in_none, "exponent1"), "2"); ((in_none, "exponent2"), "0")] "-25810177.686242383" [];
     Node (in_sicd, "Coef") [((in_none, "exponent1"), "2"); ((in_none, "exponent2"), "1")] "0" [];
     Node (in_sicd, "Coef") [((in_none, "exponent1"), "2"); ((in_none, "exponent2"), "2")] "0" [];
     Node (in_sicd, "Coef") [((in_none, "exponent1"), "2"); ((in_none, "exponent2"), "3")] "0" [];
     Node (in_sicd, "Coef") [((in_none, "exponent1"), "2"); ((in_none, "exponent2"), "4")] "0" [];
     Node (in_sicd, "Coef") [((in_none, "exponent1"), "2"); ((in_none, "exponent2"), "5")] "0" [];
     Node (in_sicd, "Coef") [((in_none, "exponent1"), "2"); ((in_none, "exponent2"), "6")] "0" [];
     Node (in_sicd, "Coef") [((in_none, "exponent1"), "2"); ((in_none, "exponent2"), "7")] "0" [];
     Node (in_sicd, "Coef") [((in_none, "exponent1"), "2"); ((in_none, "exponent2"), "8")] "0" [];
     Node (in_sicd, "Coef") [((in_none, "exponent1"), "3"); ((in_none, "exponent2"), "0")] "-0.00014382609695309318" [];
     Node (in_sicd, "Coef") [((in_none, "exponent1"), "3"); ((in_none, "exponent2"), "1")] "0" [];
     Node (in_sicd, "Coef") [((in_none, "exponent1"), "3"); ((in_none, "exponent2"), "2")] "0" [];
     Node (in_sicd, "Coef") [((in_none, "exponent1"), "3"); ((in_none, "exponent2"), "3")] "0" [];
     Node (in_sicd, "Coef") [((in_none, "exponent1"), "3"); ((in_none, "exponent2"), "4")] "0" [];
     Node (in_sicd, "Coef") [((in_none, "exponent1"), "3"); ((in_none, "exponent2"), "5")] "0" [];
     Node (in_sicd, "Coef") [((in_none, "exponent1"), "3"); ((in_none, "exponent2"), "6")] "0" [];
     Node (in_sicd, "Coef") [((in_none, "exponent1"), "3"); ((in_none, "exponent2"), "7")] "0" [];
     Node (in_sicd, "Coef") [((in_none, "exponent1"), "3"); ((in_none, "exponent2"), "8")] "0" [];
     Node (in_sicd, "Coef") [((in_none, "exponent1"), "4"); ((in_none, "exponent2"), "0")] "-13687592749336.885" [];
     Node (in_sicd, "Coef") [((in_none, "exponent1"), "4"); ((in_none, "exponent2"), "1")] "0" [];
     Node (in_sicd, "Coef") [((in_none, "exponent1"), "4"); ((in_none, "exponent2"), "2")] "0" [];
     Node (in_sicd, "Coef") [((in_none, "exponent1"), "4"); ((in_none, "exponent2"), "3")] "0" [];
     Node (in_sicd, "Coef") [((in_none, "exponent1"), "4"); ((in_none, "exponent2"), "4")] "0" [];
     Node (in_sicd, "Coef") [((in_none, "exponent1"), "4"); ((in_none, "exponent2"), "5")] "0" [];
     Node (in_sicd, "Coef") [((in_none, "exponent1"), "4"); ((in_none, "exponent2"), "6")] "0" [];
     Node (in_sicd, "Coef") [((in_none, "exponent1"), "4"); ((in_none, "exponent2"), "7")] "0" [];
     Node (in_sicd, "Coef") [((in_none, "exponent1"), "4"); ((in_none, "exponent2"), "8")] "0" [];
     Node (in_sicd, "Coef") [((in_none, "exponent1"), "5"); ((in_none, "exponent2"), "0")] "292.19947867443852" [];
     Node (in_sicd, "Coef") [((in_none, "exponent1"), "5"); ((in_none, "exponent2"), "1")] "0" [];
     Node (in_sicd, "Coef") [((in_none, "exponent1"), "5"); ((in_none, "exponent2"), "2")] "0" [];
     Node (in_sicd, "Coef") [((in_none, "exponent1"), "5"); ((in_none, "exponent2"), "3")] "0" [];
     Node (in_sicd, "Coef") [((in_none, "exponent1"), "5"); ((in_none, "exponent2"), "4")] "0" [];
     Node (in_sicd, "Coef") [((in_none, "exponent1"), "5"); ((in_none, "exponent2"), "5")] "0" [];
     Node (in_sicd, "Coef") [((in_none, "exponent1"), "5"); ((in_none, "exponent2"), "6")] "0" [];
     Node (in_sicd, "Coef") [((in_none, "exponent1"), "5"); ((in_none, "exponent2"), "7")] "0" [];
     Node (in_sicd, "Coef") [((in_none, "exponent1"), "5"); ((in_none, "exponent2"), "8")] "0" [];
     Node (in_sicd, "Coef") [((in_none, "exponent1"), "6"); ((in_none, "exponent2"), "0")] "-4.2115648774405212e+18" [];
     Node (in_sicd, "Coef") [((in_none, "exponent1"), "6"); ((in_none, "exponent2"), "1")] "0" [];
     Node (in_sicd, "Coef") [((in_none, "exponent1"), "6"); ((in_none, "exponent2"), "2")] "0" [];
     Node (in_sicd, "Coef") [((in_none, "exponent1"), "6"); ((in_none, "exponent2"), "3")] "0" [];
     Node (in_sicd, "Coef") [((in_none, "exponent1"), "6"); ((in_none, "exponent2"), "4")] "0" [];
     Node (in_sicd, "Coef") [((in_none, "exponent1"), "6"); ((in_none, "exponent2"), "5")] "0" [];
     Node (in_sicd, "Coef") [((in_none, "exponent1"), "6"); ((in_none, "exponent2"), "6")] "0" [];
     Node (in_sicd, "Coef") [((in_none, "exponent1"), "6"); ((in_none, "exponent2"), "7")] "0" [];
     Node (in_sicd, "Coef") [((in_none, "exponent1"), "6"); ((in_none, "exponent2"), "8")] "0" [];
     Node (in_sicd, "Coef") [((in_none, "exponent1"), "7"); ((in_none, "exponent2"), "0")] "-1442527537.8580344" [];
     Node (in_sicd, "Coef") [((in_none, "exponent1"), "7"); ((in_none, "exponent2"), "1")] "0" [];
     Node (in_sicd, "Coef") [((in_none, "exponent1"), "7"); ((in_none, "exponent2"), "2")] "0" [];
     Node (in_sicd, "Coef") [((in_none, "exponent1"), "7"); ((in_none, "exponent2"), "3")] "0" [];
     Node (in_sicd, "Coef") [((in_none, "exponent1"), "7"); ((in_none, "exponent2"), "4")] "0" [];
     Node (in_sicd, "Coef") [((in_none, "exponent1"), "7"); ((in_none, "exponent2"), "5")] "0" [];
     Node (in_sicd, "Coef") [((in_none, "exponent1"), "7"); ((in_none, "exponent2"), "6")] "0" [];
     Node (in_sicd, "Coef") [((in_none, "exponent1"), "7"); ((in_none, "exponent2"), "7")] "0" [];
     Node (in_sicd, "Coef") [((in_none, "exponent1"), "7"); ((in_none, "exponent2"), "8")] "0" [];
     Node (in_sicd, "Coef") [((in_none, "exponent1"), "8"); ((in_none, "exponent2"), "0")] "-4.4559066869820204e+25" [];
     Node (in_sicd, "Coef") [((in_none, "exponent1"), "8"); ((in_none, "exponent2"), "1")] "0" [];
     Node (in_sicd, "Coef") [((in_none, "exponent1"), "8"); ((in_none, "exponent2"), "2")] "0" [];
     Node (in_sicd, "Coef") [((in_none, "exponent1"), "8"); ((in_none, "exponent2"), "3")] "0" [];
     Node (in_sicd, "Coef") [((in_none, "exponent1"), "8"); ((in_none, "exponent2"), "4")] "0" [];
     Node (in_sicd, "Coef") [((in_none, "exponent1"), "8"); ((in_none, "exponent2"), "5")] "0" [];
     Node (in_sicd, "Coef") [((in_none, "exponent1"), "8"); ((in_none, "exponent2"), "6")] "0" [];
     Node (in_sicd, "Coef") [((in_none, "exponent1"), "8"); ((in_none, "exponent2"), "7")] "0" [];
     Node (in_sicd, "Coef") [((in_none, "exponent1"), "8"); ((in_none, "exponent2"), "8")] "0" []];
    Node (in_sicd, "PhasePoly") [((in_none, "order1"), "0"); ((in_none, "order2"), "0")] "                     " [
     Node (in_sicd, "Coef") [((in_none, "exponent1"), "0"); ((in_none, "exponent2"), "0")] "0" []]];
   Node (in_sicd, "Elem") [] "                 " [
    Node (in_sicd, "GainPoly") [((in_none, "order1"), "0"); ((in_none, "order2"), "0")] "                     " [
     Node (in_sicd, "Coef") [((in_none, "exponent1"), "0"); ((in_none, "exponent2"), "0")] "0" []];
    Node (in_sicd, "PhasePoly") [((in_none, "order1"), "0"); ((in_none, "order2"), "0")] "                     " [
     Node (in_sicd, "Coef") [((in_none, "exponent1"), "0"); ((in_none, "exponent2"), "0")] "0" []]];
   Node (in_sicd, "GainBSPoly") [((in_none, "order1"), "0")] "                 " [
    Node (in_sicd, "Coef") [((in_none, "exponent1"), "0")] "0" []];
   Node (in_sicd, "MLFreqDilation") [] "false" []];
  Node (in_sicd, "Rcv") [] "             " [
   Node (in_sicd, "XAxisPoly") [] "                 " [
    Node (in_sicd, "X") [((in_none, "order1"), "5")] "                     " [
     Node (in_sicd, "Coef") [((in_none, "exponent1"), "0")] "0.13982986262005959" [];
     Node (in_sicd, "Coef") [((in_none, "exponent1"), "1")] "-0.0027594341203054122" [];
     Node (in_sicd, "Coef") [((in_none, "exponent1"), "2")] "-2.642141233211328e-06" [];
     Node (in_sicd, "Coef") [((in_none, "exponent1"), "3")] "1.4412928975132546e-08" [];
     Node (in_sicd, "Coef") [((in_none, "exponent1"), "4")] "4.9106827976192821e-11" [];
     Node (in_sicd, "Coef") [((in_none, "exponent1"), "5")] "-1.1406011989724555e-13" []];
    Node (in_sicd, "Y") [((in_none, "order1"), "5")] "                     " [
     Node (in_sicd, "Coef") [((in_none, "exponent1"), "0")] "-0.985103968766331" [];
     Node (in_sicd, "Coef") [((in_none, "exponent1"), "1")] "-0.00072022999981332595" [];
     Node (in_sicd, "Coef") [((in_none, "exponent1"), "2")] "8.6929909937280073e-06" [];
     Node (in_sicd, "Coef") [((in_none, "exponent1"), "3")] "1.7419413461433799e-08" [];
     Node (in_sicd, "Coef") [((in_none, "exponent1"), "4")] "-7.0195266020811239e-11" [];
     Node (in_sicd, "Coef") [((in_none, "exponent1"), "5")] "-3.1383419971071391e-13" []];
    Node (in_sicd, "Z") [((in_none, "order1"), "5")] "                     " [
     Node (in_sicd, "Coef") [((in_none, "exponent1"), "0")] "0.10008886172036295" [];
     Node (in_sicd, "Coef") [((in_none, "exponent1"), "1")] "-0.0032336279155612555" [];
     Node (in_sicd, "Coef") [((in_none, "exponent1"), "2")] "-3.6150726160461875e-06" [];
     Node (in_sicd, "Coef") [((in_none, "exponent1"), "3")] "2.4227194540266762e-08" [];
     Node (in_sicd, "Coef") [((in_none, "exponent1"), "4")] "6.8535490141060762e-11" [];
     Node (in_sicd, "Coef") [((in_none, "exponent1"), "5")] "-1.9455706113121084e-13" []]];
   Node (in_sicd, "YAxisPoly") [] "                 " [
    Node (in_sicd, "X") [((in_none, "order1"), "5")] "                     " [
     Node (in_sicd, "Coef") [((in_none, "exponent1"), "0")] "-0.85523535607199153" [];
     Node (in_sicd, "Coef") [((in_none, "exponent1"), "1")] "-0.00010473716447760117" [];
     Node (in_sicd, "Coef") [((in_none, "exponent1"), "2")] "1.0612386361416289e-06" [];
     Node (in_sicd, "Coef") [((in_none, "exponent1"), "3")] "1.2191988789775561e-10" [];
     Node (in_sicd, "Coef") [((in_none, "exponent1"), "4")] "-6.5342561715559025e-13" [];
     Node (in_sicd, "Coef") [((in_none, "exponent1"), "5")] "3.2519400278010645e-16" []];
    Node (in_sicd, "Y") [((in_none, "order1"), "5")] "                     " [
     Node (in_sicd, "Coef") [((in_none, "exponent1"), "0")] "-0.06921308838843146" [];
     Node (in_sicd, "Coef") [((in_none, "exponent1"), "1")] "0.00073787526119144643" [];
     Node (in_sicd, "Coef") [((in_none, "exponent1"), "2")] "7.399077245060788e-08" [];
     Node (in_sicd, "Coef") [((in_none, "exponent1"), "3")] "-1.0525875572605681e-09" [];
     Node (in_sicd, "Coef") [((in_none, "exponent1"), "4")] "-3.3788216228145983e-14" [];
     Node (in_sicd, "Coef") [((in_none, "exponent1"), "5")] "7.6241787500235205e-16" []];
    Node (in_sicd, "Z") [((in_none, "order1"), "5")] "                     " [
     Node (in_sicd, "Coef") [((in_none, "exponent1"), "0")] "0.51359715158881925" [];
     Node (in_sicd, "Coef") [((in_none, "exponent1"), "1")] "-7.4969848184029868e-05" [];
     Node (in_sicd, "Coef") [((in_none, "exponent1"), "2")] "1.2309351838082699e-06" [];
     Node (in_sicd, "Coef") [((in_none, "exponent1"), "3")] "3.5096979204331667e-10" [];
     Node (in_sicd, "Coef") [((in_none, "exponent1"), "4")] "-2.0820927565561895e-12" [];
     Node (in_sicd, "Coef") [((in_none, "exponent1"), "5")] "-5.4913780628865013e-16" []]];
   Node (in_sicd, "FreqZero") [] "10000000000" [];
   Node (in_sicd, "EB") [] "                 " [
    Node (in_sicd, "DCXPoly") [((in_none, "order1"), "0")] "                     " [
     Node (in_sicd, "Coef") [((in_none, "exponent1"), "0")] "0" []];
    Node (in_sicd, "DCYPoly") [((in_none, "order1"), "0")] "                     " [
     Node (in_sicd, "Coef") [((in_none, "exponent1"), "0")] "0" []]];
   Node (in_sicd, "Array") [] "                 " [
    Node (in_sicd, "GainPoly") [((in_none, "order1"), "8"); ((in_none, "order2"), "8")] "                     " [
     Node (in_sicd, "Coef") [((in_none, "exponent1"), "0"); ((in_none, "exponent2"), "0")] "0" [];
     Node (in_sicd, "Coef") [((in_none, "exponent1"), "0"); ((in_none, "exponent2"), "1")] "-4.1430777012935061e-12" [];
     Node (in_sicd, "Coef") [((in_none, "exponent1"), "0"); ((in_none, "exponent2"), "2")] "-25810177.686242383" [];
     Node (in_sicd, "Coef") [((in_none, "exponent1"), "0"); ((in_none, "exponent2"), "3")] "-0.00014382609695309318" [];
     Node (in_sicd, "Coef") [((in_none, "exponent1"), "0"); ((in_none, "exponent2"), "4")] "-13687592749336.885" [];
     Node (in_sicd, "Coef") [((in_none, "exponent1"), "0"); ((in_none, "exponent2"), "5")] "292.19947867443852" [];
     Node (in_sicd, "Coef") [((in_none, "exponent1"), "0"); ((in_none, "exponent2"), "6")] "-4.2115648774405212e+18" [];
     Node (in_sicd, "Coef") [((in_none, "exponent1"), "0"); ((in_none, "exponent2"), "7")] "-1442527537.8580344" [];
     Node (in_sicd, "Coef") [((in_none, "exponent1"), "0"); ((in_none, "exponent2"), "8")] "-4.4559066869820204e+25" [];
     Node (in_sicd, "Coef") [((in_none, "exponent1"), "1"); ((in_none, "exponent2"), "0")] "-4.1430777012935061e-12" [];
     Node (in_sicd, "Coef") [((in_none, "exponent1"), "1"); ((in_none, "exponent2"), "1")] "0" [];
     Node (in_sicd, "Coef") [((in_none, "exponent1"), "1"); ((in_none, "exponent2"), "2")] "0" [];
     Node (in_sicd, "Coef") [((in_none, "exponent1"), "1"); ((in_none, "exponent2"), "3")] "0" [];
     Node (in_sicd, "Coef") [((in_none, "exponent1"), "1"); ((in_none, "exponent2"), "4")] "0" [];
     Node (in_sicd, "Coef") [((in_none, "exponent1"), "1"); ((in_none, "exponent2"), "5")] "0" [];
     Node (in_sicd, "Coef") [((in_none, "exponent1"), "1"); ((in_none, "exponent2"), "6")] "0" [];
     Node (in_sicd, "Coef") [((in_none, "exponent1"), "1"); ((in_none, "exponent2"), "7")] "0" [];
     Node (in_sicd, "Coef") [((in_none, "exponent1"), "1"); ((in_none, "exponent2"), "8")] "0" [];
     Node (in_sicd, "Coef") [((in_none, "exponent1"), "2"); ((in_none, "exponent2"), "0")] "-25810177.686242383" [];
     Node (in_sicd, "Coef") [((in_none, "exponent1"), "2"); ((in_none, "exponent2"), "1")] "0" [];
     Node (in_sicd, "Coef") [((in_none, "exponent1"), "2"); ((in_none, "exponent2"), "2")] "0" [];
     Node (in_sicd, "Coef") [((in_none, "exponent1"), "2"); ((in_none, "exponent2"), "3")] "0" [];
     Node (in_sicd, "Coef") [((in_none, "exponent1"), "2"); ((in_none, "exponent2"), "4")] "0" [];
     Node (in_sicd, "Coef") [((in_none, "exponent1"), "2"); ((in_none, "exponent2"), "5")] "0" [];
     Node (in_sicd, "Coef") [((in_none, "exponent1"), "2"); ((in_none, "exponent2"), "6")] "0" [];
     Node (in_sicd, "Coef") [((in_none, "exponent1"), "2"); ((in_none, "exponent2"), "7")] "0" [];
     Node (in_sicd, "Coef") [((in_none, "exponent1"), "2"); ((in_none, "exponent2"), "8")] "0" [];
     Node (in_sicd, "Coef") [((in_none, "exponent1"), "3"); ((in_none, "exponent2"), "0")] "-0.00014382609695309318" [];
     Node (in_sicd, "Coef") [((in_none, "exponent1"), "3"); ((in_none, "exponent2"), "1")] "0" [];
     Node (in_sicd, "Coef") [((in_none, "exponent1"), "3"); ((in_none, "exponent2"), "2")] "0" [];
     Node (in_sicd, "Coef") [((in_none, "exponent1"), "3"); ((in_none, "exponent2"), "3")] "0" [];
     Node (in_sicd, "Coef") [((in_none, "exponent1"), "3"); ((in_none, "exponent2"), "4")] "0" [];
     Node (in_sicd, "Coef") [((in_none, "exponent1"), "3"); ((in_none, "exponent2"), "5")] "0" [];
     Node (in_sicd, "Coef") [((in_none, "exponent1"), "3"); ((in_none, "exponent2"), "6")] "0" [];
     Node (in_sicd, "Coef") [((in_none, "exponent1"), "3"); ((in_none, "exponent2"), "7")] "0" [];
     Node (in_sicd, "Coef") [((in_none, "exponent1"), "3"); ((in_none, "exponent2"), "8")] "0" [];
     Node (in_sicd, "Coef") [((in_none, "exponent1"), "4"); ((in_none, "exponent2"), "0")] "-13687592749336.885" [];
     Node (in_sicd, "Coef") [((in_none, "exponent1"), "4"); ((in_none, "exponent2"), "1")] "0" [];
     Node (in_sicd, "Coef") [((in_none, "exponent1"), "4"); ((in_none, "exponent2"), "2")] "0" [];
     Node (in_sicd, "Coef") [((in_none, "exponent1"), "4"); ((in_none, "exponent2"), "3")] "0" [];
     Node (in_sicd, "Coef") [((in_none, "exponent1"), "4"); ((in_none, "exponent2"), "4")] "0" [];
     Node (in_sicd, "Coef") [((in_none, "exponent1"), "4"); ((in_none, "exponent2"), "5")] "0" [];
     Node (in_sicd, "Coef") [((in_none, "exponent1"), "4"); ((in_none, "exponent2"), "6")] "0" [];
     Node (in_sicd, "Coef") [((in_none, "exponent1"), "4"); ((in_none, "exponent2"), "7")] "0" [];
     Node (in_sicd, "Coef") [((in_none, "exponent1"), "4"); ((in_none, "exponent2"), "8")] "0" [];
     Node (in_sicd, "Coef") [((in_none, "exponent1"), "5"); ((in_none, "exponent2"), "0")] "292.19947867443852" [];
     Node (in_sicd, "Coef") [((in_none, "exponent1"), "5"); ((in_none, "exponent2"), "1")] "0" [];
     Node (in_sicd, "Coef") [((in_none, "exponent1"), "5"); ((in_none, "exponent2"), "2")] "0" [];
     Node (in_sicd, "Coef") [((in_none, "exponent1"), "5"); ((in_none, "exponent2"), "3")] "0" [];
     Node (in_sicd, "Coef") [((in_none, "exponent1"), "5"); ((in_none, "exponent2"), "4")] "0" [];
     Node (in_sicd, "Coef") [((in_none, "exponent1"), "5"); ((in_none, "exponent2"), "5")] "0" [];
     Node (in_sicd, "Coef") [((in_none, "exponent1"), "5"); ((in_none, "exponent2"), "6")] "0" [];
     Node (in_sicd, "Coef") [((in_none, "exponent1"), "5"); ((in_none, "exponent2"), "7")] "0" [];
     Node (in_sicd, "Coef") [((in_none, "exponent1"), "5"); ((in_none, "exponent2"), "8")] "0" [];
     Node (in_sicd, "Coef") [((in_none, "exponent1"), "6"); ((in_none, "exponent2"), "0")] "-4.2115648774405212e+18" [];
     Node (in_sicd, "Coef") [((in_none, "exponent1"), "6"); ((in_none, "exponent2"), "1")] "0" [];
     Node (in_sicd, "Coef") [((in_none, "exponent1"), "6"); ((in_none, "exponent2"), "2")] "0" [];
     Node (in_sicd, "Coef") [((in_none, "exponent1"), "6"); ((in_none, "exponent2"), "3")] "0" [];
     Node (in_sicd, "Coef") [((in_none, "exponent1"), "6"); ((in_none, "exponent2"), "4")] "0" [];
     Node (in_sicd, "Coef") [((in_none, "exponent1"), "6"); ((in_none, "exponent2"), "5")] "0" [];
     Node (in_sicd, "Coef") [((in_none, "exponent1"), "6"); ((in_none, "exponent2"), "6")] "0" [];
     Node (in_sicd, "Coef") [((in_none, "exponent1"), "6"); ((in_none, "exponent2"), "7")] "0" [];
     Node (in_sicd, "Coef") [((in_none, "exponent1"), "6"); ((in_none, "exponent2"), "8")] "0" [];
     Node (in_sicd, "Coef") [((in_none, "exponent1"), "7"); ((in_none, "exponent2"), "0")] "-1442527537.8580344" [];
     Node (in_sicd, "Coef") [((in_none, "exponent1"), "7"); ((in_none, "exponent2"), "1")] "0" [];
     Node (in_sicd, "Coef") [((in_none, "exponent1"), "7"); ((in_none, "exponent2"), "2")] "0" [];
     Node (in_sicd, "Coef") [((in_none, "exponent1"), "7"); ((in_none, "exponent2"), "3")] "0" [];
     Node (in_sicd, "Coef") [((in_none, "exponent1"), "7"); ((in_none, "exponent2"), "4")] "0" [];
     Node (in_sicd, "Coef") [((in_none, "exponent1"), "7"); ((in_none, "exponent2"), "5")] "0" [];
     Node (in_sicd, "Coef") [((in_none, "exponent1"), "7"); ((in_none, "exponent2"), "6")] "0" [];
     Node (in_sicd, "Coef") [((in_none, "exponent1"), "7"); ((in_none, "exponent2"), "7")] "0" [];
     Node (in_sicd, "Coef") [((in_none, "exponent1"), "7"); ((in_none, "exponent2"), "8")] "0" [];
     Node (in_sicd, "Coef") [((in_none, "exponent1"), "8"); ((in_none, "exponent2"), "0")] "-4.4559066869820204e+25" [];
     Node (in_sicd, "Coef") [((in_none, "exponent1"), "8"); ((in_none, "exponent2"), "1")] "0" [];
     Node (in_sicd, "Coef") [((in_none, "exponent1"), "8"); ((in_none, "exponent2"), "2")] "0" [];
     Node (in_sicd, "Coef") [((in_none, "exponent1"), "8"); ((in_none, "exponent2"), "3")] "0" [];
     Node (in_sicd, "Coef") [((in_none, "exponent1"), "8"); ((in_none, "exponent2"), "4")] "0" [];
     Node (in_sicd, "Coef") [((in_none, "exponent1"), "8"); ((in_none, "exponent2"), "5")] "0" [];
     Node (in_sicd, "Coef") [((in_none, "exponent1"), "8"); ((in_none, "exponent2"), "6")] "0" [];
     Node (in_sicd, "Coef") [((in_none, "exponent1"), "8"); ((in_none, "exponent2"), "7")] "0" [];
     Node (in_sicd, "Coef") [((in_none, "exponent1"), "8"); ((in_none, "exponent2"), "8")] "0" []];
    Node (in_sicd, "PhasePoly") [((in_none, "order1"), "0"); ((in_none, "order2"), "0")] "                     " [
     Node (in_sicd, "Coef") [((in_none, "exponent1"), "0"); ((in_none, "exponent2"), "0")] "0" []]];
   Node (in_sicd, "Elem") [] "                 " [
    Node (in_sicd, "GainPoly") [((in_none, "order1"), "0"); ((in_none, "order2"), "0")] "                     " [
     Node (in_sicd, "Coef") [((in_none, "exponent1"), "0"); ((in_none, "exponent2"), "0")] "0" []];
    Node (in_sicd, "PhasePoly") [((in_none, "order1"), "0"); ((in_none, "order2"), "0")] "                     " [
     Node (in_sicd, "Coef") [((in_none, "exponent1"), "0"); ((in_none, "exponent2"), "0")] "0" []]];
   Node (in_sicd, "GainBSPoly") [((in_none, "order1"), "0")] "                 " [
    Node (in_sicd, "Coef") [((in_none, "exponent1"), "0")] "0" []];
   Node (in_sicd, "MLFreqDilation") [] "false" []];
  Node (in_sicd, "TwoWay") [] "             " [
   Node (in_sicd, "XAxisPoly") [] "                 " [
    Node (in_sicd, "X") [((in_none, "order1"), "2")] "                     " [
     Node (in_sicd, "Coef") [((in_none, "exponent1"), "0")] "0.13982986262005959" [];
     Node (in_sicd, "Coef") [((in_none, "exponent1"), "1")] "-0.0027594341203054122" [];
     Node (in_sicd, "Coef") [((in_none, "exponent1"), "2")] "-2.642141233211328e-06" []];
    Node (in_sicd, "Y") [((in_none, "order1"), "2")] "                     " [
     Node (in_sicd, "Coef") [((in_none, "exponent1"), "0")] "-0.985103968766331" [];
     Node (in_sicd, "Coef") [((in_none, "exponent1"), "1")] "-0.00072022999981332595" [];
     Node (in_sicd, "Coef") [((in_none, "exponent1"), "2")] "8.6929909937280073e-06" []];
    Node (in_sicd, "Z") [((in_none, "order1"), "2")] "                     " [
     Node (in_sicd, "Coef") [((in_none, "exponent1"), "0")] "0.10008886172036295" [];
     Node (in_sicd, "Coef") [((in_none, "exponent1"), "1")] "-0.0032336279155612555" [];
     Node (in_sicd, "Coef") [((in_none, "exponent1"), "2")] "-3.6150726160461875e-06" []]];
   Node (in_sicd, "YAxisPoly") [] "                 " [
    Node (in_sicd, "X") [((in_none, "order1"), "2")] "                     " [
     Node (in_sicd, "Coef") [((in_none, "exponent1"), "0")] "-0.85523535607199153" [];
     Node (in_sicd, "Coef") [((in_none, "exponent1"), "1")] "-0.00010473716447760117" [];
     Node (in_sicd, "Coef") [((in_none, "exponent1"), "2")] "1.0612386361416289e-06" []];
    Node (in_sicd, "Y") [((in_none, "order1"), "2")] "                     " [
     Node (in_sicd, "Coef") [((in_none, "exponent1"), "0")] "-0.06921308838843146" [];
     Node (in_sicd, "Coef") [((in_none, "exponent1"), "1")] "0.00073787526119144643" [];
     Node (in_sicd, "Coef") [((in_none, "exponent1"), "2")] "7.399077245060788e-08" []];
    Node (in_sicd, "Z") [((in_none, "order1"), "2")] "                     " [
     Node (in_sicd, "Coef") [((in_none, "exponent1"), "0")] "0.51359715158881925" [];
     Node (in_sicd, "Coef") [((in_none, "exponent1"), "1")] "-7.4969848184029868e-05" [];
     Node (in_sicd, "Coef") [((in_none, "exponent1"), "2")] "1.2309351838082699e-06" []]];
   Node (in_sicd, "FreqZero") [] "10000000000" [];
   Node (in_sicd, "EB") [] "                 " [
    Node (in_sicd, "DCXPoly") [((in_none, "order1"), "0")] "                     " [
     Node (in_sicd, "Coef") [((in_none, "exponent1"), "0")] "0" []];
    Node (in_sicd, "DCYPoly") [((in_none, "order1"), "0")] "                     " [
     Node (in_sicd, "Coef") [((in_none, "exponent1"), "0")] "0" []]];
   Node (in_sicd, "Array") [] "                 " [
    Node (in_sicd, "GainPoly") [((in_none, "order1"), "2"); ((in_none, "order2"), "2")] "                     " [
     Node (in_sicd, "Coef") [((in_none, "exponent1"), "0"); ((in_none, "exponent2"), "0")] "0" [];
     Node (in_sicd, "Coef") [((in_none, "exponent1"), "0"); ((in_none, "exponent2"), "1")] "-4.1430777012935061e-12" [];
     Node (in_sicd, "Coef") [((in_none, "exponent1"), "0"); ((in_none, "exponent2"), "2")] "-25810177.686242383" [];
     Node (in_sicd, "Coef") [((in_none, "exponent1"), "1"); ((in_none, "exponent2"), "0")] "-4.1430777012935061e-12" [];
     Node (in_sicd, "Coef") [((in_none, "exponent1"), "1"); ((in_none, "exponent2"), "1")] "0" [];
     Node (in_sicd, "Coef") [((in_none, "exponent1"), "1"); ((in_none, "exponent2"), "2")] "0" [];
     Node (in_sicd, "Coef") [((in_none, "exponent1"), "2"); ((in_none, "exponent2"), "0")] "-25810177.686242383" [];
     Node (in_sicd, "Coef") [((in_none, "exponent1"), "2"); ((in_none, "exponent2"), "1")] "0" [];
     Node (in_sicd, "Coef") [((in_none, "exponent1"), "2"); ((in_none, "exponent2"), "2")] "0" []];
    Node (in_sicd, "PhasePoly") [((in_none, "order1"), "0"); ((in_none, "order2"), "0")] "                     " [
     Node (in_sicd, "Coef") [((in_none, "exponent1"), "0"); ((in_none, "exponent2"), "0")] "0" []]];
   Node (in_sicd, "Elem") [] "                 " [
    Node (in_sicd, "GainPoly") [((in_none, "order1"), "0"); ((in_none, "order2"), "0")] "                     " [
     Node (in_sicd, "Coef") [((in_none, "exponent1"), "0"); ((in_none, "exponent2"), "0")] "0" []];
    Node (in_sicd, "PhasePoly") [((in_none, "order1"), "0"); ((in_none, "order2"), "0")] "                     " [
     Node (in_sicd, "Coef") [((in_none, "exponent1"), "0"); ((in_none, "exponent2"), "0")] "0" []]];
   Node (in_sicd, "GainBSPoly") [((in_none, "order1"), "0")] "                 " [
    Node (in_sicd, "Coef") [((in_none, "exponent1"), "0")] "0" []];
   Node (in_sicd, "MLFreqDilation") [] "false" []]];
 Node (in_sicd, "PFA") [] "         " [
  Node (in_sicd, "FPN") [] "             " [
   Node (in_sicd, "X") [] "1" [];
   Node (in_sicd, "Y") [] "0" [];
   Node (in_sicd, "Z") [] "0" []];
  Node (in_sicd, "IPN") [] "             " [
   Node (in_sicd, "X") [] "0.85540832579135895" [];
   Node (in_sicd, "Y") [] "0.067973204303252321" [];
   Node (in_sicd, "Z") [] "-0.51347467325894713" []];
  Node (in_sicd, "PolarAngRefTime") [] "1.6800674762530463" [];
  Node (in_sicd, "PolarAngPoly") [((in_none, "order1"), "9")] "             " [
   Node (in_sicd, "Coef") [((in_none, "exponent1"), "0")] "-0.0071413060968959627" [];
   Node (in_sicd, "Coef") [((in_none, "exponent1"), "1")] "0.004245118151048095" [];
   Node (in_sicd, "Coef") [((in_none, "exponent1"), "2")] "3.303261280436797e-06" [];
   Node (in_sicd, "Coef") [((in_none, "exponent1"), "3")] "-2.152475729568344e-08" [];
   Node (in_sicd, "Coef") [((in_none, "exponent1"), "4")] "-5.5340201006749593e-11" [];
   Node (in_sicd, "Coef") [((in_none, "exponent1"), "5")] "1.6174039129702326e-13" [];
   Node (in_sicd, "Coef") [((in_none, "exponent1"), "6")] "1.2038148814517427e-15" [];
   Node (in_sicd, "Coef") [((in_none, "exponent1"), "7")] "-1.0008410326624715e-16" [];
   Node (in_sicd, "Coef") [((in_none, "exponent1"), "8")] "1.6819824323114349e-17" [];
   Node (in_sicd, "Coef") [((in_none, "exponent1"), "9")] "-1.1931290667377136e-18" []];
  Node (in_sicd, "SpatialFreqSFPoly") [((in_none, "order1"), "8")] "             " [
   Node (in_sicd, "Coef") [((in_none, "exponent1"), "0")] "0.99999143699142279" [];
   Node (in_sicd, "Coef") [((in_none, "exponent1"), "1")] "2.1389170906735031e-05" [];
   Node (in_sicd, "Coef") [((in_none, "exponent1"), "2")] "0.051388964320644458" [];
   Node (in_sicd, "Coef") [((in_none, "exponent1"), "3")] "0.0048322065140747042" [];
   Node (in_sicd, "Coef") [((in_none, "exponent1"), "4")] "-0.020014437732713723" [];
   Node (in_sicd, "Coef") [((in_none, "exponent1"), "5")] "0.0023716850734943114" [];
   Node (in_sicd, "Coef") [((in_none, "exponent1"), "6")] "0.14153200650672734" [];
   Node (in_sicd, "Coef") [((in_none, "exponent1"), "7")] "4.5834686287659396" [];
   Node (in_sicd, "Coef") [((in_none, "exponent1"), "8")] "-1395.0901983623608" []];
  Node (in_sicd, "Krg1") [] "66.268165205464854" [];
  Node (in_sicd, "Krg2") [] "67.156149288980856" [];
  Node (in_sicd, "Kaz1") [] "-0.44524655663963569" [];
  Node (in_sicd, "Kaz2") [] "0.44524655663963569" []]].

(** test/data/sicd/example.sicd121.rma.xml:1-1578. *)
Definition example_rma : Xml :=
Node (in_sicd, "SICD") [] "   " [
 Node (in_sicd, "CollectionInfo") [] "     " [
  Node (in_sicd, "CollectorName") [] "Synthetic" [];
  Node (in_sicd, "CoreName") [] "SyntheticCore" [];
  Node (in_sicd, "CollectType") [] "MONOSTATIC" [];
  Node (in_sicd, "RadarMode") [] "       " [
   Node (in_sicd, "ModeType") [] "SPOTLIGHT" []];
  Node (in_sicd, "Classification") [] "UNCLASSIFIED" []];
 Node (in_sicd, "ImageCreation") [] "     " [
  Node (in_sicd, "Application") [] "Valkyrie Systems Sage | sar_common_kit 1.10.0.0" [];
  Node (in_sicd, "DateTime") [] "2023-03-15T18:45:25.264560Z" []];
 Node (in_sicd, "ImageData") [] "     " [
  Node (in_sicd, "PixelType") [] "RE32F_IM32F" [];
  Node (in_sicd, "NumRows") [] "1491" [];
  Node (in_sicd, "NumCols") [] "1773" [];
  Node (in_sicd, "FirstRow") [] "0" [];
  Node (in_sicd, "FirstCol") [] "0" [];
  Node (in_sicd, "FullImage") [] "       " [
   Node (in_sicd, "NumRows") [] "1491" [];
   Node (in_sicd, "NumCols") [] "1773" []];
  Node (in_sicd, "SCPPixel") [] "       " [
   Node (in_sicd, "Row") [] "745" [];
   Node (in_sicd, "Col") [] "886" []];
  Node (in_sicd, "ValidData") [((in_none, "size"), "100")] "       " [
   Node (in_sicd, "Vertex") [((in_none, "index"), "1")] "         " [
    Node (in_sicd, "Row") [] "251" [];
    Node (in_sicd, "Col") [] "344" []];
   Node (in_sicd, "Vertex") [((in_none, "index"), "2")] "         " [
    Node (in_sicd, "Row") [] "251" [];
    Node (in_sicd, "Col") [] "368" []];
   Node (in_sicd, "Vertex") [((in_none, "index"), "3")] "         " [
    Node (in_sicd, "Row") [] "251" [];
    Node (in_sicd, "Col") [] "392" []];
   Node (in_sicd, "Vertex") [((in_none, "index"), "4")] "         " [
    Node (in_sicd, "Row") [] "251" [];
    Node (in_sicd, "Col") [] "416" []];
   Node (in_sicd, "Vertex") [((in_none, "index"), "5")] "         " [
    Node (in_sicd, "Row") [] "251" [];
    Node (in_sicd, "Col") [] "440" []];
   Node (in_sicd, "Vertex") [((in_none, "index"), "6")] "         " [
    Node (in_sicd, "Row") [] "251" [];
    Node (in_sicd, "Col") [] "464" []];
   Node (in_sicd, "Vertex") [((in_none, "index"), "7")] "         " [
    Node (in_sicd, "Row") [] "251" [];
    Node (in_sicd, "Col") [] "488" []];
   Node (in_sicd, "Vertex") [((in_none, "index"), "8")] "         " [
    Node (in_sicd, "Row") [] "251" [];
    Node (in_sicd, "Col") [] "512" []];
   Node (in_sicd, "Vertex") [((in_none, "index"), "9")] "         " [
    Node (in_sicd, "Row") [] "251" [];
    Node (in_sicd, "Col") [] "536" []];
   Node (in_sicd, "Vertex") [((in_none, "index"), "10")] "         " [
    Node (in_sicd, "Row") [] "251" [];
    Node (in_sicd, "Col") [] "560" []];
   Node (in_sicd, "Vertex") [((in_none, "index"), "11")] "         " [
    Node (in_sicd, "Row") [] "251" [];
    Node (in_sicd, "Col") [] "584" []];
   Node (in_sicd, "Vertex") [((in_none, "index"), "12")] "         " [
    Node (in_sicd, "Row") [] "251" [];
    Node (in_sicd, "Col") [] "608" []];
   Node (in_sicd, "Vertex") [((in_none, "index"), "13")] "         " [
    Node (in_sicd, "Row") [] "251" [];
    Node (in_sicd, "Col") [] "632" []];
   Node (in_sicd, "Vertex") [((in_none, "index"), "14")] "         " [
    Node (in_sicd, "Row") [] "251" [];
    Node (in_sicd, "Col") [] "656" []];
   Node (in_sicd, "Vertex") [((in_none, "index"), "15")] "         " [
    Node (in_sicd, "Row") [] "251" [];
    Node (in_sicd, "Col") [] "680" []];
   Node (in_sicd, "Vertex") [((in_none, "index"), "16")] "         " [
    Node (in_sicd, "Row") [] "251" [];
    Node (in_sicd, "Col") [] "704" []];
   Node (in_sicd, "Vertex") [((in_none, "index"), "17")] "         " [
    Node (in_sicd, "Row") [] "251" [];
    Node (in_sicd, "Col") [] "728" []];
   Node (in_sicd, "Vertex") [((in_none, "index"), "18")] "         " [
    Node (in_sicd, "Row") [] "251" [];
    Node (in_sicd, "Col") [] "752" []];
   Node (in_sicd, "Vertex") [((in_none, "index"), "19")] "         " [
    Node (in_sicd, "Row") [] "251" [];
    Node (in_sicd, "Col") [] "776" []];
   Node (in_sicd, "Vertex") [((in_none, "index"), "20")] "         " [
    Node (in_sicd, "Row") [] "251" [];
    Node (in_sicd, "Col") [] "800" []];
   Node (in_sicd, "Vertex") [((in_none, "index"), "21")] "         " [
    Node (in_sicd, "Row") [] "251" [];
    Node (in_sicd, "Col") [] "824" []];
   Node (in_sicd, "Vertex") [((in_none, "index"), "22")] "         " [
    Node (in_sicd, "Row") [] "251" [];
    Node (in_sicd, "Col") [] "848" []];
   Node (in_sicd, "Vertex") [((in_none, "index"), "23")] "         " [
    Node (in_sicd, "Row") [] "251" [];
    Node (in_sicd, "Col") [] "872" []];
   Node (in_sicd, "Vertex") [((in_none, "index"), "24")] "         " [
    Node (in_sicd, "Row") [] "251" [];
    Node (in_sicd, "Col") [] "896" []];
   Node (in_sicd, "Vertex") [((in_none, "index"), "25")] "         " [
    Node (in_sicd, "Row") [] "251" [];
    Node (in_sicd, "Col") [] "921" []];
   Node (in_sicd, "Vertex") [((in_none, "index"), "26")] "         " [
    Node (in_sicd, "Row") [] "251" [];
    Node (in_sicd, "Col") [] "945" []];
   Node (in_sicd, "Vertex") [((in_none, "index"), "27")] "         " [
    Node (in_sicd, "Row") [] "251" [];
    Node (in_sicd, "Col") [] "969" []];
   Node (in_sicd, "Vertex") [((in_none, "index"), "28")] "         " [
    Node (in_sicd, "Row") [] "251" [];
    Node (in_sicd, "Col") [] "993" []];
   Node (in_sicd, "Vertex") [((in_none, "index"), "29")] "         " [
    Node (in_sicd, "Row") [] "251" [];
    Node (in_sicd, "Col") [] "1017" []];
   Node (in_sicd, "Vertex") [((in_none, "index"), "30")] "         " [
    Node (in_sicd, "Row") [] "251" [];
    Node (in_sicd, "Col") [] "1041" []];
   Node (in_sicd, "Vertex") [((in_none, "index"), "31")] "         " [
    Node (in_sicd, "Row") [] "251" [];
    Node (in_sicd, "Col") [] "1065" []];
   Node (in_sicd, "Vertex") [((in_none, "index"), "32")] "         " [
    Node (in_sicd, "Row") [] "251" [];
    Node (in_sicd, "Col") [] "1089" []];
   Node (in_sicd, "Vertex") [((in_none, "index"), "33")] "         " [
    Node (in_sicd, "Row") [] "251" [];
    Node (in_sicd, "Col") [] "1113" []];
   Node (in_sicd, "Vertex") [((in_none, "index"), "34")] "         " [
    Node (in_sicd, "Row") [] "251" [];
    Node (in_sicd, "Col") [] "1137" []];
   Node (in_sicd, "Vertex") [((in_none, "index"), "35")] "         " [
    Node (in_sicd, "Row") [] "251" [];
    Node (in_sicd, "Col") [] "1161" []];
   Node (in_sicd, "Vertex") [((in_none, "index"), "36")] "         " [
    Node (in_sicd, "Row") [] "251" [];
    Node (in_sicd, "Col") [] "1185" []];
   Node (in_sicd, "Vertex") [((in_none, "index"), "37")] "         " [
    Node (in_sicd, "Row") [] "251" [];
    Node (in_sicd, "Col") [] "1209" []];
   Node (in_sicd, "Vertex") [((in_none, "index"), "38")] "         " [
    Node (in_sicd, "Row") [] "251" [];
    Node (in_sicd, "Col") [] "1233" []];
   Node (in_sicd, "Vertex") [((in_none, "index"), "39")] "         " [
    Node (in_sicd, "Row") [] "251" [];
    Node (in_sicd, "Col") [] "1257" []];
   Node (in_sicd, "Vertex") [((in_none, "index"), "40")] "         " [
    Node (in_sicd, "Row") [] "251" [];
    Node (in_sicd, "Col") [] "1281" []];
   Node (in_sicd, "Vertex") [((in_none, "index"), "41")] "         " [
    Node (in_sicd, "Row") [] "251" [];
    Node (in_sicd, "Col") [] "1305" []];
   Node (in_sicd, "Vertex") [((in_none, "index"), "42")] "         " [
    Node (in_sicd, "Row") [] "251" [];
    Node (in_sicd, "Col") [] "1329" []];
   Node (in_sicd, "Vertex") [((in_none, "index"), "43")] "         " [
    Node (in_sicd, "Row") [] "251" [];
    Node (in_sicd, "Col") [] "1353" []];
   Node (in_sicd, "Vertex") [((in_none, "index"), "44")] "         " [
    Node (in_sicd, "Row") [] "251" [];
    Node (in_sicd, "Col") [] "1377" []];
   Node (in_sicd, "Vertex") [((in_none, "index"), "45")] "         " [
    Node (in_sicd, "Row") [] "251" [];
    Node (in_sicd, "Col") [] "1401" []];
   Node (in_sicd, "Vertex") [((in_none, "index"), "46")] "         " [
    Node (in_sicd, "Row") [] "251" [];
    Node (in_sicd, "Col") [] "1425" []];
   Node (in_sicd, "Vertex") [((in_none, "index"), "47")] "         " [
    Node (in_sicd, "Row") [] "251" [];
    Node (in_sicd, "Col") [] "1449" []];
   Node (in_sicd, "Vertex") [((in_none, "index"), "48")] "         " [
    Node (in_sicd, "Row") [] "251" [];
    Node (in_sicd, "Col") [] "1473" []];
   Node (in_sicd, "Vertex") [((in_none, "index"), "49")] "         " [
    Node (in_sicd, "Row") [] "251" [];
    Node (in_sicd, "Col") [] "1498" []];
   Node (in_sicd, "Vertex") [((in_none, "index"), "50")] "         " [
    Node (in_sicd, "Row") [] "251" [];
    Node (in_sicd, "Col") [] "1522" []];
   Node (in_sicd, "Vertex") [((in_none, "index"), "51")] "         " [
    Node (in_sicd, "Row") [] "1239" [];
    Node (in_sicd, "Col") [] "1428" []];
   Node (in_sicd, "Vertex") [((in_none, "index"), "52")] "         " [
    Node (in_sicd, "Row") [] "1239" [];
    Node (in_sicd, "Col") [] "250" []];
   Node (in_sicd, "Vertex") [((in_none, "index"), "53")] "         " [
    Node (in_sicd, "Row") [] "1219" [];
    Node (in_sicd, "Col") [] "252" []];
   Node (in_sicd, "Vertex") [((in_none, "index"), "54")] "         " [
    Node (in_sicd, "Row") [] "1199" [];
    Node (in_sicd, "Col") [] "254" []];
   Node (in_sicd, "Vertex") [((in_none, "index"), "55")] "         " [
    Node (in_sicd, "Row") [] "1179" [];
    Node (in_sicd, "Col") [] "256" []];
   Node (in_sicd, "Vertex") [((in_none, "index"), "56")] "         " [
    Node (in_sicd, "Row") [] "1158" [];
    Node (in_sicd, "Col") [] "258" []];
   Node (in_sicd, "Vertex") [((in_none, "index"), "57")] "         " [
    Node (in_sicd, "Row") [] "1138" [];
    Node (in_sicd, "Col") [] "260" []];
   Node (in_sicd, "Vertex") [((in_none, "index"), "58")] "         " [
    Node (in_sicd, "Row") [] "1118" [];
    Node (in_sicd, "Col") [] "262" []];
   Node (in_sicd, "Vertex") [((in_none, "index"), "59")] "         " [
    Node (in_sicd, "Row") [] "1098" [];
    Node (in_sicd, "Col") [] "264" []];
   Node (in_sicd, "Vertex") [((in_none, "index"), "60")] "         " [
    Node (in_sicd, "Row") [] "1078" [];
    Node (in_sicd, "Col") [] "266" []];
   Node (in_sicd, "Vertex") [((in_none, "index"), "61")] "         " [
    Node (in_sicd, "Row") [] "1058" [];
    Node (in_sicd, "Col") [] "268" []];
   Node (in_sicd, "Vertex") [((in_none, "index"), "62")] "         " [
    Node (in_sicd, "Row") [] "1037" [];
    Node (in_sicd, "Col") [] "269" []];
   Node (in_sicd, "Vertex") [((in_none, "index"), "63")] "         " [
    Node (in_sicd, "Row") [] "1017" [];
    Node (in_sicd, "Col") [] "271" []];
   Node (in_sicd, "Vertex") [((in_none, "index"), "64")] "         " [
    Node (in_sicd, "Row") [] "997" [];
    Node (in_sicd, "Col") [] "273" []];
   Node (in_sicd, "Vertex") [((in_none, "index"), "65")] "         " [
    Node (in_sicd, "Row") [] "977" [];
    Node (in_sicd, "Col") [] "275" []];
   Node (in_sicd, "Vertex") [((in_none, "index"), "66")] "         " [
    Node (in_sicd, "Row") [] "957" [];
    Node (in_sicd, "Col") [] "277" []];
   Node (in_sicd, "Vertex") [((in_none, "index"), "67")] "         " [
    Node (in_sicd, "Row") [] "937" [];
    Node (in_sicd, "Col") [] "279" []];
   Node (in_sicd, "Vertex") [((in_none, "index"), "68")] "         " [
    Node (in_sicd, "Row") [] "916" [];
    Node (in_sicd, "Col") [] "281" []];
   Node (in_sicd, "Vertex") [((in_none, "index"), "69")] "         " [
    Node (in_sicd, "Row") [] "896" [];
    Node (in_sicd, "Col") [] "283" []];
   Node (in_sicd, "Vertex") [((in_none, "index"), "70")] "         " [
    Node (in_sicd, "Row") [] "876" [];
    Node (in_sicd, "Col") [] "285" []];
   Node (in_sicd, "Vertex") [((in_none, "index"), "71")] "         " [
    Node (in_sicd, "Row") [] "856" [];
    Node (in_sicd, "Col") [] "287" []];
   Node (in_sicd, "Vertex") [((in_none, "index"), "72")] "         " [
    Node (in_sicd, "Row") [] "836" [];
    Node (in_sicd, "Col") [] "288" []];
   Node (in_sicd, "Vertex") [((in_none, "index"), "73")] "         " [
    Node (in_sicd, "Row") [] "816" [];
    Node (in_sicd, "Col") [] "290" []];
   Node (in_sicd, "Vertex") [((in_none, "index"), "74")] "         " [
    Node (in_sicd, "Row") [] "795" [];
    Node (in_sicd, "Col") [] "292" []];
   Node (in_sicd, "Vertex") [((in_none, "index"), "75")] "         " [
    Node (in_sicd, "Row") [] "775" [];
    Node (in_sicd, "Col") [] "294" []];
   Node (in_sicd, "Vertex") [((in_none, "index"), "76")] "         " [
    Node (in_sicd, "Row") [] "755" [];
    Node (in_sicd, "Col") [] "296" []];
   Node (in_sicd, "Vertex") [((in_none, "index"), "77")] "         " [
    Node (in_sicd, "Row") [] "735" [];
    Node (in_sicd, "Col") [] "298" []];
   Node (in_sicd, "Vertex") [((in_none, "index"), "78")] "         " [
    Node (in_sicd, "Row") [] "715" [];
    Node (in_sicd, "Col") [] "300" []];
   Node (in_sicd, "Vertex") [((in_none, "index"), "79")] "         " [
    Node (in_sicd, "Row") [] "695" [];
    Node (in_sicd, "Col") [] "302" []];
   Node (in_sicd, "Vertex") [((in_none, "index"), "80")] "         " [
    Node (in_sicd, "Row") [] "674" [];
    Node (in_sicd, "Col") [] "304" []];
   Node (in_sicd, "Vertex") [((in_none, "index"), "81")] "         " [
    Node (in_sicd, "Row") [] "654" [];
    Node (in_sicd, "Col") [] "306" []];
   Node (in_sicd, "Vertex") [((in_none, "index"), "82")] "         " [
    Node (in_sicd, "Row") [] "634" [];
    Node (in_sicd, "Col") [] "307" []];
   Node (in_sicd, "Vertex") [((in_none, "index"), "83")] "         " [
    Node (in_sicd, "Row") [] "614" [];
    Node (in_sicd, "Col") [] "309" []];
   Node (in_sicd, "Vertex") [((in_none, "index"), "84")] "         " [
    Node (in_sicd, "Row") [] "594" [];
    Node (in_sicd, "Col") [] "311" []];
   Node (in_sicd, "Vertex") [((in_none, "index"), "85")] "         " [
    Node (in_sicd, "Row") [] "574" [];
    Node (in_sicd, "Col") [] "313" []];
   Node (in_sicd, "Vertex") [((in_none, "index"), "86")] "         " [
    Node (in_sicd, "Row") [] "553" [];
    Node (in_sicd, "Col") [] "315" []];
   Node (in_sicd, "Vertex") [((in_none, "index"), "87")] "         " [
    Node (in_sicd, "Row") [] "533" [];
    Node (in_sicd, "Col") [] "317" []];
   Node (in_sicd, "Vertex") [((in_none, "index"), "88")] "         " [
    Node (in_sicd, "Row") [] "513" [];
    Node (in_sicd, "Col") [] "319" []];
   Node (in_sicd, "Vertex") [((in_none, "index"), "89")] "         " [
    Node (in_sicd, "Row") [] "493" [];
    Node (in_sicd, "Col") [] "321" []];
   Node (in_sicd, "Vertex") [((in_none, "index"), "90")] "         " [
    Node (in_sicd, "Row") [] "473" [];
    Node (in_sicd, "Col") [] "323" []];
   Node (in_sicd, "Vertex") [((in_none, "index"), "91")] "         " [
    Node (in_sicd, "Row") [] "453" [];
    Node (in_sicd, "Col") [] "325" []];
   Node (in_sicd, "Vertex") [((in_none, "index"), "92")] "         " [
    Node (in_sicd, "Row") [] "432" [];
    Node (in_sicd, "Col") [] "326" []];
   Node (in_sicd, "Vertex") [((in_none, "index"), "93")] "         " [
    Node (in_sicd, "Row") [] "412" [];
    Node (in_sicd, "Col") [] "328" []];
   Node (in_sicd, "Vertex") [((in_none, "index"), "94")] "         " [
    Node (in_sicd, "Row") [] "392" [];
    Node (in_sicd, "Col") [] "330" []];
   Node (in_sicd, "Vertex") [((in_none, "index"), "95")] "         " [
    Node (in_sicd, "Row") [] "372" [];
    Node (in_sicd, "Col") [] "332" []];
   Node (in_sicd, "Vertex") [((in_none, "index"), "96")] "         " [
    Node (in_sicd, "Row") [] "352" [];
    Node (in_sicd, "Col") [] "334" []];
   Node (in_sicd, "Vertex") [((in_none, "index"), "97")] "         " [
    Node (in_sicd, "Row") [] "332" [];
    Node (in_sicd, "Col") [] "336" []];
   Node (in_sicd, "Vertex") [((in_none, "index"), "98")] "         " [
    Node (in_sicd, "Row") [] "311" [];
    Node (in_sicd, "Col") [] "338" []];
   Node (in_sicd, "Vertex") [((in_none, "index"), "99")] "         " [
    Node (in_sicd, "Row") [] "291" [];
    Node (in_sicd, "Col") [] "340" []];
   Node (in_sicd, "Vertex") [((in_none, "index"), "100")] "         " [
    Node (in_sicd, "Row") [] "271" [];
    Node (in_sicd, "Col") [] "342" []]]];
 Node (in_sicd, "GeoData") [] "     " [
  Node (in_sicd, "EarthModel") [] "WGS_84" [];
  Node (in_sicd, "SCP") [] "       " [
   Node (in_sicd, "ECF") [] "         " [
    Node (in_sicd, "X") [] "6378137.0" [];
    Node (in_sicd, "Y") [] "0.0" [];
    Node (in_sicd, "Z") [] "0.0" []];
   Node (in_sicd, "LLH") [] "         " [
    Node (in_sicd, "Lat") [] "0.0" [];
    Node (in_sicd, "Lon") [] "0.0" [];
    Node (in_sicd, "HAE") [] "0.0" []]];
  Node (in_sicd, "ImageCorners") [] "       " [
   Node (in_sicd, "ICP") [((in_none, "index"), "1:FRFC")] "         " [
    Node (in_sicd, "Lat") [] "0.00799513783337124" [];
    Node (in_sicd, "Lon") [] "-0.006008128184945283" []];
   Node (in_sicd, "ICP") [((in_none, "index"), "2:FRLC")] "         " [
    Node (in_sicd, "Lat") [] "0.005631615545468088" [];
    Node (in_sicd, "Lon") [] "0.007307024777172993" []];
   Node (in_sicd, "ICP") [((in_none, "index"), "3:LRLC")] "         " [
    Node (in_sicd, "Lat") [] "-0.00799513783337124" [];
    Node (in_sicd, "Lon") [] "0.006008128184945283" []];
   Node (in_sicd, "ICP") [((in_none, "index"), "4:LRFC")] "         " [
    Node (in_sicd, "Lat") [] "-0.005631615545468088" [];
    Node (in_sicd, "Lon") [] "-0.007307024777172993" []]];
  Node (in_sicd, "ValidData") [((in_none, "size"), "100")] "       " [
   Node (in_sicd, "Vertex") [((in_none, "index"), "1")] "         " [
    Node (in_sicd, "Lat") [] "0.00523836630846847" [];
    Node (in_sicd, "Lon") [] "-0.00364338148084923" []];
   Node (in_sicd, "Vertex") [((in_none, "index"), "2")] "         " [
    Node (in_sicd, "Lat") [] "0.005206316846277236" [];
    Node (in_sicd, "Lon") [] "-0.0034628370576756814" []];
   Node (in_sicd, "Vertex") [((in_none, "index"), "3")] "         " [
    Node (in_sicd, "Lat") [] "0.005174267384009941" [];
    Node (in_sicd, "Lon") [] "-0.0032822926344316466" []];
   Node (in_sicd, "Vertex") [((in_none, "index"), "4")] "         " [
    Node (in_sicd, "Lat") [] "0.005142217921672595" [];
    Node (in_sicd, "Lon") [] "-0.0031017482111219876" []];
   Node (in_sicd, "Vertex") [((in_none, "index"), "5")] "         " [
    Node (in_sicd, "Lat") [] "0.005110168459274313" [];
    Node (in_sicd, "Lon") [] "-0.002921203787750631" []];
   Node (in_sicd, "Vertex") [((in_none, "index"), "6")] "         " [
    Node (in_sicd, "Lat") [] "0.005078118996809532" [];
    Node (in_sicd, "Lon") [] "-0.002740659364320905" []];
   Node (in_sicd, "Vertex") [((in_none, "index"), "7")] "         " [
    Node (in_sicd, "Lat") [] "0.005046069534275856" [];
    Node (in_sicd, "Lon") [] "-0.0025601149408357384" []];
   Node (in_sicd, "Vertex") [((in_none, "index"), "8")] "         " [
    Node (in_sicd, "Lat") [] "0.005014020071677403" [];
    Node (in_sicd, "Lon") [] "-0.0023795705173000345" []];
   Node (in_sicd, "Vertex") [((in_none, "index"), "9")] "         " [
    Node (in_sicd, "Lat") [] "0.0049819706090178245" [];
    Node (in_sicd, "Lon") [] "-0.002199026093716339" []];
   Node (in_sicd, "Vertex") [((in_none, "index"), "10")] "         " [
    Node (in_sicd, "Lat") [] "0.004949921146299129" [];
    Node (in_sicd, "Lon") [] "-0.0020184816700884903" []];
   Node (in_sicd, "Vertex") [((in_none, "index"), "11")] "         " [
    Node (in_sicd, "Lat") [] "0.004917871683515614" [];
    Node (in_sicd, "Lon") [] "-0.00183793724642093" []];
   Node (in_sicd, "Vertex") [((in_none, "index"), "12")] "         " [
    Node (in_sicd, "Lat") [] "0.004885822220679328" [];
    Node (in_sicd, "Lon") [] "-0.0016573928227165578" []];
   Node (in_sicd, "Vertex") [((in_none, "index"), "13")] "         " [
    Node (in_sicd, "Lat") [] "0.004853772757772994" [];
    Node (in_sicd, "Lon") [] "-0.001476848398978006" []];
   Node (in_sicd, "Vertex") [((in_none, "index"), "14")] "         " [
    Node (in_sicd, "Lat") [] "0.004821723294815218" [];
    Node (in_sicd, "Lon") [] "-0.0012963039752099965" []];
   Node (in_sicd, "Vertex") [((in_none, "index"), "15")] "         " [
    Node (in_sicd, "Lat") [] "0.00478967383180142" [];
    Node (in_sicd, "Lon") [] "-0.0011157595514177244" []];
   Node (in_sicd, "Vertex") [((in_none, "index"), "16")] "         " [
    Node (in_sicd, "Lat") [] "0.004757624368719913" [];
    Node (in_sicd, "Lon") [] "-0.0009352151276003231" []];
   Node (in_sicd, "Vertex") [((in_none, "index"), "17")] "         " [
    Node (in_sicd, "Lat") [] "0.004725574905592831" [];
    Node (in_sicd, "Lon") [] "-0.0007546707037649141" []];
   Node (in_sicd, "Vertex") [((in_none, "index"), "18")] "         " [
    Node (in_sicd, "Lat") [] "0.0046935254424053975" [];
    Node (in_sicd, "Lon") [] "-0.0005741262799149227" []];
   Node (in_sicd, "Vertex") [((in_none, "index"), "19")] "         " [
    Node (in_sicd, "Lat") [] "0.004661475979172907" [];
    Node (in_sicd, "Lon") [] "-0.0003935818560524597" []];
   Node (in_sicd, "Vertex") [((in_none, "index"), "20")] "         " [
    Node (in_sicd, "Lat") [] "0.004629426515879852" [];
    Node (in_sicd, "Lon") [] "-0.00021303743218295168" []];
   Node (in_sicd, "Vertex") [((in_none, "index"), "21")] "         " [
    Node (in_sicd, "Lat") [] "0.004597377052536041" [];
    Node (in_sicd, "Lon") [] "-3.249300830870516e-05" []];
   Node (in_sicd, "Vertex") [((in_none, "index"), "22")] "         " [
    Node (in_sicd, "Lat") [] "0.004565327589146371" [];
    Node (in_sicd, "Lon") [] "0.00014805141556674793" []];
   Node (in_sicd, "Vertex") [((in_none, "index"), "23")] "         " [
    Node (in_sicd, "Lat") [] "0.004533278125709861" [];
    Node (in_sicd, "Lon") [] "0.00032859583943927877" []];
   Node (in_sicd, "Vertex") [((in_none, "index"), "24")] "         " [
    Node (in_sicd, "Lat") [] "0.004501228662217433" [];
    Node (in_sicd, "Lon") [] "0.0005091402633053358" []];
   Node (in_sicd, "Vertex") [((in_none, "index"), "25")] "         " [
    Node (in_sicd, "Lat") [] "0.004469179198680784" [];
    Node (in_sicd, "Lon") [] "0.0006896846871612296" []];
   Node (in_sicd, "Vertex") [((in_none, "index"), "26")] "         " [
    Node (in_sicd, "Lat") [] "0.004437129735094944" [];
    Node (in_sicd, "Lon") [] "0.0008702291110032007" []];
   Node (in_sicd, "Vertex") [((in_none, "index"), "27")] "         " [
    Node (in_sicd, "Lat") [] "0.004405080271465758" [];
    Node (in_sicd, "Lon") [] "0.00105077353482891" []];
   Node (in_sicd, "Vertex") [((in_none, "index"), "28")] "         " [
    Node (in_sicd, "Lat") [] "0.004373030807795506" [];
    Node (in_sicd, "Lon") [] "0.0012313179586336562" []];
   Node (in_sicd, "Vertex") [((in_none, "index"), "29")] "         " [
    Node (in_sicd, "Lat") [] "0.00434098134408188" [];
    Node (in_sicd, "Lon") [] "0.001411862382412968" []];
   Node (in_sicd, "Vertex") [((in_none, "index"), "30")] "         " [
    Node (in_sicd, "Lat") [] "0.004308931880317015" [];
    Node (in_sicd, "Lon") [] "0.001592406806165302" []];
   Node (in_sicd, "Vertex") [((in_none, "index"), "31")] "         " [
    Node (in_sicd, "Lat") [] "0.004276882416512852" [];
    Node (in_sicd, "Lon") [] "0.0017729512298854911" []];
   Node (in_sicd, "Vertex") [((in_none, "index"), "32")] "         " [
    Node (in_sicd, "Lat") [] "0.004244832952669874" [];
    Node (in_sicd, "Lon") [] "0.0019534956535704378" []];
   Node (in_sicd, "Vertex") [((in_none, "index"), "33")] "         " [
    Node (in_sicd, "Lat") [] "0.004212783488787099" [];
    Node (in_sicd, "Lon") [] "0.002134040077217569" []];
   Node (in_sicd, "Vertex") [((in_none, "index"), "34")] "         " [
    Node (in_sicd, "Lat") [] "0.004180734024872398" [];
    Node (in_sicd, "Lon") [] "0.0023145845008214583" []];
   Node (in_sicd, "Vertex") [((in_none, "index"), "35")] "         " [
    Node (in_sicd, "Lat") [] "0.0041486845609137275" [];
    Node (in_sicd, "Lon") [] "0.0024951289243789047" []];
   Node (in_sicd, "Vertex") [((in_none, "index"), "36")] "         " [
    Node (in_sicd, "Lat") [] "0.004116635096919947" [];
    Node (in_sicd, "Lon") [] "0.002675673347886881" []];
   Node (in_sicd, "Vertex") [((in_none, "index"), "37")] "         " [
    Node (in_sicd, "Lat") [] "0.004084585632881881" [];
    Node (in_sicd, "Lon") [] "0.0028562177713416415" []];
   Node (in_sicd, "Vertex") [((in_none, "index"), "38")] "         " [
    Node (in_sicd, "Lat") [] "0.004052536168819116" [];
    Node (in_sicd, "Lon") [] "0.003036762194739138" []];
   Node (in_sicd, "Vertex") [((in_none, "index"), "39")] "         " [
    Node (in_sicd, "Lat") [] "0.0040204867047156576" [];
    Node (in_sicd, "Lon") [] "0.0032173066180771126" []];
   Node (in_sicd, "Vertex") [((in_none, "index"), "40")] "         " [
    Node (in_sicd, "Lat") [] "0.003988437240590928" [];
    Node (in_sicd, "Lon") [] "0.0033978510413510614" []];
   Node (in_sicd, "Vertex") [((in_none, "index"), "41")] "         " [
    Node (in_sicd, "Lat") [] "0.003956387776418934" [];
    Node (in_sicd, "Lon") [] "0.0035783954645569166" []];
   Node (in_sicd, "Vertex") [((in_none, "index"), "42")] "         " [
    Node (in_sicd, "Lat") [] "0.003924338312221998" [];
    Node (in_sicd, "Lon") [] "0.0037589398876915793" []];
   Node (in_sicd, "Vertex") [((in_none, "index"), "43")] "         " [
    Node (in_sicd, "Lat") [] "0.0038922888479996152" [];
    Node (in_sicd, "Lon") [] "0.003939484310750592" []];
   Node (in_sicd, "Vertex") [((in_none, "index"), "44")] "         " [
    Node (in_sicd, "Lat") [] "0.003860239383746406" [];
    Node (in_sicd, "Lon") [] "0.0041200287337321805" []];
   Node (in_sicd, "Vertex") [((in_none, "index"), "45")] "         " [
    Node (in_sicd, "Lat") [] "0.003828189919460814" [];
    Node (in_sicd, "Lon") [] "0.004300573156630903" []];
   Node (in_sicd, "Vertex") [((in_none, "index"), "46")] "         " [
    Node (in_sicd, "Lat") [] "0.0037961404551599127" [];
    Node (in_sicd, "Lon") [] "0.004481117579442749" []];
   Node (in_sicd, "Vertex") [((in_none, "index"), "47")] "         " [
    Node (in_sicd, "Lat") [] "0.00376409099081454" [];
    Node (in_sicd, "Lon") [] "0.004661662002167499" []];
   Node (in_sicd, "Vertex") [((in_none, "index"), "48")] "         " [
    Node (in_sicd, "Lat") [] "0.0037320415264581962" [];
    Node (in_sicd, "Lon") [] "0.0048422064247973" []];
   Node (in_sicd, "Vertex") [((in_none, "index"), "49")] "         " [
    Node (in_sicd, "Lat") [] "0.003699992062071886" [];
    Node (in_sicd, "Lon") [] "0.005022750847332307" []];
   Node (in_sicd, "Vertex") [((in_none, "index"), "50")] "         " [
    Node (in_sicd, "Lat") [] "0.0036679425976707007" [];
    Node (in_sicd, "Lon") [] "0.005203295269766109" []];
   Node (in_sicd, "Vertex") [((in_none, "index"), "51")] "         " [
    Node (in_sicd, "Lat") [] "-0.005238366306873601" [];
    Node (in_sicd, "Lon") [] "0.003643381480220648" []];
   Node (in_sicd, "Vertex") [((in_none, "index"), "52")] "         " [
    Node (in_sicd, "Lat") [] "-0.0036679425961185777" [];
    Node (in_sicd, "Lon") [] "-0.005203295270113747" []];
   Node (in_sicd, "Vertex") [((in_none, "index"), "53")] "         " [
    Node (in_sicd, "Lat") [] "-0.003486181190709507" [];
    Node (in_sicd, "Lon") [] "-0.005171460294868825" []];
   Node (in_sicd, "Vertex") [((in_none, "index"), "54")] "         " [
    Node (in_sicd, "Lat") [] "-0.003304419785209955" [];
    Node (in_sicd, "Lon") [] "-0.005139625319622343" []];
   Node (in_sicd, "Vertex") [((in_none, "index"), "55")] "         " [
    Node (in_sicd, "Lat") [] "-0.0031226583796152003" [];
    Node (in_sicd, "Lon") [] "-0.005107790344374426" []];
   Node (in_sicd, "Vertex") [((in_none, "index"), "56")] "         " [
    Node (in_sicd, "Lat") [] "-0.002940896973933543" [];
    Node (in_sicd, "Lon") [] "-0.005075955369123011" []];
   Node (in_sicd, "Vertex") [((in_none, "index"), "57")] "         " [
    Node (in_sicd, "Lat") [] "-0.002759135568177835" [];
    Node (in_sicd, "Lon") [] "-0.005044120393870122" []];
   Node (in_sicd, "Vertex") [((in_none, "index"), "58")] "         " [
    Node (in_sicd, "Lat") [] "-0.0025773741623351127" [];
    Node (in_sicd, "Lon") [] "-0.005012285418614279" []];
   Node (in_sicd, "Vertex") [((in_none, "index"), "59")] "         " [
    Node (in_sicd, "Lat") [] "-0.002395612756418211" [];
    Node (in_sicd, "Lon") [] "-0.004980450443357304" []];
   Node (in_sicd, "Vertex") [((in_none, "index"), "60")] "         " [
    Node (in_sicd, "Lat") [] "-0.0022138513504335305" [];
    Node (in_sicd, "Lon") [] "-0.004948615468098705" []];
   Node (in_sicd, "Vertex") [((in_none, "index"), "61")] "         " [
    Node (in_sicd, "Lat") [] "-0.0020320899443811236" [];
    Node (in_sicd, "Lon") [] "-0.004916780492837019" []];
   Node (in_sicd, "Vertex") [((in_none, "index"), "62")] "         " [
    Node (in_sicd, "Lat") [] "-0.0018503285382714203" [];
    Node (in_sicd, "Lon") [] "-0.004884945517573347" []];
   Node (in_sicd, "Vertex") [((in_none, "index"), "63")] "         " [
    Node (in_sicd, "Lat") [] "-0.0016685671320883786" [];
    Node (in_sicd, "Lon") [] "-0.004853110542308724" []];
   Node (in_sicd, "Vertex") [((in_none, "index"), "64")] "         " [
    Node (in_sicd, "Lat") [] "-0.0014868057258590529" [];
    Node (in_sicd, "Lon") [] "-0.004821275567040518" []];
   Node (in_sicd, "Vertex") [((in_none, "index"), "65")] "         " [
    Node (in_sicd, "Lat") [] "-0.0013050443195772694" [];
    Node (in_sicd, "Lon") [] "-0.004789440591770919" []];
   Node (in_sicd, "Vertex") [((in_none, "index"), "66")] "         " [
    Node (in_sicd, "Lat") [] "-0.0011232829132420041" [];
    Node (in_sicd, "Lon") [] "-0.004757605616500143" []];
   Node (in_sicd, "Vertex") [((in_none, "index"), "67")] "         " [
    Node (in_sicd, "Lat") [] "-0.0009415215068684879" [];
    Node (in_sicd, "Lon") [] "-0.004725770641225615" []];
   Node (in_sicd, "Vertex") [((in_none, "index"), "68")] "         " [
    Node (in_sicd, "Lat") [] "-0.000759760100461352" [];
    Node (in_sicd, "Lon") [] "-0.004693935665949827" []];
   Node (in_sicd, "Vertex") [((in_none, "index"), "69")] "         " [
    Node (in_sicd, "Lat") [] "-0.0005779986940034719" [];
    Node (in_sicd, "Lon") [] "-0.004662100690672747" []];
   Node (in_sicd, "Vertex") [((in_none, "index"), "70")] "         " [
    Node (in_sicd, "Lat") [] "-0.00039623728752586734" [];
    Node (in_sicd, "Lon") [] "-0.004630265715393136" []];
   Node (in_sicd, "Vertex") [((in_none, "index"), "71")] "         " [
    Node (in_sicd, "Lat") [] "-0.00021447588101285652" [];
    Node (in_sicd, "Lon") [] "-0.0045984307401120954" []];
   Node (in_sicd, "Vertex") [((in_none, "index"), "72")] "         " [
    Node (in_sicd, "Lat") [] "-3.271447447357881e-05" [];
    Node (in_sicd, "Lon") [] "-0.004566595764828223" []];
   Node (in_sicd, "Vertex") [((in_none, "index"), "73")] "         " [
    Node (in_sicd, "Lat") [] "0.0001490469320847932" [];
    Node (in_sicd, "Lon") [] "-0.004534760789544004" []];
   Node (in_sicd, "Vertex") [((in_none, "index"), "74")] "         " [
    Node (in_sicd, "Lat") [] "0.00033080833866069544" [];
    Node (in_sicd, "Lon") [] "-0.004502925814256218" []];
   Node (in_sicd, "Vertex") [((in_none, "index"), "75")] "         " [
    Node (in_sicd, "Lat") [] "0.0005125697452407668" [];
    Node (in_sicd, "Lon") [] "-0.004471090838967827" []];
   Node (in_sicd, "Vertex") [((in_none, "index"), "76")] "         " [
    Node (in_sicd, "Lat") [] "0.0006943311518425009" [];
    Node (in_sicd, "Lon") [] "-0.004439255863676882" []];
   Node (in_sicd, "Vertex") [((in_none, "index"), "77")] "         " [
    Node (in_sicd, "Lat") [] "0.0008760925584408571" [];
    Node (in_sicd, "Lon") [] "-0.004407420888384009" []];
   Node (in_sicd, "Vertex") [((in_none, "index"), "78")] "         " [
    Node (in_sicd, "Lat") [] "0.001057853965047325" [];
    Node (in_sicd, "Lon") [] "-0.004375585913090328" []];
   Node (in_sicd, "Vertex") [((in_none, "index"), "79")] "         " [
    Node (in_sicd, "Lat") [] "0.0012396153716457189" [];
    Node (in_sicd, "Lon") [] "-0.004343750937793399" []];
   Node (in_sicd, "Vertex") [((in_none, "index"), "80")] "         " [
    Node (in_sicd, "Lat") [] "0.0014213767782441417" [];
    Node (in_sicd, "Lon") [] "-0.00431191596249584" []];
   Node (in_sicd, "Vertex") [((in_none, "index"), "81")] "         " [
    Node (in_sicd, "Lat") [] "0.0016031381848308614" [];
    Node (in_sicd, "Lon") [] "-0.00428008098719557" []];
   Node (in_sicd, "Vertex") [((in_none, "index"), "82")] "         " [
    Node (in_sicd, "Lat") [] "0.0017848995914006443" [];
    Node (in_sicd, "Lon") [] "-0.004248246011893965" []];
   Node (in_sicd, "Vertex") [((in_none, "index"), "83")] "         " [
    Node (in_sicd, "Lat") [] "0.001966660997951133" [];
    Node (in_sicd, "Lon") [] "-0.004216411036590668" []];
   Node (in_sicd, "Vertex") [((in_none, "index"), "84")] "         " [
    Node (in_sicd, "Lat") [] "0.00214842240448203" [];
    Node (in_sicd, "Lon") [] "-0.004184576061286293" []];
   Node (in_sicd, "Vertex") [((in_none, "index"), "85")] "         " [
    Node (in_sicd, "Lat") [] "0.0023301838109927755" [];
    Node (in_sicd, "Lon") [] "-0.0041527410859788895" []];
   Node (in_sicd, "Vertex") [((in_none, "index"), "86")] "         " [
    Node (in_sicd, "Lat") [] "0.0025119452174677966" [];
    Node (in_sicd, "Lon") [] "-0.004120906110671654" []];
   Node (in_sicd, "Vertex") [((in_none, "index"), "87")] "         " [
    Node (in_sicd, "Lat") [] "0.0026937066239156805" [];
    Node (in_sicd, "Lon") [] "-0.004089071135360193" []];
   Node (in_sicd, "Vertex") [((in_none, "index"), "88")] "         " [
    Node (in_sicd, "Lat") [] "0.0028754680303170878" [];
    Node (in_sicd, "Lon") [] "-0.004057236160048518" []];
   Node (in_sicd, "Vertex") [((in_none, "index"), "89")] "         " [
    Node (in_sicd, "Lat") [] "0.003057229436682084" [];
    Node (in_sicd, "Lon") [] "-0.0040254011847345545" []];
   Node (in_sicd, "Vertex") [((in_none, "index"), "90")] "         " [
    Node (in_sicd, "Lat") [] "0.0032389908430040214" [];
    Node (in_sicd, "Lon") [] "-0.003993566209419595" []];
   Node (in_sicd, "Vertex") [((in_none, "index"), "91")] "         " [
    Node (in_sicd, "Lat") [] "0.0034207522492769866" [];
    Node (in_sicd, "Lon") [] "-0.003961731234102589" []];
   Node (in_sicd, "Vertex") [((in_none, "index"), "92")] "         " [
    Node (in_sicd, "Lat") [] "0.0036025136554935326" [];
    Node (in_sicd, "Lon") [] "-0.00392989625878451" []];
   Node (in_sicd, "Vertex") [((in_none, "index"), "93")] "         " [
    Node (in_sicd, "Lat") [] "0.003784275061656479" [];
    Node (in_sicd, "Lon") [] "-0.003898061283464284" []];
   Node (in_sicd, "Vertex") [((in_none, "index"), "94")] "         " [
    Node (in_sicd, "Lat") [] "0.003966036467765342" [];
    Node (in_sicd, "Lon") [] "-0.0038662263081436234" []];
   Node (in_sicd, "Vertex") [((in_none, "index"), "95")] "         " [
    Node (in_sicd, "Lat") [] "0.004147797873798566" [];
    Node (in_sicd, "Lon") [] "-0.003834391332819248" []];
   Node (in_sicd, "Vertex") [((in_none, "index"), "96")] "         " [
    Node (in_sicd, "Lat") [] "0.004329559279767888" [];
    Node (in_sicd, "Lon") [] "-0.0038025563574956515" []];
   Node (in_sicd, "Vertex") [((in_none, "index"), "97")] "         " [
    Node (in_sicd, "Lat") [] "0.0045113206856681595" [];
    Node (in_sicd, "Lon") [] "-0.0037707213821690814" []];
   Node (in_sicd, "Vertex") [((in_none, "index"), "98")] "         " [
    Node (in_sicd, "Lat") [] "0.004693082091491189" [];
    Node (in_sicd, "Lon") [] "-0.003738886406840987" []];
   Node (in_sicd, "Vertex") [((in_none, "index"), "99")] "         " [
    Node (in_sicd, "Lat") [] "0.004874843497234658" [];
    Node (in_sicd, "Lon") [] "-0.003707051431511723" []];
   Node (in_sicd, "Vertex") [((in_none, "index"), "100")] "         " [
    Node (in_sicd, "Lat") [] "0.005056604902895187" [];
    Node (in_sicd, "Lon") [] "-0.0036752164561818976" []]];
  Node (in_sicd, "GeoInfo") [((in_none, "name"), "synthetic_targets")] "       " [
   Node (in_sicd, "GeoInfo") [((in_none, "name"), "target0")] "         " [
    Node (in_sicd, "Desc") [((in_none, "name"), "ecef")] "[6378137.0, -405.5797876726389, 579.2279653395692]" []];
   Node (in_sicd, "GeoInfo") [((in_none, "name"), "target1")] "         " [
    Node (in_sicd, "Desc") [((in_none, "name"), "ecef")] "[6378137.0, 86.82408883346518, 492.403876506104]" []];
   Node (in_sicd, "GeoInfo") [((in_none, "name"), "target2")] "         " [
    Node (in_sicd, "Desc") [((in_none, "name"), "ecef")] "[6378137.0, 579.2279653395692, 405.5797876726388]" []];
   Node (in_sicd, "GeoInfo") [((in_none, "name"), "target3")] "         " [
    Node (in_sicd, "Desc") [((in_none, "name"), "ecef")] "[6378137.0, -492.40387650610404, 86.8240888334652]" []];
   Node (in_sicd, "GeoInfo") [((in_none, "name"), "target4")] "         " [
    Node (in_sicd, "Desc") [((in_none, "name"), "ecef")] "[6378137.0, 0.0, 0.0]" []];
   Node (in_sicd, "GeoInfo") [((in_none, "name"), "target5")] "         " [
    Node (in_sicd, "Desc") [((in_none, "name"), "ecef")] "[6378137.0, 492.40387650610404, -86.8240888334652]" []];
   Node (in_sicd, "GeoInfo") [((in_none, "name"), "target6")] "         " [
    Node (in_sicd, "Desc") [((in_none, "name"), "ecef")] "[6378137.0, -579.2279653395692, -405.5797876726388]" []];
   Node (in_sicd, "GeoInfo") [((in_none, "name"), "target7")] "         " [
    Node (in_sicd, "Desc") [((in_none, "name"), "ecef")] "[6378137.0, -86.82408883346518, -492.403876506104]" []];
   Node (in_sicd, "GeoInfo") [((in_none, "name"), "target8")] "         " [
    Node (in_sicd, "Desc") [((in_none, "name"), "ecef")] "[6378137.0, 405.5797876726389, -579.2279653395692]" []]]];
 Node (in_sicd, "Grid") [] "     " [
  Node (in_sicd, "ImagePlane") [] "OTHER" [];
  Node (in_sicd, "Type") [] "XRGYCR" [];
  Node (in_sicd, "TimeCOAPoly") [((in_none, "order1"), "0"); ((in_none, "order2"), "0")] "       " [
   Node (in_sicd, "Coef") [((in_none, "exponent1"), "0"); ((in_none, "exponent2"), "0")] "1.6800674834531517" []];
  Node (in_sicd, "Row") [] "       " [
   Node (in_sicd, "UVectECF") [] "         " [
    Node (in_sicd, "X") [] "-0.4999996777623892" [];
    Node (in_sicd, "Y") [] "-0.15037599477345914" [];
    Node (in_sicd, "Z") [] "-0.8528700852344376" []];
   Node (in_sicd, "SS") [] "0.8764718936120963" [];
   Node (in_sicd, "ImpRespWid") [] "0.9952159410112512" [];
   Node (in_sicd, "Sgn") [] "-1" [];
   Node (in_sicd, "ImpRespBW") [] "0.8899999999999864" [];
   Node (in_sicd, "KCtr") [] "66.71307055737934" [];
   Node (in_sicd, "DeltaK1") [] "-0.4452524991440896" [];
   Node (in_sicd, "DeltaK2") [] "0.44474750085589676" [];
   Node (in_sicd, "DeltaKCOAPoly") [((in_none, "order1"), "0"); ((in_none, "order2"), "0")] "         " [
    Node (in_sicd, "Coef") [((in_none, "exponent1"), "0"); ((in_none, "exponent2"), "0")] "-0.0002524991440964186" []]];
  Node (in_sicd, "Col") [] "       " [
   Node (in_sicd, "UVectECF") [] "         " [
    Node (in_sicd, "X") [] "-0.1351875076070428" [];
    Node (in_sicd, "Y") [] "0.9862892688060626" [];
    Node (in_sicd, "Z") [] "-0.0946457389429345" []];
   Node (in_sicd, "SS") [] "0.8384934792671196" [];
   Node (in_sicd, "ImpRespWid") [] "0.9883832746537019" [];
   Node (in_sicd, "Sgn") [] "-1" [];
   Node (in_sicd, "ImpRespBW") [] "0.8961525454893355" [];
   Node (in_sicd, "KCtr") [] "0.0" [];
   Node (in_sicd, "DeltaK1") [] "-0.46897366297262205" [];
   Node (in_sicd, "DeltaK2") [] "0.46897404568650136" [];
   Node (in_sicd, "DeltaKCOAPoly") [((in_none, "order1"), "0"); ((in_none, "order2"), "1")] "         " [
    Node (in_sicd, "Coef") [((in_none, "exponent1"), "0"); ((in_none, "exponent2"), "0")] "1.333944744637619e-07" [];
    Node (in_sicd, "Coef") [((in_none, "exponent1"), "0"); ((in_none, "exponent2"), "1")] "3.9214832817582035e-05" []]]];
 Node (in_sicd, "Timeline") [] "     " [
  Node (in_sicd, "CollectStart") [] "2022-12-05T18:41:24.051402Z" [];
  Node (in_sicd, "CollectDuration") [] "3.4668291025146964" [];
  Node (in_sicd, "IPP") [((in_none, "size"), "1")] "       " [
   Node (in_sicd, "Set") [((in_none, "index"), "1")] "         " [
    Node (in_sicd, "TStart") [] "0.0056816659534297907" [];
    Node (in_sicd, "TEnd") [] "3.4628234234795321" [];
    Node (in_sicd, "IPPStart") [] "0" [];
    Node (in_sicd, "IPPEnd") [] "2080" [];
    Node (in_sicd, "IPPPoly") [((in_none, "order1"), "5")] "           " [
     Node (in_sicd, "Coef") [((in_none, "exponent1"), "0")] "-3.4200358124461596" [];
     Node (in_sicd, "Coef") [((in_none, "exponent1"), "1")] "601.94243049797956" [];
     Node (in_sicd, "Coef") [((in_none, "exponent1"), "2")] "-2.5957560931224679e-05" [];
     Node (in_sicd, "Coef") [((in_none, "exponent1"), "3")] "-2.0559365748016132e-08" [];
     Node (in_sicd, "Coef") [((in_none, "exponent1"), "4")] "8.5465035653447778e-11" [];
     Node (in_sicd, "Coef") [((in_none, "exponent1"), "5")] "1.5613913034987107e-13" []]]]];
 Node (in_sicd, "Position") [] "     " [
  Node (in_sicd, "ARPPoly") [] "       " [
   Node (in_sicd, "X") [((in_none, "order1"), "5")] "         " [
    Node (in_sicd, "Coef") [((in_none, "exponent1"), "0")] "7228127.912172245" [];
    Node (in_sicd, "Coef") [((in_none, "exponent1"), "1")] "352.5324304976341" [];
    Node (in_sicd, "Coef") [((in_none, "exponent1"), "2")] "-3.589171823565171" [];
    Node (in_sicd, "Coef") [((in_none, "exponent1"), "3")] "-5.775512441827908e-05" [];
    Node (in_sicd, "Coef") [((in_none, "exponent1"), "4")] "2.9439757250673563e-07" [];
    Node (in_sicd, "Coef") [((in_none, "exponent1"), "5")] "3.347450914408521e-10" []];
   Node (in_sicd, "Y") [((in_none, "order1"), "5")] "         " [
    Node (in_sicd, "Coef") [((in_none, "exponent1"), "0")] "268129.91754565184" [];
    Node (in_sicd, "Coef") [((in_none, "exponent1"), "1")] "-7332.382389316185" [];
    Node (in_sicd, "Coef") [((in_none, "exponent1"), "2")] "-0.1331321942213263" [];
    Node (in_sicd, "Coef") [((in_none, "exponent1"), "3")] "0.0012135943340884567" [];
    Node (in_sicd, "Coef") [((in_none, "exponent1"), "4")] "1.0781763144046816e-08" [];
    Node (in_sicd, "Coef") [((in_none, "exponent1"), "5")] "-4.9989135258628886e-11" []];
   Node (in_sicd, "Z") [((in_none, "order1"), "5")] "         " [
    Node (in_sicd, "Coef") [((in_none, "exponent1"), "0")] "1451527.4819836628" [];
    Node (in_sicd, "Coef") [((in_none, "exponent1"), "1")] "-401.0899032323167" [];
    Node (in_sicd, "Coef") [((in_none, "exponent1"), "2")] "-0.7207643788301279" [];
    Node (in_sicd, "Coef") [((in_none, "exponent1"), "3")] "6.649751510936382e-05" [];
    Node (in_sicd, "Coef") [((in_none, "exponent1"), "4")] "6.061667359346962e-08" [];
    Node (in_sicd, "Coef") [((in_none, "exponent1"), "5")] "-1.0048502370615844e-10" []]];
  Node (in_sicd, "GRPPoly") [] "       " [
   Node (in_sicd, "X") [((in_none, "order1"), "4")] "         " [
    Node (in_sicd, "Coef") [((in_none, "exponent1"), "0")] "6378136.999999997" [];
    Node (in_sicd, "Coef") [((in_none, "exponent1"), "1")] "-2.760399186267348e-10" [];
    Node (in_sicd, "Coef") [((in_none, "exponent1"), "2")] "-8.804669153881702e-10" [];
    Node (in_sicd, "Coef") [((in_none, "exponent1"), "3")] "3.655284267853489e-10" [];
    Node (in_sicd, "Coef") [((in_none, "exponent1"), "4")] "-4.550160949250352e-13" []];
   Node (in_sicd, "Y") [((in_none, "order1"), "4")] "         " [
    Node (in_sicd, "Coef") [((in_none, "exponent1"), "0")] "0.0" [];
    Node (in_sicd, "Coef") [((in_none, "exponent1"), "1")] "0.0" [];
    Node (in_sicd, "Coef") [((in_none, "exponent1"), "2")] "0.0" [];
    Node (in_sicd, "Coef") [((in_none, "exponent1"), "3")] "0.0" [];
    Node (in_sicd, "Coef") [((in_none, "exponent1"), "4")] "0.0" []];
   Node (in_sicd, "Z") [((in_none, "order1"), "4")] "         " [
    Node (in_sicd, "Coef") [((in_none, "exponent1"), "0")] "0.0" [];
    Node (in_sicd, "Coef") [((in_none, "exponent1"), "1")] "0.0" [];
    Node (in_sicd, "Coef") [((in_none, "exponent1"), "2")] "0.0" [];
    Node (in_sicd, "Coef") [((in_none, "exponent1"), "3")] "0.0" [];
    Node (in_sicd, "Coef") [((in_none, "exponent1"), "4")] "0.0" []]];
  Node (in_sicd, "TxAPCPoly") [] "       " [
   Node (in_sicd, "X") [((in_none, "order1"), "5")] "         " [
    Node (in_sicd, "Coef") [((in_none, "exponent1"), "0")] "7228127.912288115" [];
    Node (in_sicd, "Coef") [((in_none, "exponent1"), "1")] "352.53243031729494" [];
    Node (in_sicd, "Coef") [((in_none, "exponent1"), "2")] "-3.589171814526139" [];
    Node (in_sicd, "Coef") [((in_none, "exponent1"), "3")] "-5.7760778794926364e-05" [];
    Node (in_sicd, "Coef") [((in_none, "exponent1"), "4")] "2.961407356089768e-07" [];
    Node (in_sicd, "Coef") [((in_none, "exponent1"), "5")] "1.5152746784999351e-10" []];
   Node (in_sicd, "Y") [((in_none, "order1"), "5")] "         " [
    Node (in_sicd, "Coef") [((in_none, "exponent1"), "0")] "268129.91754994984" [];
    Node (in_sicd, "Coef") [((in_none, "exponent1"), "1")] "-7332.38238944089" [];
    Node (in_sicd, "Coef") [((in_none, "exponent1"), "2")] "-0.13313219336015877" [];
    Node (in_sicd, "Coef") [((in_none, "exponent1"), "3")] "0.0012135939299440443" [];
    Node (in_sicd, "Coef") [((in_none, "exponent1"), "4")] "1.0894413139775905e-08" [];
    Node (in_sicd, "Coef") [((in_none, "exponent1"), "5")] "-6.157481241632917e-11" []];
   Node (in_sicd, "Z") [((in_none, "order1"), "5")] "         " [
    Node (in_sicd, "Coef") [((in_none, "exponent1"), "0")] "1451527.4820069293" [];
    Node (in_sicd, "Coef") [((in_none, "exponent1"), "1")] "-401.0899032701904" [];
    Node (in_sicd, "Coef") [((in_none, "exponent1"), "2")] "-0.720764386171459" [];
    Node (in_sicd, "Coef") [((in_none, "exponent1"), "3")] "6.650233610651744e-05" [];
    Node (in_sicd, "Coef") [((in_none, "exponent1"), "4")] "5.9235211780521735e-08" [];
    Node (in_sicd, "Coef") [((in_none, "exponent1"), "5")] "4.85366798017553e-11" []]];
  Node (in_sicd, "RcvAPC") [((in_none, "size"), "1")] "       " [
   Node (in_sicd, "RcvAPCPoly") [((in_none, "index"), "1")] "         " [
    Node (in_sicd, "X") [((in_none, "order1"), "5")] "           " [
     Node (in_sicd, "Coef") [((in_none, "exponent1"), "0")] "7228127.912288124" [];
     Node (in_sicd, "Coef") [((in_none, "exponent1"), "1")] "352.5324303108488" [];
     Node (in_sicd, "Coef") [((in_none, "exponent1"), "2")] "-3.5891718013492584" [];
     Node (in_sicd, "Coef") [((in_none, "exponent1"), "3")] "-5.776923478547714e-05" [];
     Node (in_sicd, "Coef") [((in_none, "exponent1"), "4")] "2.985788077956373e-07" [];
     Node (in_sicd, "Coef") [((in_none, "exponent1"), "5")] "-1.4884336849092922e-10" []];
    Node (in_sicd, "Y") [((in_none, "order1"), "5")] "           " [
     Node (in_sicd, "Coef") [((in_none, "exponent1"), "0")] "268129.91754994984" [];
     Node (in_sicd, "Coef") [((in_none, "exponent1"), "1")] "-7332.382389439867" [];
     Node (in_sicd, "Coef") [((in_none, "exponent1"), "2")] "-0.13313219479068839" [];
     Node (in_sicd, "Coef") [((in_none, "exponent1"), "3")] "0.001213594848252931" [];
     Node (in_sicd, "Coef") [((in_none, "exponent1"), "4")] "1.0630300780216877e-08" [];
     Node (in_sicd, "Coef") [((in_none, "exponent1"), "5")] "-3.4535962553841784e-11" []];
    Node (in_sicd, "Z") [((in_none, "order1"), "5")] "           " [
     Node (in_sicd, "Coef") [((in_none, "exponent1"), "0")] "1451527.4820069303" [];
     Node (in_sicd, "Coef") [((in_none, "exponent1"), "1")] "-401.08990326673984" [];
     Node (in_sicd, "Coef") [((in_none, "exponent1"), "2")] "-0.7207643909344932" [];
     Node (in_sicd, "Coef") [((in_none, "exponent1"), "3")] "6.65054938494403e-05" [];
     Node (in_sicd, "Coef") [((in_none, "exponent1"), "4")] "5.8315612455559405e-08" [];
     Node (in_sicd, "Coef") [((in_none, "exponent1"), "5")] "1.383557340183528e-10" []]]]];
 Node (in_sicd, "RadarCollection") [] "     " [
  Node (in_sicd, "TxFrequency") [] "       " [
   Node (in_sicd, "Min") [] "9933296178.095001" [];
   Node (in_sicd, "Max") [] "10066703821.904999" []];
  Node (in_sicd, "Waveform") [((in_none, "size"), "1")] "       " [
   Node (in_sicd, "WFParameters") [((in_none, "index"), "1")] "" []];
  Node (in_sicd, "TxPolarization") [] "V" [];
  Node (in_sicd, "RcvChannels") [((in_none, "size"), "1")] "       " [
   Node (in_sicd, "ChanParameters") [((in_none, "index"), "1")] "         " [
    Node (in_sicd, "TxRcvPolarization") [] "V:V" [];
    Node (in_sicd, "RcvAPCIndex") [] "1" []]];
  Node (in_sicd, "Area") [] "       " [
   Node (in_sicd, "Corner") [] "         " [
    Node (in_sicd, "ACP") [((in_none, "index"), "1")] "           " [
     Node (in_sicd, "Lat") [] "0.00523836089566673" [];
     Node (in_sicd, "Lon") [] "-0.003643385217052057" [];
     Node (in_sicd, "HAE") [] "0.03937365394085646" []];
    Node (in_sicd, "ACP") [((in_none, "index"), "2")] "           " [
     Node (in_sicd, "Lat") [] "0.003667939784508838" [];
     Node (in_sicd, "Lon") [] "0.0052032933282355155" [];
     Node (in_sicd, "HAE") [] "0.039283305406570435" []];
    Node (in_sicd, "ACP") [((in_none, "index"), "3")] "           " [
     Node (in_sicd, "Lat") [] "-0.00523836089566673" [];
     Node (in_sicd, "Lon") [] "0.003643385217052057" [];
     Node (in_sicd, "HAE") [] "0.03937365394085646" []];
    Node (in_sicd, "ACP") [((in_none, "index"), "4")] "           " [
     Node (in_sicd, "Lat") [] "-0.003667939784508838" [];
     Node (in_sicd, "Lon") [] "-0.0052032933282355155" [];
     Node (in_sicd, "HAE") [] "0.039283305406570435" []]];
   Node (in_sicd, "Plane") [] "         " [
    Node (in_sicd, "RefPt") [] "           " [
     Node (in_sicd, "ECF") [] "             " [
      Node (in_sicd, "X") [] "6378137.0" [];
      Node (in_sicd, "Y") [] "0.0" [];
      Node (in_sicd, "Z") [] "0.0" []];
     Node (in_sicd, "Line") [] "650.0" [];
     Node (in_sicd, "Sample") [] "750.0" []];
    Node (in_sicd, "XDir") [] "           " [
     Node (in_sicd, "UVectECF") [] "             " [
      Node (in_sicd, "X") [] "0.0" [];
      Node (in_sicd, "Y") [] "-0.17364817766693033" [];
      Node (in_sicd, "Z") [] "-0.9848077530122081" []];
     Node (in_sicd, "LineSpacing") [] "0.7698004349651958" [];
     Node (in_sicd, "NumLines") [] "1301" [];
     Node (in_sicd, "FirstLine") [] "0" []];
    Node (in_sicd, "YDir") [] "           " [
     Node (in_sicd, "UVectECF") [] "             " [
      Node (in_sicd, "X") [] "0.0" [];
      Node (in_sicd, "Y") [] "0.9848077530122081" [];
      Node (in_sicd, "Z") [] "-0.17364817766693033" []];
     Node (in_sicd, "SampleSpacing") [] "0.6664110897495725" [];
     Node (in_sicd, "NumSamples") [] "1501" [];
     Node (in_sicd, "FirstSample") [] "0" []]]]];
 Node (in_sicd, "ImageFormation") [] "     " [
  Node (in_sicd, "RcvChanProc") [] "       " [
   Node (in_sicd, "NumChanProc") [] "1" [];
   Node (in_sicd, "ChanIndex") [] "1" []];
  Node (in_sicd, "TxRcvPolarizationProc") [] "V:V" [];
  Node (in_sicd, "TStartProc") [] "0.0" [];
  Node (in_sicd, "TEndProc") [] "3.4668291025146964" [];
  Node (in_sicd, "TxFrequencyProc") [] "       " [
   Node (in_sicd, "MinProc") [] "9933296178.095" [];
   Node (in_sicd, "MaxProc") [] "10066703821.904999" []];
  Node (in_sicd, "ImageFormAlgo") [] "RMA" [];
  Node (in_sicd, "STBeamComp") [] "NO" [];
  Node (in_sicd, "ImageBeamComp") [] "NO" [];
  Node (in_sicd, "AzAutofocus") [] "NO" [];
  Node (in_sicd, "RgAutofocus") [] "NO" []];
 Node (in_sicd, "SCPCOA") [] "     " [
  Node (in_sicd, "SCPTime") [] "1.6800674834531517" [];
  Node (in_sicd, "ARPPos") [] "       " [
   Node (in_sicd, "X") [] "7228710.059281655" [];
   Node (in_sicd, "Y") [] "255810.65028982106" [];
   Node (in_sicd, "Z") [] "1450851.5897463118" []];
  Node (in_sicd, "ARPVel") [] "       " [
   Node (in_sicd, "X") [] "340.47184528526833" [];
   Node (in_sicd, "Y") [] "-7332.819454683194" [];
   Node (in_sicd, "Z") [] "-403.5112045857062" []];
  Node (in_sicd, "ARPAcc") [] "       " [
   Node (in_sicd, "X") [] "-7.178915838727428" [];
   Node (in_sicd, "Y") [] "-0.25403050571627894" [];
   Node (in_sicd, "Z") [] "-1.4408563921345383" []];
  Node (in_sicd, "SideOfTrack") [] "L" [];
  Node (in_sicd, "SlantRange") [] "1701141.9557011856" [];
  Node (in_sicd, "GroundRange") [] "1282320.338942662" [];
  Node (in_sicd, "DopplerConeAng") [] "80.00033305866761" [];
  Node (in_sicd, "GrazeAng") [] "30.000080949403603" [];
  Node (in_sicd, "IncidenceAng") [] "59.9999190505964" [];
  Node (in_sicd, "TwistAng") [] "8.98059705769101" [];
  Node (in_sicd, "SlopeAng") [] "31.195125856427378" [];
  Node (in_sicd, "AzimAng") [] "9.999477966137635" [];
  Node (in_sicd, "LayoverAng") [] "352.4590940290721" []];
 Node (in_sicd, "Radiometric") [] "         " [
  Node (in_sicd, "NoiseLevel") [] "             " [
   Node (in_sicd, "NoiseLevelType") [] "ABSOLUTE" [];
   Node (in_sicd, "NoisePoly") [((in_none, "order1"), "0"); ((in_none, "order2"), "0")] "                 " [
    Node (in_sicd, "Coef") [((in_none, "exponent1"), "0"); ((in_none, "exponent2"), "0")] "1" []]];
  Node (in_sicd, "RCSSFPoly") [((in_none, "order1"), "5"); ((in_none, "order2"), "6")] "             " [
   Node (in_sicd, "Coef") [((in_none, "exponent1"), "0"); ((in_none, "exponent2"), "0")] "234.567891" [];
   Node (in_sicd, "Coef") [((in_none, "exponent1"), "0"); ((in_none, "exponent2"), "1")] "0.0123456789" [];
   Node (in_sicd, "Coef") [((in_none, "exponent1"), "0"); ((in_none, "exponent2"), "2")] "3.45678912e-05" [];
   Node (in_sicd, "Coef") [((in_none, "exponent1"), "0"); ((in_none, "exponent2"), "3")] "1.23456789e-09" [];
   Node (in_sicd, "Coef") [((in_none, "exponent1"), "0"); ((in_none, "exponent2"), "4")] "2.34567891e-12" [];
   Node (in_sicd, "Coef") [((in_none, "exponent1"), "0"); ((in_none, "exponent2"), "5")] "1.23456789e-16" [];
   Node (in_sicd, "Coef") [((in_none, "exponent1"), "0"); ((in_none, "exponent2"), "6")] "1.23456789e-19" [];
   Node (in_sicd, "Coef") [((in_none, "exponent1"), "1"); ((in_none, "exponent2"), "0")] "-0.023456789" [];
   Node (in_sicd, "Coef") [((in_none, "exponent1"), "1"); ((in_none, "exponent2"), "1")] "-5.67891234e-06" [];
   Node (in_sicd, "Coef") [((in_none, "exponent1"), "1"); ((in_none, "exponent2"), "2")] "-4.56789123e-09" [];
   Node (in_sicd, "Coef") [((in_none, "exponent1"), "1"); ((in_none, "exponent2"), "3")] "-8.91234567e-13" [];
   Node (in_sicd, "Coef") [((in_none, "exponent1"), "1"); ((in_none, "exponent2"), "4")] "-4.56789123e-16" [];
   Node (in_sicd, "Coef") [((in_none, "exponent1"), "1"); ((in_none, "exponent2"), "5")] "-9.12345678e-20" [];
   Node (in_sicd, "Coef") [((in_none, "exponent1"), "1"); ((in_none, "exponent2"), "6")] "-3.45678912e-23" [];
   Node (in_sicd, "Coef") [((in_none, "exponent1"), "2"); ((in_none, "exponent2"), "0")] "5.67891234e-05" [];
   Node (in_sicd, "Coef") [((in_none, "exponent1"), "2"); ((in_none, "exponent2"), "1")] "3.45678912e-09" [];
   Node (in_sicd, "Coef") [((in_none, "exponent1"), "2"); ((in_none, "exponent2"), "2")] "7.89123456e-12" [];
   Node (in_sicd, "Coef") [((in_none, "exponent1"), "2"); ((in_none, "exponent2"), "3")] "4.56789123e-16" [];
   Node (in_sicd, "Coef") [((in_none, "exponent1"), "2"); ((in_none, "exponent2"), "4")] "5.67891234e-19" [];
   Node (in_sicd, "Coef") [((in_none, "exponent1"), "2"); ((in_none, "exponent2"), "5")] "6.78912345e-23" [];
   Node (in_sicd, "Coef") [((in_none, "exponent1"), "2"); ((in_none, "exponent2"), "6")] "5.67891234e-26" [];
   Node (in_sicd, "Coef") [((in_none, "exponent1"), "3"); ((in_none, "exponent2"), "0")] "-6.78912345e-09" [];
   Node (in_sicd, "Coef") [((in_none, "exponent1"), "3"); ((in_none, "exponent2"), "1")] "-1.23456789e-12" [];
   Node (in_sicd, "Coef") [((in_none, "exponent1"), "3"); ((in_none, "exponent2"), "2")] "-1.23456789e-15" [];
   Node (in_sicd, "Coef") [((in_none, "exponent1"), "3"); ((in_none, "exponent2"), "3")] "-7.89123456e-20" [];
   Node (in_sicd, "Coef") [((in_none, "exponent1"), "3"); ((in_none, "exponent2"), "4")] "-6.78912345e-23" [];
   Node (in_sicd, "Coef") [((in_none, "exponent1"), "3"); ((in_none, "exponent2"), "5")] "-5.67891234e-26" [];
   Node (in_sicd, "Coef") [((in_none, "exponent1"), "3"); ((in_none, "exponent2"), "6")] "-1.23456789e-29" [];
   Node (in_sicd, "Coef") [((in_none, "exponent1"), "4"); ((in_none, "exponent2"), "0")] "7.89123456e-12" [];
   Node (in_sicd, "Coef") [((in_none, "exponent1"), "4"); ((in_none, "exponent2"), "1")] "5.67891234e-16" [];
   Node (in_sicd, "Coef") [((in_none, "exponent1"), "4"); ((in_none, "exponent2"), "2")] "1.23456789e-18" [];
   Node (in_sicd, "Coef") [((in_none, "exponent1"), "4"); ((in_none, "exponent2"), "3")] "1.23456789e-22" [];
   Node (in_sicd, "Coef") [((in_none, "exponent1"), "4"); ((in_none, "exponent2"), "4")] "1.23456789e-25" [];
   Node (in_sicd, "Coef") [((in_none, "exponent1"), "4"); ((in_none, "exponent2"), "5")] "1.23456789e-29" [];
   Node (in_sicd, "Coef") [((in_none, "exponent1"), "4"); ((in_none, "exponent2"), "6")] "6.78912345e-33" [];
   Node (in_sicd, "Coef") [((in_none, "exponent1"), "5"); ((in_none, "exponent2"), "0")] "-1.23456789e-15" [];
   Node (in_sicd, "Coef") [((in_none, "exponent1"), "5"); ((in_none, "exponent2"), "1")] "-1.23456789e-19" [];
   Node (in_sicd, "Coef") [((in_none, "exponent1"), "5"); ((in_none, "exponent2"), "2")] "-1.23456789e-22" [];
   Node (in_sicd, "Coef") [((in_none, "exponent1"), "5"); ((in_none, "exponent2"), "3")] "-8.91234567e-26" [];
   Node (in_sicd, "Coef") [((in_none, "exponent1"), "5"); ((in_none, "exponent2"), "4")] "-4.56789123e-29" [];
   Node (in_sicd, "Coef") [((in_none, "exponent1"), "5"); ((in_none, "exponent2"), "5")] "9.12345678e-33" [];
   Node (in_sicd, "Coef") [((in_none, "exponent1"), "5"); ((in_none, "exponent2"), "6")] "2.34567891e-36" []]];
 Node (in_sicd, "Antenna") [] "     " [
  Node (in_sicd, "Tx") [] "       " [
   Node (in_sicd, "XAxisPoly") [] "         " [
    Node (in_sicd, "X") [((in_none, "order1"), "5")] "           " [
     Node (in_sicd, "Coef") [((in_none, "exponent1"), "0")] "0.1398298626200596" [];
     Node (in_sicd, "Coef") [((in_none, "exponent1"), "1")] "-0.002759434120305412" [];
     Node (in_sicd, "Coef") [((in_none, "exponent1"), "2")] "-2.642141233211328e-06" [];
     Node (in_sicd, "Coef") [((in_none, "exponent1"), "3")] "1.4412928975132546e-08" [];
     Node (in_sicd, "Coef") [((in_none, "exponent1"), "4")] "4.910682797619282e-11" [];
     Node (in_sicd, "Coef") [((in_none, "exponent1"), "5")] "-1.1406011989724555e-13" []];
    Node (in_sicd, "Y") [((in_none, "order1"), "5")] "           " [
     Node (in_sicd, "Coef") [((in_none, "exponent1"), "0")] "-0.985103968766331" [];
     Node (in_sicd, "Coef") [((in_none, "exponent1"), "1")] "-0.000720229999813326" [];
     Node (in_sicd, "Coef") [((in_none, "exponent1"), "2")] "8.692990993728007e-06" [];
     Node (in_sicd, "Coef") [((in_none, "exponent1"), "3")] "1.74194134614338e-08" [];
     Node (in_sicd, "Coef") [((in_none, "exponent1"), "4")] "-7.019526602081124e-11" [];
     Node (in_sicd, "Coef") [((in_none, "exponent1"), "5")] "-3.138341997107139e-13" []];
    Node (in_sicd, "Z") [((in_none, "order1"), "5")] "           " [
     Node (in_sicd, "Coef") [((in_none, "exponent1"), "0")] "0.10008886172036295" [];
     Node (in_sicd, "Coef") [((in_none, "exponent1"), "1")] "-0.0032336279155612555" [];
     Node (in_sicd, "Coef") [((in_none, "exponent1"), "2")] "-3.6150726160461875e-06" [];
     Node (in_sicd, "Coef") [((in_none, "exponent1"), "3")] "2.4227194540266762e-08" [];
     Node (in_sicd, "Coef") [((in_none, "exponent1"), "4")] "6.853549014106076e-11" [];
     Node (in_sicd, "Coef") [((in_none, "exponent1"), "5")] "-1.9455706113121084e-13" []]];
   Node (in_sicd, "YAxisPoly") [] "         " [
    Node (in_sicd, "X") [((in_none, "order1"), "5")] "           " [
     Node (in_sicd, "Coef") [((in_none, "exponent1"), "0")] "-0.8552353560719915" [];
     Node (in_sicd, "Coef") [((in_none, "exponent1"), "1")] "-0.00010473716447760117" [];
     Node (in_sicd, "Coef") [((in_none, "exponent1"), "2")] "1.0612386361416289e-06" [];
     Node (in_sicd, "Coef") [((in_none, "exponent1"), "3")] "1.219198878977556e-10" [];
     Node (in_sicd, "Coef") [((in_none, "exponent1"), "4")] "-6.534256171555903e-13" [];
     Node (in_sicd, "Coef") [((in_none, "exponent1"), "5")] "3.2519400278010645e-16" []];
    Node (in_sicd, "Y") [((in_none, "order1"), "5")] "           " [
     Node (in_sicd, "Coef") [((in_none, "exponent1"), "0")] "-0.06921308838843146" [];
     Node (in_sicd, "Coef") [((in_none, "exponent1"), "1")] "0.0007378752611914464" [];
     Node (in_sicd, "Coef") [((in_none, "exponent1"), "2")] "7.399077245060788e-08" [];
     Node (in_sicd, "Coef") [((in_none, "exponent1"), "3")] "-1.0525875572605681e-09" [];
     Node (in_sicd, "Coef") [((in_none, "exponent1"), "4")] "-3.378821622814598e-14" [];
     Node (in_sicd, "Coef") [((in_none, "exponent1"), "5")] "7.62417875002352e-16" []];
    Node (in_sicd, "Z") [((in_none, "order1"), "5")] "           " [
     Node (in_sicd, "Coef") [((in_none, "exponent1"), "0")] "0.5135971515888192" [];
     Node (in_sicd, "Coef") [((in_none, "exponent1"), "1")] "-7.496984818402987e-05" [];
     Node (in_sicd, "Coef") [((in_none, "exponent1"), "2")] "1.23093518380827e-06" [];
     Node (in_sicd, "Coef") [((in_none, "exponent1"), "3")] "3.5096979204331667e-10" [];
     Node (in_sicd, "Coef") [((in_none, "exponent1"), "4")] "-2.0820927565561895e-12" [];
     Node (in_sicd, "Coef") [((in_none, "exponent1"), "5")] "-5.491378062886501e-16" []]];
   Node (in_sicd, "FreqZero") [] "10000000000.0" [];
   Node (in_sicd, "EB") [] "         " [
    Node (in_sicd, "DCXPoly") [((in_none, "order1"), "0")] "           " [
     Node (in_sicd, "Coef") [((in_none, "exponent1"), "0")] "0.0" []];
    Node (in_sicd, "DCYPoly") [((in_none, "order1"), "0")] "           " [
     Node (in_sicd, "Coef") [((in_none, "exponent1"), "0")] "0.0" []]];
   Node (in_sicd, "Array") [] "         " [
    Node (in_sicd, "GainPoly") [((in_none, "order1"), "8"); ((in_none, "order2"), "8")] "           " [
     Node (in_sicd, "Coef") [((in_none, "exponent1"), "0"); ((in_none, "exponent2"), "0")] "0.0" [];
     Node (in_sicd, "Coef") [((in_none, "exponent1"), "0"); ((in_none, "exponent2"), "1")] "-4.143077701293506e-12" [];
     Node (in_sicd, "Coef") [((in_none, "exponent1"), "0"); ((in_none, "exponent2"), "2")] "-25810177.686242383" [];
     Node (in_sicd, "Coef") [((in_none, "exponent1"), "0"); ((in_none, "exponent2"), "3")] "-0.00014382609695309318" [];
     Node (in_sicd, "Coef") [((in_none, "exponent1"), "0"); ((in_none, "exponent2"), "4")] "-13687592749336.885" [];
     Node (in_sicd, "Coef") [((in_none, "exponent1"), "0"); ((in_none, "exponent2"), "5")] "292.1994786744385" [];
     Node (in_sicd, "Coef") [((in_none, "exponent1"), "0"); ((in_none, "exponent2"), "6")] "-4.211564877440521e+18" [];
     Node (in_sicd, "Coef") [((in_none, "exponent1"), "0"); ((in_none, "exponent2"), "7")] "-1442527537.8580344" [];
     Node (in_sicd, "Coef") [((in_none, "exponent1"), "0"); ((in_none, "exponent2"), "8")] "-4.4559066869820204e+25" [];
     Node (in_sicd, "Coef") [((in_none, "exponent1"), "1"); ((in_none, "exponent2"), "0")] "-4.143077701293506e-12" [];
     Node (in_sicd, "Coef") [((in_none, "exponent1"), "1"); ((in_none, "exponent2"), "1")] "0.0" [];
     Node (in_sicd, "Coef") [((in_none, "exponent1"), "1"); ((in_none, "exponent2"), "2")] "0.0" [];
     Node (in_sicd, "Coef") [((in_none, "exponent1"), "1"); ((in_none, "exponent2"), "3")] "0.0" [];
     Node (in_sicd, "Coef") [((in_none, "exponent1"), "1"); ((in_none, "exponent2"), "4")] "0.0" [];
     Node (in_sicd, "Coef") [((in_none, "exponent1"), "1"); ((in_none, "exponent2"), "5")] "0.0" [];
     Node (in_sicd, "Coef") [((in_none, "exponent1"), "1"); ((in_none, "exponent2"), "6")] "0.0" [];
     Node (in_sicd, "Coef") [((in_none, "exponent1"), "1"); ((in_none, "exponent2"), "7")] "0.0" [];
     Node (in_sicd, "Coef") [((in_none, "exponent1"), "1"); ((in_none, "exponent2"), "8")] "0.0" [];
     Node (in_sicd, "Coef") [((in_none, "exponent1"), "2"); ((in_none, "exponent2"), "0")] "-25810177.686242383" [];
     Node (in_sicd, "Coef") [((in_none, "exponent1"), "2"); ((in_none, "exponent2"), "1")] "0.0" [];
     Node (in_sicd, "Coef") [((in_none, "exponent1"), "2"); ((in_none, "exponent2"), "2")] "0.0" [];
     Node (in_sicd, "Coef") [((in_none, "exponent1"), "2"); ((in_none, "exponent2"), "3")] "0.0" [];
     Node (in_sicd, "Coef") [((in_none, "exponent1"), "2"); ((in_none, "exponent2"), "4")] "0.0" [];
     Node (in_sicd, "Coef") [((in_none, "exponent1"), "2"); ((in_none, "exponent2"), "5")] "0.0" [];
     Node (in_sicd, "Coef") [((in_none, "exponent1"), "2"); ((in_none, "exponent2"), "6")] "0.0" [];
     Node (in_sicd, "Coef") [((in_none, "exponent1"), "2"); ((in_none, "exponent2"), "7")] "0.0" [];
     Node (in_sicd, "Coef") [((in_none, "exponent1"), "2"); ((in_none, "exponent2"), "8")] "0.0" [];
     Node (in_sicd, "Coef") [((in_none, "exponent1"), "3"); ((in_none, "exponent2"), "0")] "-0.00014382609695309318" [];
     Node (in_sicd, "Coef") [((in_none, "exponent1"), "3"); ((in_none, "exponent2"), "1")] "0.0" [];
     Node (in_sicd, "Coef") [((in_none, "exponent1"), "3"); ((in_none, "exponent2"), "2")] "0.0" [];
     Node (in_sicd, "Coef") [((in_none, "exponent1"), "3"); ((in_none, "exponent2"), "3")] "0.0" [];
     Node (in_sicd, "Coef") [((in_none, "exponent1"), "3"); ((in_none, "exponent2"), "4")] "0.0" [];
     Node (in_sicd, "Coef") [((in_none, "exponent1"), "3"); ((in_none, "exponent2"), "5")] "0.0" [];
     Node (in_sicd, "Coef") [((in_none, "exponent1"), "3"); ((in_none, "exponent2"), "6")] "0.0" [];
     Node (in_sicd, "Coef") [((in_none, "exponent1"), "3"); ((in_none, "exponent2"), "7")] "0.0" [];
     Node (in_sicd, "Coef") [((in_none, "exponent1"), "3"); ((in_none, "exponent2"), "8")] "0.0" [];
     Node (in_sicd, "Coef") [((in_none, "exponent1"), "4"); ((in_none, "exponent2"), "0")] "-13687592749336.885" [];
     Node (in_sicd, "Coef") [((in_none, "exponent1"), "4"); ((in_none, "exponent2"), "1")] "0.0" [];
     Node (in_sicd, "Coef") [((in_none, "exponent1"), "4"); ((in_none, "exponent2"), "2")] "0.0" [];
     Node (in_sicd, "Coef") [((in_none, "exponent1"), "4"); ((in_none, "exponent2"), "3")] "0.0" [];
     Node (in_sicd, "Coef") [((in_none, "exponent1"), "4"); ((in_none, "exponent2"), "4")] "0.0" [];
     Node (in_sicd, "Coef") [((in_none, "exponent1"), "4"); ((in_none, "exponent2"), "5")] "0.0" [];
     Node (in_sicd, "Coef") [((in_none, "exponent1"), "4"); ((in_none, "exponent2"), "6")] "0.0" [];
     Node (in_sicd, "Coef") [((in_none, "exponent1"), "4"); ((in_none, "exponent2"), "7")] "0.0" [];
     Node (in_sicd, "Coef") [((in_none, "exponent1"), "4"); ((in_none, "exponent2"), "8")] "0.0" [];
     Node (in_sicd, "Coef") [((in_none, "exponent1"), "5"); ((in_none, "exponent2"), "0")] "292.1994786744385" [];
     Node (in_sicd, "Coef") [((in_none, "exponent1"), "5"); ((in_none, "exponent2"), "1")] "0.0" [];
     Node (in_sicd, "Coef") [((in_none, "exponent1"), "5"); ((in_none, "exponent2"), "2")] "0.0" [];
     Node (in_sicd, "Coef") [((in_none, "exponent1"), "5"); ((in_none, "exponent2"), "3")] "0.0" [];
     Node (in_sicd, "Coef") [((in_none, "exponent1"), "5"); ((in_none, "exponent2"), "4")] "0.0" [];
     Node (in_sicd, "Coef") [((in_none, "exponent1"), "5"); ((in_none, "exponent2"), "5")] "0.0" [];
     Node (in_sicd, "Coef") [((in_none, "exponent1"), "5"); ((in_none, "exponent2"), "6")] "0.0" [];
     Node (in_sicd, "Coef") [((in_none, "exponent1"), "5"); ((in_none, "exponent2"), "7")] "0.0" [];
     Node (in_sicd, "Coef") [((in_none, "exponent1"), "5"); ((in_none, "exponent2"), "8")] "0.0" [];
     Node (in_sicd, "Coef") [((in_none, "exponent1"), "6"); ((in_none, "exponent2"), "0")] "-4.211564877440521e+18" [];
     Node (in_sicd, "Coef") [((in_none, "exponent1"), "6"); ((in_none, "exponent2"), "1")] "0.0" [];
     Node (in_sicd, "Coef") [((in_none, "exponent1"), "6"); ((in_none, "exponent2"), "2")] "0.0" [];
     Node (in_sicd, "Coef") [((in_none, "exponent1"), "6"); ((in_none, "exponent2"), "3")] "0.0" [];
     Node (in_sicd, "Coef") [((in_none, "exponent1"), "6"); ((in_none, "exponent2"), "4")] "0.0" [];
     Node (in_sicd, "Coef") [((in_none, "exponent1"), "6"); ((in_none, "exponent2"), "5")] "0.0" [];
     Node (in_sicd, "Coef") [((in_none, "exponent1"), "6"); ((in_none, "exponent2"), "6")] "0.0" [];
     Node (in_sicd, "Coef") [((in_none, "exponent1"), "6"); ((in_none, "exponent2"), "7")] "0.0" [];
     Node (in_sicd, "Coef") [((in_none, "exponent1"), "6"); ((in_none, "exponent2"), "8")] "0.0" [];
     Node (in_sicd, "Coef") [((in_none, "exponent1"), "7"); ((in_none, "exponent2"), "0")] "-1442527537.8580344" [];
     Node (in_sicd, "Coef") [((in_none, "exponent1"), "7"); ((in_none, "exponent2"), "1")] "0.0" [];
     Node (in_sicd, "Coef") [((in_none, "exponent1"), "7"); ((in_none, "exponent2"), "2")] "0.0" [];
     Node (in_sicd, "Coef") [((in_none, "exponent1"), "7"); ((in_none, "exponent2"), "3")] "0.0" [];
     Node (in_sicd, "Coef") [((in_none, "exponent1"), "7"); ((in_none, "exponent2"), "4")] "0.0" [];
     Node (in_sicd, "Coef") [((in_none, "exponent1"), "7"); ((in_none, "exponent2"), "5")] "0.0" [];
     Node (in_sicd, "Coef") [((in_none, "exponent1"), "7"); ((in_none, "exponent2"), "6")] "0.0" [];
     Node (in_sicd, "Coef") [((in_none, "exponent1"), "7"); ((in_none, "exponent2"), "7")] "0.0" [];
     Node (in_sicd, "Coef") [((in_none, "exponent1"), "7"); ((in_none, "exponent2"), "8")] "0.0" [];
     Node (in_sicd, "Coef") [((in_none, "exponent1"), "8"); ((in_none, "exponent2"), "0")] "-4.4559066869820204e+25" [];
     Node (in_sicd, "Coef") [((in_none, "exponent1"), "8"); ((in_none, "exponent2"), "1")] "0.0" [];
     Node (in_sicd, "Coef") [((in_none, "exponent1"), "8"); ((in_none, "exponent2"), "2")] "0.0" [];
     Node (in_sicd, "Coef") [((in_none, "exponent1"), "8"); ((in_none, "exponent2"), "3")] "0.0" [];
     Node (in_sicd, "Coef") [((in_none, "exponent1"), "8"); ((in_none, "exponent2"), "4")] "0.0" [];
     Node (in_sicd, "Coef") [((in_none, "exponent1"), "8"); ((in_none, "exponent2"), "5")] "0.0" [];
     Node (in_sicd, "Coef") [((in_none, "exponent1"), "8"); ((in_none, "exponent2"), "6")] "0.0" [];
     Node (in_sicd, "Coef") [((in_none, "exponent1"), "8"); ((in_none, "exponent2"), "7")] "0.0" [];
     Node (in_sicd, "Coef") [((in_none, "exponent1"), "8"); ((in_none, "exponent2"), "8")] "0.0" []];
    Node (in_sicd, "PhasePoly") [((in_none, "order1"), "0"); ((in_none, "order2"), "0")] "           " [
     Node (in_sicd, "Coef") [((in_none, "exponent1"), "0"); ((in_none, "exponent2"), "0")] "0.0" []]];
   Node (in_sicd, "Elem") [] "         " [
    Node (in_sicd, "GainPoly") [((in_none, "order1"), "0"); ((in_none, "order2"), "0")] "           " [
     Node (in_sicd, "Coef") [((in_none, "exponent1"), "0"); ((in_none, "exponent2"), "0")] "0.0" []];
    Node (in_sicd, "PhasePoly") [((in_none, "order1"), "0"); ((in_none, "order2"), "0")] "           " [
     Node (in_sicd, "Coef") [((in_none, "exponent1"), "0"); ((in_none, "exponent2"), "0")] "0.0" []]];
   Node (in_sicd, "GainBSPoly") [((in_none, "order1"), "0")] "         " [
    Node (in_sicd, "Coef") [((in_none, "exponent1"), "0")] "0.0" []];
   Node (in_sicd, "MLFreqDilation") [] "false" []];
  Node (in_sicd, "Rcv") [] "       " [
   Node (in_sicd, "XAxisPoly") [] "         " [
    Node (in_sicd, "X") [((in_none, "order1"), "5")] "           " [
     Node (in_sicd, "Coef") [((in_none, "exponent1"), "0")] "0.1398298626200596" [];
     Node (in_sicd, "Coef") [((in_none, "exponent1"), "1")] "-0.002759434120305412" [];
     Node (in_sicd, "Coef") [((in_none, "exponent1"), "2")] "-2.642141233211328e-06" [];
     Node (in_sicd, "Coef") [((in_none, "exponent1"), "3")] "1.4412928975132546e-08" [];
     Node (in_sicd, "Coef") [((in_none, "exponent1"), "4")] "4.910682797619282e-11" [];
     Node (in_sicd, "Coef") [((in_none, "exponent1"), "5")] "-1.1406011989724555e-13" []];
    Node (in_sicd, "Y") [((in_none, "order1"), "5")] "           " [
     Node (in_sicd, "Coef") [((in_none, "exponent1"), "0")] "-0.985103968766331" [];
     Node (in_sicd, "Coef") [((in_none, "exponent1"), "1")] "-0.000720229999813326" [];
     Node (in_sicd, "Coef") [((in_none, "exponent1"), "2")] "8.692990993728007e-06" [];
     Node (in_sicd, "Coef") [((in_none, "exponent1"), "3")] "1.74194134614338e-08" [];
     Node (in_sicd, "Coef") [((in_none, "exponent1"), "4")] "-7.019526602081124e-11" [];
     Node (in_sicd, "Coef") [((in_none, "exponent1"), "5")] "-3.138341997107139e-13" []];
    Node (in_sicd, "Z") [((in_none, "order1"), "5")] "           " [
     Node (in_sicd, "Coef") [((in_none, "exponent1"), "0")] "0.10008886172036295" [];
     Node (in_sicd, "Coef") [((in_none, "exponent1"), "1")] "-0.0032336279155612555" [];
     Node (in_sicd, "Coef") [((in_none, "exponent1"), "2")] "-3.6150726160461875e-06" [];
     Node (in_sicd, "Coef") [((in_none, "exponent1"), "3")] "2.4227194540266762e-08" [];
     Node (in_sicd, "Coef") [((in_none, "exponent1"), "4")] "6.853549014106076e-11" [];
     Node (in_sicd, "Coef") [((in_none, "exponent1"), "5")] "-1.9455706113121084e-13" []]];
   Node (in_sicd, "YAxisPoly") [] "         " [
    Node (in_sicd, "X") [((in_none, "order1"), "5")] "           " [
     Node (in_sicd, "Coef") [((in_none, "exponent1"), "0")] "-0.8552353560719915" [];
     Node (in_sicd, "Coef") [((in_none, "exponent1"), "1")] "-0.00010473716447760117" [];
     Node (in_sicd, "Coef") [((in_none, "exponent1"), "2")] "1.0612386361416289e-06" [];
     Node (in_sicd, "Coef") [((in_none, "exponent1"), "3")] "1.219198878977556e-10" [];
     Node (in_sicd, "Coef") [((in_none, "exponent1"), "4")] "-6.534256171555903e-13" [];
     Node (in_sicd, "Coef") [((in_none, "exponent1"), "5")] "3.2519400278010645e-16" []];
    Node (in_sicd, "Y") [((in_none, "order1"), "5")] "           " [
     Node (in_sicd, "Coef") [((in_none, "exponent1"), "0")] "-0.06921308838843146" [];
     Node (in_sicd, "Coef") [((in_none, "exponent1"), "1")] "0.0007378752611914464" [];
     Node (in_sicd, "Coef") [((in_none, "exponent1"), "2")] "7.399077245060788e-08" [];
     Node (in_sicd, "Coef") [((in_none, "exponent1"), "3")] "-1.0525875572605681e-09" [];
     Node (in_sicd, "Coef") [((in_none, "exponent1"), "4")] "-3.378821622814598e-14" [];
     Node (in_sicd, "Coef") [((in_none, "exponent1"), "5")] "7.62417875002352e-16" []];
    Node (in_sicd, "Z") [((in_none, "order1"), "5")] "           " [
     Node (in_sicd, "Coef") [((in_none, "exponent1"), "0")] "0.5135971515888192" [];
     Node (in_sicd, "Coef") [((in_none, "exponent1"), "1")] "-7.496984818402987e-05" [];
     Node (in_sicd, "Coef") [((in_none, "exponent1"), "2")] "1.23093518380827e-06" [];
     Node (in_sicd, "Coef") [((in_none, "exponent1"), "3")] "3.5096979204331667e-10" [];
     Node (in_sicd, "Coef") [((in_none, "exponent1"), "4")] "-2.0820927565561895e-12" [];
     Node (in_sicd, "Coef") [((in_none, "exponent1"), "5")] "-5.491378062886501e-16" []]];
   Node (in_sicd, "FreqZero") [] "10000000000.0" [];
   Node (in_sicd, "EB") [] "         " [
    Node (in_sicd, "DCXPoly") [((in_none, "order1"), "0")] "           " [
     Node (in_sicd, "Coef") [((in_none, "exponent1"), "0")] "0.0" []];
    Node (in_sicd, "DCYPoly") [((in_none, "order1"), "0")] "           " [
     Node (in_sicd, "Coef") [((in_none, "exponent1"), "0")] "0.0" []]];
   Node (in_sicd, "Array") [] "         " [
    Node (in_sicd, "GainPoly") [((in_none, "order1"), "8"); ((in_none, "order2"), "8")] "           " [
     Node (in_sicd, "Coef") [((in_none, "exponent1"), "0"); ((in_none, "exponent2"), "0")] "0.0" [];
     Node (in_sicd, "Coef") [((in_none, "exponent1"), "0"); ((in_none, "exponent2"), "1")] "-4.143077701293506e-12" [];
     Node (in_sicd, "Coef") [((in_none, "exponent1"), "0"); ((in_none, "exponent2"), "2")] "-25810177.686242383" [];
     Node (in_sicd, "Coef") [((in_none, "exponent1"), "0"); ((in_none, "exponent2"), "3")] "-0.00014382609695309318" [];
     Node (in_sicd, "Coef") [((in_none, "exponent1"), "0"); ((in_none, "exponent2"), "4")] "-13687592749336.885" [];
     Node (in_sicd, "Coef") [((in_none, "exponent1"), "0"); ((in_none, "exponent2"), "5")] "292.1994786744385" [];
     Node (in_sicd, "Coef") [((in_none, "exponent1"), "0"); ((in_none, "exponent2"), "6")] "-4.211564877440521e+18" [];
     Node (in_sicd, "Coef") [((in_none, "exponent1"), "0"); ((in_none, "exponent2"), "7")] "-1442527537.8580344" [];
     Node (in_sicd, "Coef") [((in_none, "exponent1"), "0"); ((in_none, "exponent2"), "8")] "-4.4559066869820204e+25" [];
     Node (in_sicd, "Coef") [((in_none, "exponent1"), "1"); ((in_none, "exponent2"), "0")] "-4.143077701293506e-12" [];
     Node (in_sicd, "Coef") [((in_none, "exponent1"), "1"); ((in_none, "exponent2"), "1")] "0.0" [];
     Node (in_sicd, "Coef") [((in_none, "exponent1"), "1"); ((in_none, "exponent2"), "2")] "0.0" [];
     Node (in_sicd, "Coef") [((in_none, "exponent1"), "1"); ((in_none, "exponent2"), "3")] "0.0" [];
     Node (in_sicd, "Coef") [((in_none, "exponent1"), "1"); ((in_none, "exponent2"), "4")] "0.0" [];
     Node (in_sicd, "Coef") [((in_none, "exponent1"), "1"); ((in_none, "exponent2"), "5")] "0.0" [];
     Node (in_sicd, "Coef") [((in_none, "exponent1"), "1"); ((in_none, "exponent2"), "6")] "0.0" [];
     Node (in_sicd, "Coef") [((in_none, "exponent1"), "1"); ((in_none, "exponent2"), "7")] "0.0" [];
     Node (in_sicd, "Coef") [((in_none, "exponent1"), "1"); ((in_none, "exponent2"), "8")] "0.0" [];
     Node (in_sicd, "Coef") [((in_none, "exponent1"), "2"); ((in_none, "exponent2"), "0")] "-25810177.686242383" [];
     Node (in_sicd, "Coef") [((in_none, "exponent1"), "2"); ((in_none, "exponent2"), "1")] "0.0" [];
     Node (in_sicd, "Coef") [((in_none, "exponent1"), "2"); ((in_none, "exponent2"), "2")] "0.0" [];
     Node (in_sicd, "Coef") [((in_none, "exponent1"), "2"); ((in_none, "exponent2"), "3")] "0.0" [];
     Node (in_sicd, "Coef") [((in_none, "exponent1"), "2"); ((in_none, "exponent2"), "4")] "0.0" [];
     Node (in_sicd, "Coef") [((in_none, "exponent1"), "2"); ((in_none, "exponent2"), "5")] "0.0" [];
     Node (in_sicd, "Coef") [((in_none, "exponent1"), "2"); ((in_none, "exponent2"), "6")] "0.0" [];
     Node (in_sicd, "Coef") [((in_none, "exponent1"), "2"); ((in_none, "exponent2"), "7")] "0.0" [];
     Node (in_sicd, "Coef") [((in_none, "exponent1"), "2"); ((in_none, "exponent2"), "8")] "0.0" [];
     Node (in_sicd, "Coef") [((in_none, "exponent1"), "3"); ((in_none, "exponent2"), "0")] "-0.00014382609695309318" [];
     Node (in_sicd, "Coef") [((in_none, "exponent1"), "3"); ((in_none, "exponent2"), "1")] "0.0" [];
     Node (in_sicd, "Coef") [((in_none, "exponent1"), "3"); ((in_none, "exponent2"), "2")] "0.0" [];
     Node (in_sicd, "Coef") [((in_none, "exponent1"), "3"); ((in_none, "exponent2"), "3")] "0.0" [];
     Node (in_sicd, "Coef") [((in_none, "exponent1"), "3"); ((in_none, "exponent2"), "4")] "0.0" [];
     Node (in_sicd, "Coef") [((in_none, "exponent1"), "3"); ((in_none, "exponent2"), "5")] "0.0" [];
     Node (in_sicd, "Coef") [((in_none, "exponent1"), "3"); ((in_none, "exponent2"), "6")] "0.0" [];
     Node (in_sicd, "Coef") [((in_none, "exponent1"), "3"); ((in_none, "exponent2"), "7")] "0.0" [];
     Node (in_sicd, "Coef") [((in_none, "exponent1"), "3"); ((in_none, "exponent2"), "8")] "0.0" [];
     Node (in_sicd, "Coef") [((in_none, "exponent1"), "4"); ((in_none, "exponent2"), "0")] "-13687592749336.885" [];
     Node (in_sicd, "Coef") [((in_none, "exponent1"), "4"); ((in_none, "exponent2"), "1")] "0.0" [];
     Node (in_sicd, "Coef") [((in_none, "exponent1"), "4"); ((in_none, "exponent2"), "2")] "0.0" [];
     Node (in_sicd, "Coef") [((in_none, "exponent1"), "4"); ((in_none, "exponent2"), "3")] "0.0" [];
     Node (in_sicd, "Coef") [((in_none, "exponent1"), "4"); ((in_none, "exponent2"), "4")] "0.0" [];
     Node (in_sicd, "Coef") [((in_none, "exponent1"), "4"); ((in_none, "exponent2"), "5")] "0.0" [];
     Node (in_sicd, "Coef") [((in_none, "exponent1"), "4"); ((in_none, "exponent2"), "6")] "0.0" [];
     Node (in_sicd, "Coef") [((in_none, "exponent1"), "4"); ((in_none, "exponent2"), "7")] "0.0" [];
     Node (in_sicd, "Coef") [((in_none, "exponent1"), "4"); ((in_none, "exponent2"), "8")] "0.0" [];
     Node (in_sicd, "Coef") [((in_none, "exponent1"), "5"); ((in_none, "exponent2"), "0")] "292.1994786744385" [];
     Node (in_sicd, "Coef") [((in_none, "exponent1"), "5"); ((in_none, "exponent2"), "1")] "0.0" [];
     Node (in_sicd, "Coef") [((in_none, "exponent1"), "5"); ((in_none, "exponent2"), "2")] "0.0" [];
     Node (in_sicd, "Coef") [((in_none, "exponent1"), "5"); ((in_none, "exponent2"), "3")] "0.0" [];
     Node (in_sicd, "Coef") [((in_none, "exponent1"), "5"); ((in_none, "exponent2"), "4")] "0.0" [];
     Node (in_sicd, "Coef") [((in_none, "exponent1"), "5"); ((in_none, "exponent2"), "5")] "0.0" [];
     Node (in_sicd, "Coef") [((in_none, "exponent1"), "5"); ((in_none, "exponent2"), "6")] "0.0" [];
     Node (in_sicd, "Coef") [((in_none, "exponent1"), "5"); ((in_none, "exponent2"), "7")] "0.0" [];
     Node (in_sicd, "Coef") [((in_none, "exponent1"), "5"); ((in_none, "exponent2"), "8")] "0.0" [];
     Node (in_sicd, "Coef") [((in_none, "exponent1"), "6"); ((in_none, "exponent2"), "0")] "-4.211564877440521e+18" [];
     Node (in_sicd, "Coef") [((in_none, "exponent1"), "6"); ((in_none, "exponent2"), "1")] "0.0" [];
     Node (in_sicd, "Coef") [((in_none, "exponent1"), "6"); ((in_none, "exponent2"), "2")] "0.0" [];
     Node (in_sicd, "Coef") [((in_none, "exponent1"), "6"); ((in_none, "exponent2"), "3")] "0.0" [];
     Node (in_sicd, "Coef") [((in_none, "exponent1"), "6"); ((in_none, "exponent2"), "4")] "0.0" [];
     Node (in_sicd, "Coef") [((in_none, "exponent1"), "6"); ((in_none, "exponent2"), "5")] "0.0" [];
     Node (in_sicd, "Coef") [((in_none, "exponent1"), "6"); ((in_none, "exponent2"), "6")] "0.0" [];
     Node (in_sicd, "Coef") [((in_none, "exponent1"), "6"); ((in_none, "exponent2"), "7")] "0.0" [];
     Node (in_sicd, "Coef") [((in_none, "exponent1"), "6"); ((in_none, "exponent2"), "8")] "0.0" [];
     Node (in_sicd, "Coef") [((in_none, "exponent1"), "7"); ((in_none, "exponent2"), "0")] "-1442527537.8580344" [];
     Node (in_sicd, "Coef") [((in_none, "exponent1"), "7"); ((in_none, "exponent2"), "1")] "0.0" [];
     Node (in_sicd, "Coef") [((in_none, "exponent1"), "7"); ((in_none, "exponent2"), "2")] "0.0" [];
     Node (in_sicd, "Coef") [((in_none, "exponent1"), "7"); ((in_none, "exponent2"), "3")] "0.0" [];
     Node (in_sicd, "Coef") [((in_none, "exponent1"), "7"); ((in_none, "exponent2"), "4")] "0.0" [];
     Node (in_sicd, "Coef") [((in_none, "exponent1"), "7"); ((in_none, "exponent2"), "5")] "0.0" [];
     Node (in_sicd, "Coef") [((in_none, "exponent1"), "7"); ((in_none, "exponent2"), "6")] "0.0" [];
     Node (in_sicd, "Coef") [((in_none, "exponent1"), "7"); ((in_none, "exponent2"), "7")] "0.0" [];
     Node (in_sicd, "Coef") [((in_none, "exponent1"), "7"); ((in_none, "exponent2"), "8")] "0.0" [];
     Node (in_sicd, "Coef") [((in_none, "exponent1"), "8"); ((in_none, "exponent2"), "0")] "-4.4559066869820204e+25" [];
     Node (in_sicd, "Coef") [((in_none, "exponent1"), "8"); ((in_none, "exponent2"), "1")] "0.0" [];
     Node (in_sicd, "Coef") [((in_none, "exponent1"), "8"); ((in_none, "exponent2"), "2")] "0.0" [];
     Node (in_sicd, "Coef") [((in_none, "exponent1"), "8"); ((in_none, "exponent2"), "3")] "0.0" [];
     Node (in_sicd, "Coef") [((in_none, "exponent1"), "8"); ((in_none, "exponent2"), "4")] "0.0" [];
     Node (in_sicd, "Coef") [((in_none, "exponent1"), "8"); ((in_none, "exponent2"), "5")] "0.0" [];
     Node (in_sicd, "Coef") [((in_none, "exponent1"), "8"); ((in_none, "exponent2"), "6")] "0.0" [];
     Node (in_sicd, "Coef") [((in_none, "exponent1"), "8"); ((in_none, "exponent2"), "7")] "0.0" [];
     Node (in_sicd, "Coef") [((in_none, "exponent1"), "8"); ((in_none, "exponent2"), "8")] "0.0" []];
    Node (in_sicd, "PhasePoly") [((in_none, "order1"), "0"); ((in_none, "order2"), "0")] "           " [
     Node (in_sicd, "Coef") [((in_none, "exponent1"), "0"); ((in_none, "exponent2"), "0")] "0.0" []]];
   Node (in_sicd, "Elem") [] "         " [
    Node (in_sicd, "GainPoly") [((in_none, "order1"), "0"); ((in_none, "order2"), "0")] "           " [
     Node (in_sicd, "Coef") [((in_none, "exponent1"), "0"); ((in_none, "exponent2"), "0")] "0.0" []];
    Node (in_sicd, "PhasePoly") [((in_none, "order1"), "0"); ((in_none, "order2"), "0")] "           " [
     Node (in_sicd, "Coef") [((in_none, "exponent1"), "0"); ((in_none, "exponent2"), "0")] "0.0" []]];
   Node (in_sicd, "GainBSPoly") [((in_none, "order1"), "0")] "         " [
    Node (in_sicd, "Coef") [((in_none, "exponent1"), "0")] "0.0" []];
   Node (in_sicd, "MLFreqDilation") [] "false" []]];
 Node (in_sicd, "RMA") [] "     " [
  Node (in_sicd, "RMAlgoType") [] "OMEGA_K" [];
  Node (in_sicd, "ImageType") [] "RMCR" [];
  Node (in_sicd, "RMCR") [] "       " [
   Node (in_sicd, "PosRef") [] "         " [
    Node (in_sicd, "X") [] "7228706.085943103" [];
    Node (in_sicd, "Y") [] "255810.5096335333" [];
    Node (in_sicd, "Z") [] "1450850.7922670336" []];
   Node (in_sicd, "VelRef") [] "         " [
    Node (in_sicd, "X") [] "340.48515511874143" [];
    Node (in_sicd, "Y") [] "-7332.816628850641" [];
    Node (in_sicd, "Z") [] "-403.50838193334255" []];
   Node (in_sicd, "DopConeAngRef") [] "80.00038893713646" []]]].

(** test/data/sicd/example.sicd121.capella.xml:1-403. *)
Definition example_capella : Xml :=
Node (in_sicd, "SICD") [] "     " [
 Node (in_sicd, "CollectionInfo") [] "         " [
  Node (in_sicd, "CollectorName") [] "capella-2" [];
  Node (in_sicd, "CoreName") [] "15JAN21capella-2173921" [];
  Node (in_sicd, "CollectType") [] "MONOSTATIC" [];
  Node (in_sicd, "RadarMode") [] "             " [
   Node (in_sicd, "ModeType") [] "STRIPMAP" []];
  Node (in_sicd, "Classification") [] "UNCLASSIFIED" []];
 Node (in_sicd, "ImageCreation") [] "         " [
  Node (in_sicd, "Application") [] "Capella SAR Processor (2.5.3, 37a73cc02e5a357756980ce065e2b53adeae4e9d)" [];
  Node (in_sicd, "DateTime") [] "2021-09-01T22:48:40.000000Z" [];
  Node (in_sicd, "Site") [] "Unknown" [];
  Node (in_sicd, "Profile") [] "sarpy 1.2.5" []];
 Node (in_sicd, "ImageData") [] "         " [
  Node (in_sicd, "PixelType") [] "RE16I_IM16I" [];
  Node (in_sicd, "NumRows") [] "5388" [];
  Node (in_sicd, "NumCols") [] "19083" [];
  Node (in_sicd, "FirstRow") [] "0" [];
  Node (in_sicd, "FirstCol") [] "0" [];
  Node (in_sicd, "FullImage") [] "             " [
   Node (in_sicd, "NumRows") [] "5388" [];
   Node (in_sicd, "NumCols") [] "19083" []];
  Node (in_sicd, "SCPPixel") [] "             " [
   Node (in_sicd, "Row") [] "2694" [];
   Node (in_sicd, "Col") [] "9541" []];
  Node (in_sicd, "ValidData") [((in_none, "size"), "5")] "             " [
   Node (in_sicd, "Vertex") [((in_none, "index"), "1")] "                 " [
    Node (in_sicd, "Row") [] "0" [];
    Node (in_sicd, "Col") [] "0" []];
   Node (in_sicd, "Vertex") [((in_none, "index"), "2")] "                 " [
    Node (in_sicd, "Row") [] "0" [];
    Node (in_sicd, "Col") [] "19083" []];
   Node (in_sicd, "Vertex") [((in_none, "index"), "3")] "                 " [
    Node (in_sicd, "Row") [] "5388" [];
    Node (in_sicd, "Col") [] "19083" []];
   Node (in_sicd, "Vertex") [((in_none, "index"), "4")] "                 " [
    Node (in_sicd, "Row") [] "5388" [];
    Node (in_sicd, "Col") [] "0" []];
   Node (in_sicd, "Vertex") [((in_none, "index"), "5")] "                 " [
    Node (in_sicd, "Row") [] "0" [];
    Node (in_sicd, "Col") [] "0" []]]];
 Node (in_sicd, "GeoData") [] "         " [
  Node (in_sicd, "EarthModel") [] "WGS_84" [];
  Node (in_sicd, "SCP") [] "             " [
   Node (in_sicd, "ECF") [] "                 " [
    Node (in_sicd, "X") [] "5271232.528561848" [];
    Node (in_sicd, "Y") [] "-703918.7036014228" [];
    Node (in_sicd, "Z") [] "3509547.755004264" []];
   Node (in_sicd, "LLH") [] "                 " [
    Node (in_sicd, "Lat") [] "33.59934615859317" [];
    Node (in_sicd, "Lon") [] "-7.606259320191953" [];
    Node (in_sicd, "HAE") [] "54.63396231038757" []]];
  Node (in_sicd, "ImageCorners") [] "             " [
   Node (in_sicd, "ICP") [((in_none, "index"), "1:FRFC")] "                 " [
    Node (in_sicd, "Lat") [] "33.57557419233318" [];
    Node (in_sicd, "Lon") [] "-7.715737959893586" []];
   Node (in_sicd, "ICP") [((in_none, "index"), "2:FRLC")] "                 " [
    Node (in_sicd, "Lat") [] "33.66247968391572" [];
    Node (in_sicd, "Lon") [] "-7.521776845384764" []];
   Node (in_sicd, "ICP") [((in_none, "index"), "3:LRLC")] "                 " [
    Node (in_sicd, "Lat") [] "33.62304102343928" [];
    Node (in_sicd, "Lon") [] "-7.496736772717166" []];
   Node (in_sicd, "ICP") [((in_none, "index"), "4:LRFC")] "                 " [
    Node (in_sicd, "Lat") [] "33.53576476994573" [];
    Node (in_sicd, "Lon") [] "-7.690344834684546" []]];
  Node (in_sicd, "ValidData") [((in_none, "size"), "5")] "             " [
   Node (in_sicd, "Vertex") [((in_none, "index"), "1")] "                 " [
    Node (in_sicd, "Lat") [] "33.57557419233318" [];
    Node (in_sicd, "Lon") [] "-7.715737959893586" []];
   Node (in_sicd, "Vertex") [((in_none, "index"), "2")] "                 " [
    Node (in_sicd, "Lat") [] "33.66247968391572" [];
    Node (in_sicd, "Lon") [] "-7.521776845384764" []];
   Node (in_sicd, "Vertex") [((in_none, "index"), "3")] "                 " [
    Node (in_sicd, "Lat") [] "33.62304102343928" [];
    Node (in_sicd, "Lon") [] "-7.496736772717166" []];
   Node (in_sicd, "Vertex") [((in_none, "index"), "4")] "                 " [
    Node (in_sicd, "Lat") [] "33.53576476994573" [];
    Node (in_sicd, "Lon") [] "-7.690344834684546" []];
   Node (in_sicd, "Vertex") [((in_none, "index"), "5")] "                 " [
    Node (in_sicd, "Lat") [] "33.57557419233318" [];
    Node (in_sicd, "Lon") [] "-7.715737959893586" []]]];
 Node (in_sicd, "Grid") [] "         " [
  Node (in_sicd, "ImagePlane") [] "SLANT" [];
  Node (in_sicd, "Type") [] "RGZERO" [];
  Node (in_sicd, "TimeCOAPoly") [((in_none, "order1"), "0"); ((in_none, "order2"), "1")] "             " [
   Node (in_sicd, "Coef") [((in_none, "exponent1"), "0"); ((in_none, "exponent2"), "0")] "2.173685700333333" [];
   Node (in_sicd, "Coef") [((in_none, "exponent1"), "0"); ((in_none, "exponent2"), "1")] "0.000150937408161923" []];
  Node (in_sicd, "Row") [] "             " [
   Node (in_sicd, "UVectECF") [] "                 " [
    Node (in_sicd, "X") [] "-0.2313169281599637" [];
    Node (in_sicd, "Y") [] "0.3556237170721815" [];
    Node (in_sicd, "Z") [] "-0.9055519038699015" []];
   Node (in_sicd, "SS") [] "0.6245676208333334" [];
   Node (in_sicd, "ImpRespWid") [] "0.9511988838080884" [];
   Node (in_sicd, "Sgn") [] "-1" [];
   Node (in_sicd, "ImpRespBW") [] "1.334256380792608" [];
   Node (in_sicd, "KCtr") [] "64.37786951931926" [];
   Node (in_sicd, "DeltaK1") [] "-0.667128190396304" [];
   Node (in_sicd, "DeltaK2") [] "0.667128190396304" [];
   Node (in_sicd, "DeltaKCOAPoly") [((in_none, "order1"), "0"); ((in_none, "order2"), "0")] "                 " [
    Node (in_sicd, "Coef") [((in_none, "exponent1"), "0"); ((in_none, "exponent2"), "0")] "0" []];
   Node (in_sicd, "WgtType") [] "                 " [
    Node (in_sicd, "WindowName") [] "AVCI-NACAROGLU-CAPELLA" [];
    Node (in_sicd, "Parameter") [((in_none, "name"), "ALPHA")] "1.25" []];
   Node (in_sicd, "WgtFunct") [((in_none, "size"), "32")] "                 " [
    Node (in_sicd, "Wgt") [((in_none, "index"), "1")] "0.01970287298661711" [];
    Node (in_sicd, "Wgt") [((in_none, "index"), "2")] "0.07726950936010718" [];
    Node (in_sicd, "Wgt") [((in_none, "index"), "3")] "0.1318824131826273" [];
    Node (in_sicd, "Wgt") [((in_none, "index"), "4")] "0.1944252372795882" [];
    Node (in_sicd, "Wgt") [((in_none, "index"), "5")] "0.2646014515889159" [];
    Node (in_sicd, "Wgt") [((in_none, "index"), "6")] "0.3412051275652817" [];
    Node (in_sicd, "Wgt") [((in_none, "index"), "7")] "0.4225343249454487" [];
    Node (in_sicd, "Wgt") [((in_none, "index"), "8")] "0.5065331681561823" [];
    Node (in_sicd, "Wgt") [((in_none, "index"), "9")] "0.590894960579544" [];
    Node (in_sicd, "Wgt") [((in_none, "index"), "10")] "0.6731625984868158" [];
    Node (in_sicd, "Wgt") [((in_none, "index"), "11")] "0.7508323427242285" [];
    Node (in_sicd, "Wgt") [((in_none, "index"), "12")] "0.8214596188067258" [];
    Node (in_sicd, "Wgt") [((in_none, "index"), "13")] "0.8827631847744818" [];
    Node (in_sicd, "Wgt") [((in_none, "index"), "14")] "0.9327232538826931" [];
    Node (in_sicd, "Wgt") [((in_none, "index"), "15")] "0.9696690963016896" [];
    Node (in_sicd, "Wgt") [((in_none, "index"), "16")] "0.9923519872809892" [];
    Node (in_sicd, "Wgt") [((in_none, "index"), "17")] "1" [];
    Node (in_sicd, "Wgt") [((in_none, "index"), "18")] "0.9923519872809892" [];
    Node (in_sicd, "Wgt") [((in_none, "index"), "19")] "0.9696690963016896" [];
    Node (in_sicd, "Wgt") [((in_none, "index"), "20")] "0.9327232538826931" [];
    Node (in_sicd, "Wgt") [((in_none, "index"), "21")] "0.8827631847744818" [];
    Node (in_sicd, "Wgt") [((in_none, "index"), "22")] "0.8214596188067258" [];
    Node (in_sicd, "Wgt") [((in_none, "index"), "23")] "0.7508323427242285" [];
    Node (in_sicd, "Wgt") [((in_none, "index"), "24")] "0.6731625984868158" [];
    Node (in_sicd, "Wgt") [((in_none, "index"), "25")] "0.590894960579544" [];
    Node (in_sicd, "Wgt") [((in_none, "index"), "26")] "0.5065331681561823" [];
    Node (in_sicd, "Wgt") [((in_none, "index"), "27")] "0.4225343249454487" [];
    Node (in_sicd, "Wgt") [((in_none, "index"), "28")] "0.3412051275652817" [];
    Node (in_sicd, "Wgt") [((in_none, "index"), "29")] "0.2646014515889159" [];
    Node (in_sicd, "Wgt") [((in_none, "index"), "30")] "0.1944252372795882" [];
    Node (in_sicd, "Wgt") [((in_none, "index"), "31")] "0.1318824131826273" [];
    Node (in_sicd, "Wgt") [((in_none, "index"), "32")] "0.07726950936010718" []]];
  Node (in_sicd, "Col") [] "             " [
   Node (in_sicd, "UVectECF") [] "                 " [
    Node (in_sicd, "X") [] "-0.1421942494206885" [];
    Node (in_sicd, "Y") [] "0.9084236131422561" [];
    Node (in_sicd, "Z") [] "0.3931250876213012" []];
   Node (in_sicd, "SS") [] "1.069856275523818" [];
   Node (in_sicd, "ImpRespWid") [] "1.122553243782685" [];
   Node (in_sicd, "Sgn") [] "-1" [];
   Node (in_sicd, "ImpRespBW") [] "0.872855015564871" [];
   Node (in_sicd, "KCtr") [] "0" [];
   Node (in_sicd, "DeltaK1") [] "-0.4394266826531045" [];
   Node (in_sicd, "DeltaK2") [] "0.4334283329117665" [];
   Node (in_sicd, "DeltaKCOAPoly") [((in_none, "order1"), "0"); ((in_none, "order2"), "0")] "                 " [
    Node (in_sicd, "Coef") [((in_none, "exponent1"), "0"); ((in_none, "exponent2"), "0")] "-0.002999174870669003" []];
   Node (in_sicd, "WgtType") [] "                 " [
    Node (in_sicd, "WindowName") [] "ANTENNA-TAPER-CAPELLA" [];
    Node (in_sicd, "Parameter") [((in_none, "name"), "PROC_BEAMWIDTH")] "0.01205268875689288" []];
   Node (in_sicd, "WgtFunct") [((in_none, "size"), "32")] "                 " [
    Node (in_sicd, "Wgt") [((in_none, "index"), "1")] "0.5038276985319642" [];
    Node (in_sicd, "Wgt") [((in_none, "index"), "2")] "0.5453410700968516" [];
    Node (in_sicd, "Wgt") [((in_none, "index"), "3")] "0.5893418917596951" [];
    Node (in_sicd, "Wgt") [((in_none, "index"), "4")] "0.6347317532132404" [];
    Node (in_sicd, "Wgt") [((in_none, "index"), "5")] "0.6805044117717426" [];
    Node (in_sicd, "Wgt") [((in_none, "index"), "6")] "0.7257502175755721" [];
    Node (in_sicd, "Wgt") [((in_none, "index"), "7")] "0.7696333109610092" [];
    Node (in_sicd, "Wgt") [((in_none, "index"), "8")] "0.8113906511990557" [];
    Node (in_sicd, "Wgt") [((in_none, "index"), "9")] "0.8503308500159068" [];
    Node (in_sicd, "Wgt") [((in_none, "index"), "10")] "0.8857978645240657" [];
    Node (in_sicd, "Wgt") [((in_none, "index"), "11")] "0.9171536249574779" [];
    Node (in_sicd, "Wgt") [((in_none, "index"), "12")] "0.9440325772587769" [];
    Node (in_sicd, "Wgt") [((in_none, "index"), "13")] "0.9660381523818794" [];
    Node (in_sicd, "Wgt") [((in_none, "index"), "14")] "0.9828498329217592" [];
    Node (in_sicd, "Wgt") [((in_none, "index"), "15")] "0.9942249153188277" [];
    Node (in_sicd, "Wgt") [((in_none, "index"), "16")] "0.9999999853762968" [];
    Node (in_sicd, "Wgt") [((in_none, "index"), "17")] "1" [];
    Node (in_sicd, "Wgt") [((in_none, "index"), "18")] "0.9942249589755801" [];
    Node (in_sicd, "Wgt") [((in_none, "index"), "19")] "0.9828499049796148" [];
    Node (in_sicd, "Wgt") [((in_none, "index"), "20")] "0.966038251797382" [];
    Node (in_sicd, "Wgt") [((in_none, "index"), "21")] "0.9440327025834828" [];
    Node (in_sicd, "Wgt") [((in_none, "index"), "22")] "0.917153774346285" [];
    Node (in_sicd, "Wgt") [((in_none, "index"), "23")] "0.8857980357445312" [];
    Node (in_sicd, "Wgt") [((in_none, "index"), "24")] "0.8503310404079479" [];
    Node (in_sicd, "Wgt") [((in_none, "index"), "25")] "0.8113908577480362" [];
    Node (in_sicd, "Wgt") [((in_none, "index"), "26")] "0.7696335302970161" [];
    Node (in_sicd, "Wgt") [((in_none, "index"), "27")] "0.7257504459595931" [];
    Node (in_sicd, "Wgt") [((in_none, "index"), "28")] "0.6805046450904531" [];
    Node (in_sicd, "Wgt") [((in_none, "index"), "29")] "0.6347319869708252" [];
    Node (in_sicd, "Wgt") [((in_none, "index"), "30")] "0.5893421210698754" [];
    Node (in_sicd, "Wgt") [((in_none, "index"), "31")] "0.5453412895181906" [];
    Node (in_sicd, "Wgt") [((in_none, "index"), "32")] "0.5038279024619354" []]]];
 Node (in_sicd, "Timeline") [] "         " [
  Node (in_sicd, "CollectStart") [] "2021-01-15T17:39:21.684235Z" [];
  Node (in_sicd, "CollectDuration") [] "4.356605759000001" [];
  Node (in_sicd, "IPP") [((in_none, "size"), "1")] "             " [
   Node (in_sicd, "Set") [((in_none, "index"), "1")] "                 " [
    Node (in_sicd, "TStart") [] "0" [];
    Node (in_sicd, "TEnd") [] "4.356605759000001" [];
    Node (in_sicd, "IPPStart") [] "0" [];
    Node (in_sicd, "IPPEnd") [] "26979" [];
    Node (in_sicd, "IPPPoly") [((in_none, "order1"), "1")] "                     " [
     Node (in_sicd, "Coef") [((in_none, "exponent1"), "0")] "0.0" [];
     Node (in_sicd, "Coef") [((in_none, "exponent1"), "1")] "6192.6662318038825" []]]]];
 Node (in_sicd, "Position") [] "         " [
  Node (in_sicd, "ARPPoly") [] "             " [
   Node (in_sicd, "X") [((in_none, "order1"), "6")] "                 " [
    Node (in_sicd, "Coef") [((in_none, "exponent1"), "0")] "5438120.473202774" [];
    Node (in_sicd, "Coef") [((in_none, "exponent1"), "1")] "-997.4095925011363" [];
    Node (in_sicd, "Coef") [((in_none, "exponent1"), "2")] "-2.788989728553322" [];
    Node (in_sicd, "Coef") [((in_none, "exponent1"), "3")] "0.00023730335867582828" [];
    Node (in_sicd, "Coef") [((in_none, "exponent1"), "4")] "2.3545281075582228e-07" [];
    Node (in_sicd, "Coef") [((in_none, "exponent1"), "5")] "-1.492656957489703e-11" [];
    Node (in_sicd, "Coef") [((in_none, "exponent1"), "6")] "-3.0570170411356174e-14" []];
   Node (in_sicd, "Y") [((in_none, "order1"), "6")] "                 " [
    Node (in_sicd, "Coef") [((in_none, "exponent1"), "0")] "-971609.8647421665" [];
    Node (in_sicd, "Coef") [((in_none, "exponent1"), "1")] "6583.684605741273" [];
    Node (in_sicd, "Coef") [((in_none, "exponent1"), "2")] "0.6568128008751011" [];
    Node (in_sicd, "Coef") [((in_none, "exponent1"), "3")] "-0.0011846374886725296" [];
    Node (in_sicd, "Coef") [((in_none, "exponent1"), "4")] "-7.185209123184431e-08" [];
    Node (in_sicd, "Coef") [((in_none, "exponent1"), "5")] "5.783598485367062e-11" [];
    Node (in_sicd, "Coef") [((in_none, "exponent1"), "6")] "9.744111832411611e-14" []];
   Node (in_sicd, "Z") [((in_none, "order1"), "6")] "                 " [
    Node (in_sicd, "Coef") [((in_none, "exponent1"), "0")] "4148423.8430116437" [];
    Node (in_sicd, "Coef") [((in_none, "exponent1"), "1")] "2855.80663274287" [];
    Node (in_sicd, "Coef") [((in_none, "exponent1"), "2")] "-2.5117319050417883" [];
    Node (in_sicd, "Coef") [((in_none, "exponent1"), "3")] "-0.0005721514871533472" [];
    Node (in_sicd, "Coef") [((in_none, "exponent1"), "4")] "2.545856535909912e-07" [];
    Node (in_sicd, "Coef") [((in_none, "exponent1"), "5")] "3.20193106149182e-11" [];
    Node (in_sicd, "Coef") [((in_none, "exponent1"), "6")] "-1.1676099341312116e-14" []]]];
 Node (in_sicd, "RadarCollection") [] "         " [
  Node (in_sicd, "TxFrequency") [] "             " [
   Node (in_sicd, "Min") [] "9549999872" [];
   Node (in_sicd, "Max") [] "9749999872" []];
  Node (in_sicd, "Waveform") [((in_none, "size"), "1")] "             " [
   Node (in_sicd, "WFParameters") [((in_none, "index"), "1")] "                 " [
    Node (in_sicd, "TxPulseLength") [] "1.96E-05" [];
    Node (in_sicd, "TxRFBandwidth") [] "200000000" [];
    Node (in_sicd, "TxFreqStart") [] "9549999872" [];
    Node (in_sicd, "TxFMRate") [] "10204081632653.06" [];
    Node (in_sicd, "RcvDemodType") [] "CHIRP" [];
    Node (in_sicd, "ADCSampleRate") [] "750000000" [];
    Node (in_sicd, "RcvFMRate") [] "0" []]];
  Node (in_sicd, "TxPolarization") [] "H" [];
  Node (in_sicd, "RcvChannels") [((in_none, "size"), "1")] "             " [
   Node (in_sicd, "ChanParameters") [((in_none, "index"), "1")] "                 " [
    Node (in_sicd, "TxRcvPolarization") [] "H:H" []]]];
 Node (in_sicd, "ImageFormation") [] "         " [
  Node (in_sicd, "RcvChanProc") [] "             " [
   Node (in_sicd, "NumChanProc") [] "1" [];
   Node (in_sicd, "PRFScaleFactor") [] "1" [];
   Node (in_sicd, "ChanIndex") [] "1" []];
  Node (in_sicd, "TxRcvPolarizationProc") [] "H:H" [];
  Node (in_sicd, "TStartProc") [] "0" [];
  Node (in_sicd, "TEndProc") [] "4.356605759000001" [];
  Node (in_sicd, "TxFrequencyProc") [] "             " [
   Node (in_sicd, "MinProc") [] "9549999872" [];
   Node (in_sicd, "MaxProc") [] "9749999872" []];
  Node (in_sicd, "ImageFormAlgo") [] "OTHER" [];
  Node (in_sicd, "STBeamComp") [] "NO" [];
  Node (in_sicd, "ImageBeamComp") [] "NO" [];
  Node (in_sicd, "AzAutofocus") [] "NO" [];
  Node (in_sicd, "RgAutofocus") [] "NO" [];
  Node (in_sicd, "Processing") [] "             " [
   Node (in_sicd, "Type") [] "Backprojected to DEM" [];
   Node (in_sicd, "Applied") [] "true" []]];
 Node (in_sicd, "SCPCOA") [] "         " [
  Node (in_sicd, "SCPTime") [] "2.173685700333333" [];
  Node (in_sicd, "ARPPos") [] "             " [
   Node (in_sicd, "X") [] "5435939.242952521" [];
   Node (in_sicd, "Y") [] "-957295.9124464868" [];
   Node (in_sicd, "Z") [] "4154619.595475576" []];
  Node (in_sicd, "ARPVel") [] "             " [
   Node (in_sicd, "X") [] "-1009.530993301936" [];
   Node (in_sicd, "Y") [] "6586.523220067197" [];
   Node (in_sicd, "Z") [] "2844.879101663144" []];
  Node (in_sicd, "ARPAcc") [] "             " [
   Node (in_sicd, "X") [] "-5.574871172770072" [];
   Node (in_sicd, "Y") [] "1.298171362344716" [];
   Node (in_sicd, "Z") [] "-5.030911433820477" []];
  Node (in_sicd, "SideOfTrack") [] "R" [];
  Node (in_sicd, "SlantRange") [] "712352.4346112193" [];
  Node (in_sicd, "GroundRange") [] "449850.7034007939" [];
  Node (in_sicd, "DopplerConeAng") [] "89.99999995062271" [];
  Node (in_sicd, "GrazeAng") [] "46.9889303602956" [];
  Node (in_sicd, "IncidenceAng") [] "43.0110696397044" [];
  Node (in_sicd, "TwistAng") [] "-0.1700935896001955" [];
  Node (in_sicd, "SlopeAng") [] "46.98916589027822" [];
  Node (in_sicd, "AzimAng") [] "331.8370896248286" [];
  Node (in_sicd, "LayoverAng") [] "332.0697045793157" []];
 Node (in_sicd, "Radiometric") [] "         " [
  Node (in_sicd, "NoiseLevel") [] "             " [
   Node (in_sicd, "NoiseLevelType") [] "ABSOLUTE" [];
   Node (in_sicd, "NoisePoly") [((in_none, "order1"), "3"); ((in_none, "order2"), "0")] "                 " [
    Node (in_sicd, "Coef") [((in_none, "exponent1"), "0"); ((in_none, "exponent2"), "0")] "39.24201011267091" [];
    Node (in_sicd, "Coef") [((in_none, "exponent1"), "1"); ((in_none, "exponent2"), "0")] "2.27866933042562E-05" [];
    Node (in_sicd, "Coef") [((in_none, "exponent1"), "2"); ((in_none, "exponent2"), "0")] "3.471658456505701E-07" [];
    Node (in_sicd, "Coef") [((in_none, "exponent1"), "3"); ((in_none, "exponent2"), "0")] "-6.629346283575849E-17" []]];
  Node (in_sicd, "RCSSFPoly") [((in_none, "order1"), "0"); ((in_none, "order2"), "3")] "             " [
   Node (in_sicd, "Coef") [((in_none, "exponent1"), "0"); ((in_none, "exponent2"), "0")] "2.598451147663572E-06" [];
   Node (in_sicd, "Coef") [((in_none, "exponent1"), "0"); ((in_none, "exponent2"), "1")] "-1.942915018981167E-24" [];
   Node (in_sicd, "Coef") [((in_none, "exponent1"), "0"); ((in_none, "exponent2"), "2")] "1.368407884430401E-27" [];
   Node (in_sicd, "Coef") [((in_none, "exponent1"), "0"); ((in_none, "exponent2"), "3")] "1.378877395375437E-30" []];
  Node (in_sicd, "SigmaZeroSFPoly") [((in_none, "order1"), "0"); ((in_none, "order2"), "3")] "             " [
   Node (in_sicd, "Coef") [((in_none, "exponent1"), "0"); ((in_none, "exponent2"), "0")] "1.499571638005783E-06" [];
   Node (in_sicd, "Coef") [((in_none, "exponent1"), "0"); ((in_none, "exponent2"), "1")] "9.009699530034262E-13" [];
   Node (in_sicd, "Coef") [((in_none, "exponent1"), "0"); ((in_none, "exponent2"), "2")] "-8.811557887570633E-19" [];
   Node (in_sicd, "Coef") [((in_none, "exponent1"), "0"); ((in_none, "exponent2"), "3")] "2.225021054564836E-23" []];
  Node (in_sicd, "BetaZeroSFPoly") [((in_none, "order1"), "0"); ((in_none, "order2"), "3")] "             " [
   Node (in_sicd, "Coef") [((in_none, "exponent1"), "0"); ((in_none, "exponent2"), "0")] "2.203222548581317E-06" [];
   Node (in_sicd, "Coef") [((in_none, "exponent1"), "0"); ((in_none, "exponent2"), "1")] "-2.320064743720347E-26" [];
   Node (in_sicd, "Coef") [((in_none, "exponent1"), "0"); ((in_none, "exponent2"), "2")] "9.951539490477308E-28" [];
   Node (in_sicd, "Coef") [((in_none, "exponent1"), "0"); ((in_none, "exponent2"), "3")] "1.305902461190002E-32" []];
  Node (in_sicd, "GammaZeroSFPoly") [((in_none, "order1"), "0"); ((in_none, "order2"), "3")] "             " [
   Node (in_sicd, "Coef") [((in_none, "exponent1"), "0"); ((in_none, "exponent2"), "0")] "2.046831876543034E-06" [];
   Node (in_sicd, "Coef") [((in_none, "exponent1"), "0"); ((in_none, "exponent2"), "1")] "2.291158712901786E-12" [];
   Node (in_sicd, "Coef") [((in_none, "exponent1"), "0"); ((in_none, "exponent2"), "2")] "-4.58441401396291E-19" [];
   Node (in_sicd, "Coef") [((in_none, "exponent1"), "0"); ((in_none, "exponent2"), "3")] "5.497848200436365E-23" []]];
 Node (in_sicd, "RMA") [] "         " [
  Node (in_sicd, "RMAlgoType") [] "RG_DOP" [];
  Node (in_sicd, "ImageType") [] "INCA" [];
  Node (in_sicd, "INCA") [] "             " [
   Node (in_sicd, "TimeCAPoly") [((in_none, "order1"), "1")] "                 " [
    Node (in_sicd, "Coef") [((in_none, "exponent1"), "0")] "2.1736857003333334" [];
    Node (in_sicd, "Coef") [((in_none, "exponent1"), "1")] "0.000150937408161923" []];
   Node (in_sicd, "R_CA_SCP") [] "712352.4341635579" [];
   Node (in_sicd, "FreqZero") [] "9649999872" [];
   Node (in_sicd, "DRateSFPoly") [((in_none, "order1"), "0"); ((in_none, "order2"), "0")] "                 " [
    Node (in_sicd, "Coef") [((in_none, "exponent1"), "0"); ((in_none, "exponent2"), "0")] "0.9144184293995976" []];
   Node (in_sicd, "DopCentroidPoly") [((in_none, "order1"), "0"); ((in_none, "order2"), "0")] "                 " [
    Node (in_sicd, "Coef") [((in_none, "exponent1"), "0"); ((in_none, "exponent2"), "0")] "-19.8703217922726" []];
   Node (in_sicd, "DopCentroidCOA") [] "true" []]]].
