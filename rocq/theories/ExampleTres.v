(** The TRE metadata files of test/data, as element trees.  Made of these files by a script. *)
Require Import String List.
Require Import Verif.TreModel.
Import ListNotations.
Local Open Scope string_scope.

Local Notation f n v := (El "field" [("name", n); ("value", v)] []).
Local Notation g i := (El "group" [("index", i)]).
Local Notation rep n k := (El "repeated" [("name", n); ("number", k)]).

(** test/data/sample-metadata-ms-rpc00b.xml. *)
Definition tres_ms_rpc00b : Element :=
  El "tres" [] [
    El "tre" [("name", "CSDIDA"); ("location", "file")] [
     f "DAY" "26"; f "MONTH" "JUL"; f "YEAR" "2021"; f "PLATFORM_CODE" "WV"; f "VEHICLE_ID" "02"; f "PASS" "03"; f "OPERATION" "000";
     f "SENSOR_ID" "GA"; f "PRODUCT_ID" "P2"; f "RESERVED_0" "0000"; f "TIME" "20210726022513"; f "PROCESS_TIME" "20210726032944";
     f "RESERVED_1" "00"; f "RESERVED_2" "01"; f "RESERVED_3" "N"; f "RESERVED_4" "N"; f "SOFTWARE_VERSION_NUMBER" "4.54.0"];
    El "tre" [("name", "CSCRNA"); ("location", "image")] [
     f "PREDICT_CORNERS" "Y"; f "ULCNR_LAT" "+25.02860"; f "ULCNR_LONG" "+121.48749"; f "ULCNR_HT" "+00027.1"; f "URCNR_LAT" "+25.01000";
     f "URCNR_LONG" "+121.68566"; f "URCNR_HT" "+00234.7"; f "LRCNR_LAT" "+24.91148"; f "LRCNR_LONG" "+121.68595"; f "LRCNR_HT" "+00403.1";
     f "LLCNR_LAT" "+24.92772"; f "LLCNR_LONG" "+121.48975"; f "LLCNR_HT" "+00431.4"];
    El "tre" [("name", "CSEXRA"); ("location", "image")] [
     f "SENSOR" "MS"; f "TIME_FIRST_LINE_IMAGE" "08713.314750"; f "TIME_IMAGE_DURATION" "-0001.042400"; f "MAX_GSD" "086.5";
     f "ALONG_SCAN_GSD" "083.2"; f "CROSS_SCAN_GSD" "089.1"; f "GEO_MEAN_GSD" "086.1"; f "A_S_VERT_GSD" "N/A"; f "C_S_VERT_GSD" "N/A";
     f "GEO_MEAN_VERT_GSD" "N/A"; f "GSD_BETA_ANGLE" "080.4"; f "DYNAMIC_RANGE" "01943"; f "NUM_LINES" "0006144"; f "NUM_SAMPLES" "09216";
     f "ANGLE_TO_NORTH" "090.000"; f "OBLIQUITY_ANGLE" "24.032"; f "AZ_OF_OBLIQUITY" "119.995"; f "GRD_COVER" "9"; f "SNOW_DEPTH_CAT" "9";
     f "SUN_AZIMUTH" "099.085"; f "SUN_ELEVATION" "+67.374"; f "PREDICTED_NIIRS" "2.9"; f "CIRCL_ERR" "016"; f "LINEAR_ERR" "016"];
    El "tre" [("name", "CSPROA"); ("location", "image")] [f "BWC" "NUMERICAL"];
    El "tre" [("name", "PIAIMC"); ("location", "image")] [
     f "CLOUDCVR" "000"; f "SRP" "Y"; f "SENSMODE" "PUSHBROOM"; f "SENSNAME" "WV02"; f "SOURCE" "VNIR: 10300100C2693900"; f "COMGEN" "00";
     f "SUBQUAL" ""; f "PIAMSNNUM" ""; f "CAMSPECS" ""; f "PROJID" ""; f "GENERATION" "1"; f "ESD" "Y"; f "OTHERCOND" ""; f "MEANGSD" "00086.1";
     f "IDATUM" "WGE"; f "IELLIP" ""; f "PREPROC" "1R"; f "IPROJ" ""; f "SATTRACK" "00000000"];
    El "tre" [("name", "RPC00B"); ("location", "image")] [
     f "SUCCESS" "1"; f "ERR_BIAS" "0005.18"; f "ERR_RAND" "0000.98"; f "LINE_OFF" "002606"; f "SAMP_OFF" "04409"; f "LAT_OFF" "+24.9697";
     f "LONG_OFF" "+121.5875"; f "HEIGHT_OFF" "+0377"; f "LINE_SCALE" "002606"; f "SAMP_SCALE" "04410"; f "LAT_SCALE" "+00.0593";
     f "LONG_SCALE" "+000.1008"; f "HEIGHT_SCALE" "+0500";
     rep "LINE_NUM_COEFF" "20" [
      g "0" [f "LINE_NUM_COEFF" "-1.219784E-2"]; g "1" [f "LINE_NUM_COEFF" "-1.779120E-1"]; g "2" [f "LINE_NUM_COEFF" "-1.197441E+0"];
      g "3" [f "LINE_NUM_COEFF" "-1.962294E-2"]; g "4" [f "LINE_NUM_COEFF" "-2.400754E-3"]; g "5" [f "LINE_NUM_COEFF" "-1.266875E-4"];
      g "6" [f "LINE_NUM_COEFF" "-2.864113E-4"]; g "7" [f "LINE_NUM_COEFF" "-9.364538E-4"]; g "8" [f "LINE_NUM_COEFF" "+9.023196E-3"];
      g "9" [f "LINE_NUM_COEFF" "-6.372315E-6"]; g "10" [f "LINE_NUM_COEFF" "-3.353148E-6"]; g "11" [f "LINE_NUM_COEFF" "-9.192860E-6"];
      g "12" [f "LINE_NUM_COEFF" "+1.114250E-6"]; g "13" [f "LINE_NUM_COEFF" "-9.605230E-6"]; g "14" [f "LINE_NUM_COEFF" "-4.486697E-5"];
      g "15" [f "LINE_NUM_COEFF" "-2.875052E-4"]; g "16" [f "LINE_NUM_COEFF" "-6.413221E-5"]; g "17" [f "LINE_NUM_COEFF" "-1.735976E-6"];
      g "18" [f "LINE_NUM_COEFF" "-2.999621E-8"]; g "19" [f "LINE_NUM_COEFF" "-1.049317E-6"]];
     rep "LINE_DEN_COEFF" "20" [
      g "0" [f "LINE_DEN_COEFF" "+1.000000E+0"]; g "1" [f "LINE_DEN_COEFF" "-5.210514E-3"]; g "2" [f "LINE_DEN_COEFF" "-4.132499E-3"];
      g "3" [f "LINE_DEN_COEFF" "-6.048495E-4"]; g "4" [f "LINE_DEN_COEFF" "-5.553299E-5"]; g "5" [f "LINE_DEN_COEFF" "-3.766012E-6"];
      g "6" [f "LINE_DEN_COEFF" "-8.264991E-6"]; g "7" [f "LINE_DEN_COEFF" "+2.892116E-5"]; g "8" [f "LINE_DEN_COEFF" "-1.516595E-4"];
      g "9" [f "LINE_DEN_COEFF" "+5.320691E-5"]; g "10" [f "LINE_DEN_COEFF" "-6.859532E-6"]; g "11" [f "LINE_DEN_COEFF" "-1.898968E-6"];
      g "12" [f "LINE_DEN_COEFF" "-2.098215E-4"]; g "13" [f "LINE_DEN_COEFF" "-5.094778E-7"]; g "14" [f "LINE_DEN_COEFF" "-3.142094E-5"];
      g "15" [f "LINE_DEN_COEFF" "-4.513800E-4"]; g "16" [f "LINE_DEN_COEFF" "-2.112928E-7"]; g "17" [f "LINE_DEN_COEFF" "-5.952780E-7"];
      g "18" [f "LINE_DEN_COEFF" "-2.304619E-5"]; g "19" [f "LINE_DEN_COEFF" "-5.413752E-8"]];
     rep "SAMP_NUM_COEFF" "20" [
      g "0" [f "SAMP_NUM_COEFF" "-6.780123E-3"]; g "1" [f "SAMP_NUM_COEFF" "+1.024478E+0"]; g "2" [f "SAMP_NUM_COEFF" "+2.011171E-5"];
      g "3" [f "SAMP_NUM_COEFF" "-2.239644E-2"]; g "4" [f "SAMP_NUM_COEFF" "-1.306157E-3"]; g "5" [f "SAMP_NUM_COEFF" "+1.651806E-4"];
      g "6" [f "SAMP_NUM_COEFF" "+6.467390E-5"]; g "7" [f "SAMP_NUM_COEFF" "+5.991485E-3"]; g "8" [f "SAMP_NUM_COEFF" "-1.995634E-4"];
      g "9" [f "SAMP_NUM_COEFF" "-3.633161E-6"]; g "10" [f "SAMP_NUM_COEFF" "-1.540867E-6"]; g "11" [f "SAMP_NUM_COEFF" "+1.551750E-5"];
      g "12" [f "SAMP_NUM_COEFF" "-6.259453E-5"]; g "13" [f "SAMP_NUM_COEFF" "-9.389538E-6"]; g "14" [f "SAMP_NUM_COEFF" "-4.054396E-5"];
      g "15" [f "SAMP_NUM_COEFF" "-6.342832E-5"]; g "16" [f "SAMP_NUM_COEFF" "+2.809450E-8"]; g "17" [f "SAMP_NUM_COEFF" "+2.041979E-6"];
      g "18" [f "SAMP_NUM_COEFF" "-3.292629E-6"]; g "19" [f "SAMP_NUM_COEFF" "+2.079533E-7"]];
     rep "SAMP_DEN_COEFF" "20" [
      g "0" [f "SAMP_DEN_COEFF" "+1.000000E+0"]; g "1" [f "SAMP_DEN_COEFF" "+8.111176E-4"]; g "2" [f "SAMP_DEN_COEFF" "+1.340323E-3"];
      g "3" [f "SAMP_DEN_COEFF" "-3.211588E-4"]; g "4" [f "SAMP_DEN_COEFF" "+2.661355E-5"]; g "5" [f "SAMP_DEN_COEFF" "-1.689184E-6"];
      g "6" [f "SAMP_DEN_COEFF" "+2.372103E-6"]; g "7" [f "SAMP_DEN_COEFF" "+2.060620E-6"]; g "8" [f "SAMP_DEN_COEFF" "+5.500269E-5"];
      g "9" [f "SAMP_DEN_COEFF" "-9.237594E-6"]; g "10" [f "SAMP_DEN_COEFF" "+1.666669E-7"]; g "11" [f "SAMP_DEN_COEFF" "+7.025150E-8"];
      g "12" [f "SAMP_DEN_COEFF" "+2.152491E-6"]; g "13" [f "SAMP_DEN_COEFF" "+4.632533E-8"]; g "14" [f "SAMP_DEN_COEFF" "+1.002425E-6"];
      g "15" [f "SAMP_DEN_COEFF" "+1.169637E-6"]; g "16" [f "SAMP_DEN_COEFF" "-1.738953E-8"]; g "17" [f "SAMP_DEN_COEFF" "+0.000000E+0"];
      g "18" [f "SAMP_DEN_COEFF" "+2.386543E-7"]; g "19" [f "SAMP_DEN_COEFF" "+0.000000E+0"]]];
    El "tre" [("name", "STDIDC"); ("location", "image")] [
     f "ACQUISITION_DATE" "20210726022513"; f "MISSION" "WV02"; f "PASS" "03"; f "OP_NUM" "000"; f "START_SEGMENT" "AA"; f "REPRO_NUM" "00";
     f "REPLAY_REGEN" "000"; f "START_COLUMN" "001"; f "START_ROW" "00001"; f "END_SEGMENT" "AA"; f "END_COLUMN" "009"; f "END_ROW" "00006";
     f "COUNTRY" "TW"; f "WAC" ""; f "LOCATION" "2501N12135E"];
    El "tre" [("name", "USE00A"); ("location", "image")] [
     f "ANGLE_TO_NORTH" "090"; f "MEAN_GSD" "086.1"; f "DYNAMIC_RANGE" "02046"; f "OBL_ANG" "24.03"; f "ROLL_ANG" "-21.67"; f "N_REF" "00";
     f "REV_NUM" "61900"; f "N_SEG" "001"; f "MAX_LP_SEG" "005213"; f "SUN_EL" "+67.4"; f "SUN_AZ" "099.1"];
    El "tre" [("name", "J2KLRA"); ("location", "image")] [
     f "ORIG" "2"; f "NLEVELS_O" "05"; f "NBANDS_O" "00008"; f "NLAYERS_O" "020";
     rep "LAYER" "20" [
      g "0" [f "LAYER_ID" "000"; f "BITRATE" "00.031250"]; g "1" [f "LAYER_ID" "001"; f "BITRATE" "00.062500"];
      g "2" [f "LAYER_ID" "002"; f "BITRATE" "00.125000"]; g "3" [f "LAYER_ID" "003"; f "BITRATE" "00.250000"];
      g "4" [f "LAYER_ID" "004"; f "BITRATE" "00.500000"]; g "5" [f "LAYER_ID" "005"; f "BITRATE" "00.600000"];
      g "6" [f "LAYER_ID" "006"; f "BITRATE" "00.700000"]; g "7" [f "LAYER_ID" "007"; f "BITRATE" "00.800000"];
      g "8" [f "LAYER_ID" "008"; f "BITRATE" "00.900000"]; g "9" [f "LAYER_ID" "009"; f "BITRATE" "01.000000"];
      g "10" [f "LAYER_ID" "010"; f "BITRATE" "01.100000"]; g "11" [f "LAYER_ID" "011"; f "BITRATE" "01.200000"];
      g "12" [f "LAYER_ID" "012"; f "BITRATE" "01.300000"]; g "13" [f "LAYER_ID" "013"; f "BITRATE" "01.500000"];
      g "14" [f "LAYER_ID" "014"; f "BITRATE" "01.700000"]; g "15" [f "LAYER_ID" "015"; f "BITRATE" "02.000000"];
      g "16" [f "LAYER_ID" "016"; f "BITRATE" "02.300000"]; g "17" [f "LAYER_ID" "017"; f "BITRATE" "03.500000"];
      g "18" [f "LAYER_ID" "018"; f "BITRATE" "03.900000"]; g "19" [f "LAYER_ID" "019"; f "BITRATE" "04.881277"]]];
    El "tre" [("name", "HISTOA"); ("location", "image")] [
     f "SYSTYPE" "WV02GA"; f "PC" "NONE00000000"; f "PE" "NONE"; f "REMAP_FLAG" ""; f "LUTID" "00"; f "NEVENTS" "02";
     rep "EVENT" "2" [
      g "0" [
       f "PDATE" "20210726032944"; f "PSITE" "DG"; f "PAS" "N001122920"; f "NIPCOM" "0"; f "IBPP" "11"; f "IPVTYPE" "INT"; f "INBWC" "NONE000000";
       f "DISP_FLAG" ""; f "ROT_FLAG" "0"; f "ASYM_FLAG" ""; f "PROJ_FLAG" "0"; f "SHARP_FLAG" "0"; f "MAG_FLAG" "0"; f "DRA_FLAG" "0";
       f "TTC_FLAG" "0"; f "DEVLUT_FLAG" "0"; f "OBPP" "11"; f "OPVTYPE" "INT"; f "OUTBWC" "J2NLC00000"];
      g "1" [
       f "PDATE" "20210726034341"; f "PSITE" "NDL-W"; f "PAS" "NCL14902_1"; f "NIPCOM" "1"; rep "IPCOM" "1" [g "0" [f "IPCOM" "Transcode to EPJE"]];
       f "IBPP" "11"; f "IPVTYPE" "INT"; f "INBWC" "J2NL000000"; f "DISP_FLAG" ""; f "ROT_FLAG" "0"; f "ASYM_FLAG" ""; f "PROJ_FLAG" "0";
       f "SHARP_FLAG" "0"; f "MAG_FLAG" "0"; f "DRA_FLAG" "0"; f "TTC_FLAG" "0"; f "DEVLUT_FLAG" "0"; f "OBPP" "11"; f "OPVTYPE" "INT";
       f "OUTBWC" "J2NL000000"]]];
    El "tre" [("name", "CSEPHA"); ("location", "des TRE_OVERFLOW")] [
     f "EPHEM_FLAG" "REFINED"; f "DT_EPHEM" "000.2"; f "DATE_EPHEM" "20210726"; f "T0_EPHEM" "022525.565169"; f "NUM_EPHEM" "152";
     rep "EPHEM" "152" [
      g "0" [f "X" "-03723960.79"; f "Y" "+05449554.46"; f "Z" "+02731983.07"];
      g "1" [f "X" "-03723917.81"; f "Y" "+05448898.21"; f "Z" "+02733345.45"];
      g "2" [f "X" "-03723874.64"; f "Y" "+05448241.73"; f "Z" "+02734707.72"];
      g "3" [f "X" "-03723831.29"; f "Y" "+05447585.01"; f "Z" "+02736069.86"];
      g "4" [f "X" "-03723787.76"; f "Y" "+05446928.05"; f "Z" "+02737431.89"];
      g "5" [f "X" "-03723744.05"; f "Y" "+05446270.86"; f "Z" "+02738793.79"];
      g "6" [f "X" "-03723700.16"; f "Y" "+05445613.43"; f "Z" "+02740155.57"];
      g "7" [f "X" "-03723656.08"; f "Y" "+05444955.77"; f "Z" "+02741517.23"];
      g "8" [f "X" "-03723611.83"; f "Y" "+05444297.87"; f "Z" "+02742878.78"];
      g "9" [f "X" "-03723567.39"; f "Y" "+05443639.73"; f "Z" "+02744240.20"];
      g "10" [f "X" "-03723522.77"; f "Y" "+05442981.36"; f "Z" "+02745601.50"];
      g "11" [f "X" "-03723477.97"; f "Y" "+05442322.76"; f "Z" "+02746962.68"];
      g "12" [f "X" "-03723432.99"; f "Y" "+05441663.92"; f "Z" "+02748323.74"];
      g "13" [f "X" "-03723387.83"; f "Y" "+05441004.84"; f "Z" "+02749684.67"];
      g "14" [f "X" "-03723342.49"; f "Y" "+05440345.53"; f "Z" "+02751045.49"];
      g "15" [f "X" "-03723296.96"; f "Y" "+05439685.98"; f "Z" "+02752406.18"];
      g "16" [f "X" "-03723251.26"; f "Y" "+05439026.20"; f "Z" "+02753766.76"];
      g "17" [f "X" "-03723205.37"; f "Y" "+05438366.19"; f "Z" "+02755127.21"];
      g "18" [f "X" "-03723159.30"; f "Y" "+05437705.93"; f "Z" "+02756487.54"];
      g "19" [f "X" "-03723113.05"; f "Y" "+05437045.44"; f "Z" "+02757847.75"];
      g "20" [f "X" "-03723066.62"; f "Y" "+05436384.72"; f "Z" "+02759207.84"];
      g "21" [f "X" "-03723020.01"; f "Y" "+05435723.76"; f "Z" "+02760567.81"];
      g "22" [f "X" "-03722973.21"; f "Y" "+05435062.57"; f "Z" "+02761927.66"];
      g "23" [f "X" "-03722926.24"; f "Y" "+05434401.14"; f "Z" "+02763287.38"];
      g "24" [f "X" "-03722879.08"; f "Y" "+05433739.48"; f "Z" "+02764646.98"];
      g "25" [f "X" "-03722831.74"; f "Y" "+05433077.58"; f "Z" "+02766006.46"];
      g "26" [f "X" "-03722784.22"; f "Y" "+05432415.45"; f "Z" "+02767365.82"];
      g "27" [f "X" "-03722736.52"; f "Y" "+05431753.08"; f "Z" "+02768725.06"];
      g "28" [f "X" "-03722688.64"; f "Y" "+05431090.48"; f "Z" "+02770084.18"];
      g "29" [f "X" "-03722640.58"; f "Y" "+05430427.64"; f "Z" "+02771443.17"];
      g "30" [f "X" "-03722592.33"; f "Y" "+05429764.57"; f "Z" "+02772802.04"];
      g "31" [f "X" "-03722543.90"; f "Y" "+05429101.26"; f "Z" "+02774160.79"];
      g "32" [f "X" "-03722495.30"; f "Y" "+05428437.72"; f "Z" "+02775519.42"];
      g "33" [f "X" "-03722446.51"; f "Y" "+05427773.94"; f "Z" "+02776877.92"];
      g "34" [f "X" "-03722397.54"; f "Y" "+05427109.93"; f "Z" "+02778236.31"];
      g "35" [f "X" "-03722348.38"; f "Y" "+05426445.69"; f "Z" "+02779594.57"];
      g "36" [f "X" "-03722299.05"; f "Y" "+05425781.21"; f "Z" "+02780952.70"];
      g "37" [f "X" "-03722249.53"; f "Y" "+05425116.49"; f "Z" "+02782310.72"];
      g "38" [f "X" "-03722199.84"; f "Y" "+05424451.54"; f "Z" "+02783668.61"];
      g "39" [f "X" "-03722149.96"; f "Y" "+05423786.36"; f "Z" "+02785026.38"];
      g "40" [f "X" "-03722099.90"; f "Y" "+05423120.94"; f "Z" "+02786384.03"];
      g "41" [f "X" "-03722049.66"; f "Y" "+05422455.29"; f "Z" "+02787741.56"];
      g "42" [f "X" "-03721999.24"; f "Y" "+05421789.40"; f "Z" "+02789098.96"];
      g "43" [f "X" "-03721948.63"; f "Y" "+05421123.28"; f "Z" "+02790456.24"];
      g "44" [f "X" "-03721897.85"; f "Y" "+05420456.92"; f "Z" "+02791813.40"];
      g "45" [f "X" "-03721846.88"; f "Y" "+05419790.33"; f "Z" "+02793170.43"];
      g "46" [f "X" "-03721795.73"; f "Y" "+05419123.51"; f "Z" "+02794527.34"];
      g "47" [f "X" "-03721744.40"; f "Y" "+05418456.45"; f "Z" "+02795884.13"];
      g "48" [f "X" "-03721692.89"; f "Y" "+05417789.15"; f "Z" "+02797240.80"];
      g "49" [f "X" "-03721641.20"; f "Y" "+05417121.63"; f "Z" "+02798597.34"];
      g "50" [f "X" "-03721589.32"; f "Y" "+05416453.87"; f "Z" "+02799953.76"];
      g "51" [f "X" "-03721537.27"; f "Y" "+05415785.87"; f "Z" "+02801310.05"];
      g "52" [f "X" "-03721485.03"; f "Y" "+05415117.64"; f "Z" "+02802666.23"];
      g "53" [f "X" "-03721432.61"; f "Y" "+05414449.18"; f "Z" "+02804022.28"];
      g "54" [f "X" "-03721380.01"; f "Y" "+05413780.48"; f "Z" "+02805378.20"];
      g "55" [f "X" "-03721327.23"; f "Y" "+05413111.55"; f "Z" "+02806734.00"];
      g "56" [f "X" "-03721274.27"; f "Y" "+05412442.39"; f "Z" "+02808089.68"];
      g "57" [f "X" "-03721221.12"; f "Y" "+05411772.99"; f "Z" "+02809445.24"];
      g "58" [f "X" "-03721167.79"; f "Y" "+05411103.35"; f "Z" "+02810800.67"];
      g "59" [f "X" "-03721114.29"; f "Y" "+05410433.49"; f "Z" "+02812155.98"];
      g "60" [f "X" "-03721060.60"; f "Y" "+05409763.39"; f "Z" "+02813511.16"];
      g "61" [f "X" "-03721006.73"; f "Y" "+05409093.05"; f "Z" "+02814866.22"];
      g "62" [f "X" "-03720952.67"; f "Y" "+05408422.48"; f "Z" "+02816221.16"];
      g "63" [f "X" "-03720898.44"; f "Y" "+05407751.68"; f "Z" "+02817575.97"];
      g "64" [f "X" "-03720844.02"; f "Y" "+05407080.64"; f "Z" "+02818930.66"];
      g "65" [f "X" "-03720789.43"; f "Y" "+05406409.37"; f "Z" "+02820285.23"];
      g "66" [f "X" "-03720734.65"; f "Y" "+05405737.87"; f "Z" "+02821639.67"];
      g "67" [f "X" "-03720679.69"; f "Y" "+05405066.13"; f "Z" "+02822993.99"];
      g "68" [f "X" "-03720624.54"; f "Y" "+05404394.16"; f "Z" "+02824348.19"];
      g "69" [f "X" "-03720569.22"; f "Y" "+05403721.95"; f "Z" "+02825702.26"];
      g "70" [f "X" "-03720513.71"; f "Y" "+05403049.52"; f "Z" "+02827056.21"];
      g "71" [f "X" "-03720458.03"; f "Y" "+05402376.84"; f "Z" "+02828410.03"];
      g "72" [f "X" "-03720402.16"; f "Y" "+05401703.94"; f "Z" "+02829763.73"];
      g "73" [f "X" "-03720346.11"; f "Y" "+05401030.80"; f "Z" "+02831117.30"];
      g "74" [f "X" "-03720289.88"; f "Y" "+05400357.42"; f "Z" "+02832470.76"];
      g "75" [f "X" "-03720233.46"; f "Y" "+05399683.82"; f "Z" "+02833824.08"];
      g "76" [f "X" "-03720176.87"; f "Y" "+05399009.98"; f "Z" "+02835177.28"];
      g "77" [f "X" "-03720120.09"; f "Y" "+05398335.90"; f "Z" "+02836530.36"];
      g "78" [f "X" "-03720063.13"; f "Y" "+05397661.60"; f "Z" "+02837883.32"];
      g "79" [f "X" "-03720005.99"; f "Y" "+05396987.06"; f "Z" "+02839236.15"];
      g "80" [f "X" "-03719948.67"; f "Y" "+05396312.28"; f "Z" "+02840588.85"];
      g "81" [f "X" "-03719891.17"; f "Y" "+05395637.28"; f "Z" "+02841941.43"];
      g "82" [f "X" "-03719833.48"; f "Y" "+05394962.04"; f "Z" "+02843293.88"];
      g "83" [f "X" "-03719775.61"; f "Y" "+05394286.56"; f "Z" "+02844646.22"];
      g "84" [f "X" "-03719717.57"; f "Y" "+05393610.85"; f "Z" "+02845998.42"];
      g "85" [f "X" "-03719659.34"; f "Y" "+05392934.92"; f "Z" "+02847350.50"];
      g "86" [f "X" "-03719600.92"; f "Y" "+05392258.74"; f "Z" "+02848702.46"];
      g "87" [f "X" "-03719542.33"; f "Y" "+05391582.34"; f "Z" "+02850054.29"];
      g "88" [f "X" "-03719483.56"; f "Y" "+05390905.70"; f "Z" "+02851406.00"];
      g "89" [f "X" "-03719424.60"; f "Y" "+05390228.82"; f "Z" "+02852757.58"];
      g "90" [f "X" "-03719365.46"; f "Y" "+05389551.72"; f "Z" "+02854109.03"];
      g "91" [f "X" "-03719306.14"; f "Y" "+05388874.38"; f "Z" "+02855460.36"];
      g "92" [f "X" "-03719246.64"; f "Y" "+05388196.81"; f "Z" "+02856811.57"];
      g "93" [f "X" "-03719186.95"; f "Y" "+05387519.01"; f "Z" "+02858162.65"];
      g "94" [f "X" "-03719127.09"; f "Y" "+05386840.97"; f "Z" "+02859513.60"];
      g "95" [f "X" "-03719067.04"; f "Y" "+05386162.70"; f "Z" "+02860864.43"];
      g "96" [f "X" "-03719006.81"; f "Y" "+05385484.20"; f "Z" "+02862215.13"];
      g "97" [f "X" "-03718946.40"; f "Y" "+05384805.47"; f "Z" "+02863565.71"];
      g "98" [f "X" "-03718885.81"; f "Y" "+05384126.50"; f "Z" "+02864916.16"];
      g "99" [f "X" "-03718825.04"; f "Y" "+05383447.30"; f "Z" "+02866266.49"];
      g "100" [f "X" "-03718764.08"; f "Y" "+05382767.87"; f "Z" "+02867616.68"];
      g "101" [f "X" "-03718702.94"; f "Y" "+05382088.21"; f "Z" "+02868966.76"];
      g "102" [f "X" "-03718641.63"; f "Y" "+05381408.31"; f "Z" "+02870316.70"];
      g "103" [f "X" "-03718580.12"; f "Y" "+05380728.18"; f "Z" "+02871666.52"];
      g "104" [f "X" "-03718518.44"; f "Y" "+05380047.82"; f "Z" "+02873016.22"];
      g "105" [f "X" "-03718456.58"; f "Y" "+05379367.23"; f "Z" "+02874365.78"];
      g "106" [f "X" "-03718394.53"; f "Y" "+05378686.40"; f "Z" "+02875715.22"];
      g "107" [f "X" "-03718332.30"; f "Y" "+05378005.35"; f "Z" "+02877064.54"];
      g "108" [f "X" "-03718269.89"; f "Y" "+05377324.06"; f "Z" "+02878413.72"];
      g "109" [f "X" "-03718207.30"; f "Y" "+05376642.54"; f "Z" "+02879762.78"];
      g "110" [f "X" "-03718144.53"; f "Y" "+05375960.78"; f "Z" "+02881111.72"];
      g "111" [f "X" "-03718081.58"; f "Y" "+05375278.80"; f "Z" "+02882460.53"];
      g "112" [f "X" "-03718018.44"; f "Y" "+05374596.58"; f "Z" "+02883809.21"];
      g "113" [f "X" "-03717955.12"; f "Y" "+05373914.13"; f "Z" "+02885157.76"];
      g "114" [f "X" "-03717891.62"; f "Y" "+05373231.45"; f "Z" "+02886506.18"];
      g "115" [f "X" "-03717827.94"; f "Y" "+05372548.54"; f "Z" "+02887854.48"];
      g "116" [f "X" "-03717764.07"; f "Y" "+05371865.39"; f "Z" "+02889202.66"];
      g "117" [f "X" "-03717700.03"; f "Y" "+05371182.02"; f "Z" "+02890550.70"];
      g "118" [f "X" "-03717635.80"; f "Y" "+05370498.41"; f "Z" "+02891898.62"];
      g "119" [f "X" "-03717571.39"; f "Y" "+05369814.57"; f "Z" "+02893246.41"];
      g "120" [f "X" "-03717506.80"; f "Y" "+05369130.50"; f "Z" "+02894594.07"];
      g "121" [f "X" "-03717442.03"; f "Y" "+05368446.19"; f "Z" "+02895941.61"];
      g "122" [f "X" "-03717377.08"; f "Y" "+05367761.66"; f "Z" "+02897289.02"];
      g "123" [f "X" "-03717311.94"; f "Y" "+05367076.89"; f "Z" "+02898636.30"];
      g "124" [f "X" "-03717246.62"; f "Y" "+05366391.89"; f "Z" "+02899983.45"];
      g "125" [f "X" "-03717181.12"; f "Y" "+05365706.66"; f "Z" "+02901330.48"];
      g "126" [f "X" "-03717115.44"; f "Y" "+05365021.20"; f "Z" "+02902677.37"];
      g "127" [f "X" "-03717049.58"; f "Y" "+05364335.51"; f "Z" "+02904024.14"];
      g "128" [f "X" "-03716983.53"; f "Y" "+05363649.59"; f "Z" "+02905370.79"];
      g "129" [f "X" "-03716917.30"; f "Y" "+05362963.43"; f "Z" "+02906717.30"];
      g "130" [f "X" "-03716850.89"; f "Y" "+05362277.05"; f "Z" "+02908063.69"];
      g "131" [f "X" "-03716784.30"; f "Y" "+05361590.43"; f "Z" "+02909409.95"];
      g "132" [f "X" "-03716717.53"; f "Y" "+05360903.58"; f "Z" "+02910756.08"];
      g "133" [f "X" "-03716650.58"; f "Y" "+05360216.50"; f "Z" "+02912102.08"];
      g "134" [f "X" "-03716583.44"; f "Y" "+05359529.19"; f "Z" "+02913447.95"];
      g "135" [f "X" "-03716516.12"; f "Y" "+05358841.65"; f "Z" "+02914793.70"];
      g "136" [f "X" "-03716448.62"; f "Y" "+05358153.87"; f "Z" "+02916139.32"];
      g "137" [f "X" "-03716380.94"; f "Y" "+05357465.87"; f "Z" "+02917484.81"];
      g "138" [f "X" "-03716313.08"; f "Y" "+05356777.63"; f "Z" "+02918830.17"];
      g "139" [f "X" "-03716245.03"; f "Y" "+05356089.16"; f "Z" "+02920175.40"];
      g "140" [f "X" "-03716176.80"; f "Y" "+05355400.47"; f "Z" "+02921520.50"];
      g "141" [f "X" "-03716108.39"; f "Y" "+05354711.54"; f "Z" "+02922865.48"];
      g "142" [f "X" "-03716039.80"; f "Y" "+05354022.38"; f "Z" "+02924210.33"];
      g "143" [f "X" "-03715971.03"; f "Y" "+05353332.99"; f "Z" "+02925555.04"];
      g "144" [f "X" "-03715902.07"; f "Y" "+05352643.37"; f "Z" "+02926899.63"];
      g "145" [f "X" "-03715832.94"; f "Y" "+05351953.51"; f "Z" "+02928244.09"];
      g "146" [f "X" "-03715763.62"; f "Y" "+05351263.43"; f "Z" "+02929588.43"];
      g "147" [f "X" "-03715694.12"; f "Y" "+05350573.12"; f "Z" "+02930932.63"];
      g "148" [f "X" "-03715624.43"; f "Y" "+05349882.57"; f "Z" "+02932276.70"];
      g "149" [f "X" "-03715554.57"; f "Y" "+05349191.80"; f "Z" "+02933620.65"];
      g "150" [f "X" "-03715484.52"; f "Y" "+05348500.79"; f "Z" "+02934964.46"];
      g "151" [f "X" "-03715414.30"; f "Y" "+05347809.56"; f "Z" "+02936308.15"]]];
    El "tre" [("name", "CSSFAA"); ("location", "des TRE_OVERFLOW")] [
     f "NUM_BANDS" "8";
     rep "BAND" "8" [
      g "0" [
       f "BAND_TYPE" ""; f "BAND_ID" "427"; f "FOC_LENGTH" "13246.13900"; f "NUM_DAP" "00000001"; f "NUM_FIR" "00000001"; f "DELTA" "0008820";
       f "OPPOFF_X" "+000.00"; f "OPPOFF_Y" "+000.00"; f "OPPOFF_Z" "+000.00"; f "START_X" "+00000.2590"; f "START_Y" "+00141.0815";
       f "FINISH_X" "+00000.2590"; f "FINISH_Y" "-00141.1265"];
      g "1" [
       f "BAND_TYPE" "B"; f "BAND_ID" "478.5"; f "FOC_LENGTH" "13246.13900"; f "NUM_DAP" "00000001"; f "NUM_FIR" "00000001"; f "DELTA" "0008820";
       f "OPPOFF_X" "+000.00"; f "OPPOFF_Y" "+000.00"; f "OPPOFF_Z" "+000.00"; f "START_X" "+00000.2590"; f "START_Y" "+00141.0815";
       f "FINISH_X" "+00000.2590"; f "FINISH_Y" "-00141.1265"];
      g "2" [
       f "BAND_TYPE" "G"; f "BAND_ID" "546"; f "FOC_LENGTH" "13246.13900"; f "NUM_DAP" "00000001"; f "NUM_FIR" "00000001"; f "DELTA" "0008820";
       f "OPPOFF_X" "+000.00"; f "OPPOFF_Y" "+000.00"; f "OPPOFF_Z" "+000.00"; f "START_X" "+00000.2590"; f "START_Y" "+00141.0815";
       f "FINISH_X" "+00000.2590"; f "FINISH_Y" "-00141.1265"];
      g "3" [
       f "BAND_TYPE" ""; f "BAND_ID" "608"; f "FOC_LENGTH" "13246.13900"; f "NUM_DAP" "00000001"; f "NUM_FIR" "00000001"; f "DELTA" "0008820";
       f "OPPOFF_X" "+000.00"; f "OPPOFF_Y" "+000.00"; f "OPPOFF_Z" "+000.00"; f "START_X" "+00000.2590"; f "START_Y" "+00141.0815";
       f "FINISH_X" "+00000.2590"; f "FINISH_Y" "-00141.1265"];
      g "4" [
       f "BAND_TYPE" "R"; f "BAND_ID" "659"; f "FOC_LENGTH" "13246.13900"; f "NUM_DAP" "00000001"; f "NUM_FIR" "00000001"; f "DELTA" "0008820";
       f "OPPOFF_X" "+000.00"; f "OPPOFF_Y" "+000.00"; f "OPPOFF_Z" "+000.00"; f "START_X" "+00000.2590"; f "START_Y" "+00141.0815";
       f "FINISH_X" "+00000.2590"; f "FINISH_Y" "-00141.1265"];
      g "5" [
       f "BAND_TYPE" ""; f "BAND_ID" "724"; f "FOC_LENGTH" "13246.13900"; f "NUM_DAP" "00000001"; f "NUM_FIR" "00000001"; f "DELTA" "0008820";
       f "OPPOFF_X" "+000.00"; f "OPPOFF_Y" "+000.00"; f "OPPOFF_Z" "+000.00"; f "START_X" "+00000.2590"; f "START_Y" "+00141.0815";
       f "FINISH_X" "+00000.2590"; f "FINISH_Y" "-00141.1265"];
      g "6" [
       f "BAND_TYPE" "N"; f "BAND_ID" "833"; f "FOC_LENGTH" "13246.13900"; f "NUM_DAP" "00000001"; f "NUM_FIR" "00000001"; f "DELTA" "0008820";
       f "OPPOFF_X" "+000.00"; f "OPPOFF_Y" "+000.00"; f "OPPOFF_Z" "+000.00"; f "START_X" "+00000.2590"; f "START_Y" "+00141.0815";
       f "FINISH_X" "+00000.2590"; f "FINISH_Y" "-00141.1265"];
      g "7" [
       f "BAND_TYPE" ""; f "BAND_ID" "949.5"; f "FOC_LENGTH" "13246.13900"; f "NUM_DAP" "00000001"; f "NUM_FIR" "00000001"; f "DELTA" "0008820";
       f "OPPOFF_X" "+000.00"; f "OPPOFF_Y" "+000.00"; f "OPPOFF_Z" "+000.00"; f "START_X" "+00000.2590"; f "START_Y" "+00141.0815";
       f "FINISH_X" "+00000.2590"; f "FINISH_Y" "-00141.1265"]]]].

(** test/data/sample-metadata-rpc00b-ichipb.xml. *)
Definition tres_rpc00b_ichipb : Element :=
  El "tres" [] [
    El "tre" [("name", "RPC00B"); ("location", "des TRE_OVERFLOW")] [
     f "SUCCESS" "1"; f "ERR_BIAS" "0017.97"; f "ERR_RAND" "0000.14"; f "LINE_OFF" "013230"; f "SAMP_OFF" "14448"; f "LAT_OFF" "+33.3717";
     f "LONG_OFF" "+044.3517"; f "HEIGHT_OFF" "+0031"; f "LINE_SCALE" "013230"; f "SAMP_SCALE" "14448"; f "LAT_SCALE" "+00.0834";
     f "LONG_SCALE" "+000.0911"; f "HEIGHT_SCALE" "+0500";
     rep "LINE_NUM_COEFF" "20" [
      g "0" [f "LINE_NUM_COEFF" "+0.107799E-2"]; g "1" [f "LINE_NUM_COEFF" "+0.000000E+0"]; g "2" [f "LINE_NUM_COEFF" "-0.100061E+1"];
      g "3" [f "LINE_NUM_COEFF" "+0.000000E+0"]; g "4" [f "LINE_NUM_COEFF" "+0.000000E+0"]; g "5" [f "LINE_NUM_COEFF" "+0.000000E+0"];
      g "6" [f "LINE_NUM_COEFF" "+0.000000E+0"]; g "7" [f "LINE_NUM_COEFF" "+0.000000E+0"]; g "8" [f "LINE_NUM_COEFF" "-0.539327E-3"];
      g "9" [f "LINE_NUM_COEFF" "+0.000000E+0"]; g "10" [f "LINE_NUM_COEFF" "+0.000000E+0"]; g "11" [f "LINE_NUM_COEFF" "+0.000000E+0"];
      g "12" [f "LINE_NUM_COEFF" "+0.000000E+0"]; g "13" [f "LINE_NUM_COEFF" "+0.000000E+0"]; g "14" [f "LINE_NUM_COEFF" "+0.000000E+0"];
      g "15" [f "LINE_NUM_COEFF" "-0.290697E-6"]; g "16" [f "LINE_NUM_COEFF" "+0.000000E+0"]; g "17" [f "LINE_NUM_COEFF" "+0.000000E+0"];
      g "18" [f "LINE_NUM_COEFF" "+0.000000E+0"]; g "19" [f "LINE_NUM_COEFF" "+0.000000E+0"]];
     rep "LINE_DEN_COEFF" "20" [
      g "0" [f "LINE_DEN_COEFF" "+0.100000E+1"]; g "1" [f "LINE_DEN_COEFF" "+0.000000E+0"]; g "2" [f "LINE_DEN_COEFF" "+0.538998E-3"];
      g "3" [f "LINE_DEN_COEFF" "+0.000000E+0"]; g "4" [f "LINE_DEN_COEFF" "+0.000000E+0"]; g "5" [f "LINE_DEN_COEFF" "+0.000000E+0"];
      g "6" [f "LINE_DEN_COEFF" "+0.000000E+0"]; g "7" [f "LINE_DEN_COEFF" "+0.000000E+0"]; g "8" [f "LINE_DEN_COEFF" "+0.290519E-6"];
      g "9" [f "LINE_DEN_COEFF" "+0.000000E+0"]; g "10" [f "LINE_DEN_COEFF" "+0.000000E+0"]; g "11" [f "LINE_DEN_COEFF" "+0.000000E+0"];
      g "12" [f "LINE_DEN_COEFF" "+0.000000E+0"]; g "13" [f "LINE_DEN_COEFF" "+0.000000E+0"]; g "14" [f "LINE_DEN_COEFF" "+0.000000E+0"];
      g "15" [f "LINE_DEN_COEFF" "+0.000000E+0"]; g "16" [f "LINE_DEN_COEFF" "+0.000000E+0"]; g "17" [f "LINE_DEN_COEFF" "+0.000000E+0"];
      g "18" [f "LINE_DEN_COEFF" "+0.000000E+0"]; g "19" [f "LINE_DEN_COEFF" "+0.000000E+0"]];
     rep "SAMP_NUM_COEFF" "20" [
      g "0" [f "SAMP_NUM_COEFF" "-0.285094E-3"]; g "1" [f "SAMP_NUM_COEFF" "+0.100085E+1"]; g "2" [f "SAMP_NUM_COEFF" "+0.000000E+0"];
      g "3" [f "SAMP_NUM_COEFF" "+0.000000E+0"]; g "4" [f "SAMP_NUM_COEFF" "+0.000000E+0"]; g "5" [f "SAMP_NUM_COEFF" "+0.000000E+0"];
      g "6" [f "SAMP_NUM_COEFF" "+0.000000E+0"]; g "7" [f "SAMP_NUM_COEFF" "+0.142668E-3"]; g "8" [f "SAMP_NUM_COEFF" "+0.000000E+0"];
      g "9" [f "SAMP_NUM_COEFF" "+0.000000E+0"]; g "10" [f "SAMP_NUM_COEFF" "+0.000000E+0"]; g "11" [f "SAMP_NUM_COEFF" "+0.203371E-7"];
      g "12" [f "SAMP_NUM_COEFF" "+0.000000E+0"]; g "13" [f "SAMP_NUM_COEFF" "+0.000000E+0"]; g "14" [f "SAMP_NUM_COEFF" "+0.000000E+0"];
      g "15" [f "SAMP_NUM_COEFF" "+0.000000E+0"]; g "16" [f "SAMP_NUM_COEFF" "+0.000000E+0"]; g "17" [f "SAMP_NUM_COEFF" "+0.000000E+0"];
      g "18" [f "SAMP_NUM_COEFF" "+0.000000E+0"]; g "19" [f "SAMP_NUM_COEFF" "+0.000000E+0"]];
     rep "SAMP_DEN_COEFF" "20" [
      g "0" [f "SAMP_DEN_COEFF" "+0.100000E+1"]; g "1" [f "SAMP_DEN_COEFF" "+0.142547E-3"]; g "2" [f "SAMP_DEN_COEFF" "+0.000000E+0"];
      g "3" [f "SAMP_DEN_COEFF" "+0.000000E+0"]; g "4" [f "SAMP_DEN_COEFF" "+0.000000E+0"]; g "5" [f "SAMP_DEN_COEFF" "+0.000000E+0"];
      g "6" [f "SAMP_DEN_COEFF" "+0.000000E+0"]; g "7" [f "SAMP_DEN_COEFF" "+0.203196E-7"]; g "8" [f "SAMP_DEN_COEFF" "+0.000000E+0"];
      g "9" [f "SAMP_DEN_COEFF" "+0.000000E+0"]; g "10" [f "SAMP_DEN_COEFF" "+0.000000E+0"]; g "11" [f "SAMP_DEN_COEFF" "+0.000000E+0"];
      g "12" [f "SAMP_DEN_COEFF" "+0.000000E+0"]; g "13" [f "SAMP_DEN_COEFF" "+0.000000E+0"]; g "14" [f "SAMP_DEN_COEFF" "+0.000000E+0"];
      g "15" [f "SAMP_DEN_COEFF" "+0.000000E+0"]; g "16" [f "SAMP_DEN_COEFF" "+0.000000E+0"]; g "17" [f "SAMP_DEN_COEFF" "+0.000000E+0"];
      g "18" [f "SAMP_DEN_COEFF" "+0.000000E+0"]; g "19" [f "SAMP_DEN_COEFF" "+0.000000E+0"]]];
    El "tre" [("name", "ICHIPB"); ("location", "des TRE_OVERFLOW")] [
     f "XFRM_FLAG" "00"; f "SCALE_FACTOR" "0001.00000"; f "ANAMRPH_CORR" "00"; f "SCANBLK_NUM" "00"; f "OP_ROW_11" "00000000.500";
     f "OP_COL_11" "00000000.500"; f "OP_ROW_12" "00000000.500"; f "OP_COL_12" "00000511.500"; f "OP_ROW_21" "00000511.500";
     f "OP_COL_21" "00000000.500"; f "OP_ROW_22" "00000511.500"; f "OP_COL_22" "00000511.500"; f "FI_ROW_11" "00014336.500";
     f "FI_COL_11" "00014336.500"; f "FI_ROW_12" "00014336.500"; f "FI_COL_12" "00014847.500"; f "FI_ROW_21" "00014847.500";
     f "FI_COL_21" "00014336.500"; f "FI_ROW_22" "00014847.500"; f "FI_COL_22" "00014847.500"; f "FI_ROW" "00026464"; f "FI_COL" "00028900"]].

(** test/data/sample-metadata-cscrna.xml. *)
Definition tres_cscrna : Element :=
  El "tres" [] [
    El "tre" [("name", "CSCRNA"); ("location", "image")] [
     f "PREDICT_CORNERS" "Y"; f "ULCNR_LAT" "+26.56989"; f "ULCNR_LONG" "+119.76788"; f "ULCNR_HT" "+00124.8"; f "URCNR_LAT" "+26.55140";
     f "URCNR_LONG" "+120.02523"; f "URCNR_HT" "+00012.0"; f "LRCNR_LAT" "+26.49186"; f "LRCNR_LONG" "+120.02524"; f "LRCNR_HT" "+00027.0";
     f "LLCNR_LAT" "+26.50850"; f "LLCNR_LONG" "+119.76862"; f "LLCNR_HT" "+00198.7"]].

(** test/data/i_6130a_truncated_tres.xml. *)
Definition tres_rsm : Element :=
  El "tres" [] [
    El "tre" [("name", "RSMDCA"); ("location", "des TRE_OVERFLOW")] [
     f "IID" "2_8"; f "EDITION" "1101222272-2"; f "TID" "1101222272-1"; f "NPAR" "06"; f "NIMGE" "001"; f "NPART" "00006";
     rep "IMAGE" "1" [g "0" [f "IID" "2_8"; f "NPARI" "06"]]; f "XUOL" "-2.42965895449297E+06"; f "YUOL" "-4.76049894293300E+06";
     f "ZUOL" "+3.46898407315533E+06"; f "XUXL" "+8.90698769551156E-01"; f "XUYL" "+2.48664813021570E-01"; f "XUZL" "-3.80554217799520E-01";
     f "YUXL" "-4.54593996792805E-01"; f "YUYL" "+4.87215943350720E-01"; f "YUZL" "-7.45630553709282E-01"; f "ZUXL" "+0.00000000000000E+00";
     f "ZUYL" "+8.37129879594448E-01"; f "ZUZL" "+5.47004172461403E-01"; f "IRO" ""; f "IRX" ""; f "IRY" ""; f "IRZ" ""; f "IRXX" ""; f "IRXY" "";
     f "IRXZ" ""; f "IRYY" ""; f "IRYZ" ""; f "IRZZ" ""; f "IC0" ""; f "ICX" ""; f "ICY" ""; f "ICZ" ""; f "ICXX" ""; f "ICXY" ""; f "ICXZ" "";
     f "ICYY" ""; f "ICYZ" ""; f "ICZZ" ""; f "GXO" "01"; f "GYO" "02"; f "GZO" "03"; f "GXR" "04"; f "GYR" "05"; f "GZR" "06"; f "GS" "";
     f "GXX" ""; f "GXY" ""; f "GXZ" ""; f "GYX" ""; f "GYY" ""; f "GYZ" ""; f "GZX" ""; f "GZY" ""; f "GZZ" "";
     rep "DERCOV" "21" [
      g "0" [f "DERCOV" "+5.77388827727787E+04"]; g "1" [f "DERCOV" "+2.60049315375747E+03"]; g "2" [f "DERCOV" "+3.19928338117848E+03"];
      g "3" [f "DERCOV" "-1.31174811541913E+00"]; g "4" [f "DERCOV" "+2.20596677933116E+01"]; g "5" [f "DERCOV" "-2.84031890108660E+00"];
      g "6" [f "DERCOV" "+5.11824419774739E+04"]; g "7" [f "DERCOV" "+1.11777635517993E+03"]; g "8" [f "DERCOV" "-1.93235228164728E+01"];
      g "9" [f "DERCOV" "+1.74818259318562E+00"]; g "10" [f "DERCOV" "+7.06800879909857E+00"]; g "11" [f "DERCOV" "+1.75094830424667E+04"];
      g "12" [f "DERCOV" "-1.51827591855326E+00"]; g "13" [f "DERCOV" "+2.88288601417383E+00"]; g "14" [f "DERCOV" "-3.57854210117485E-01"];
      g "15" [f "DERCOV" "+9.21252244533737E-03"]; g "16" [f "DERCOV" "-1.05784554995790E-03"]; g "17" [f "DERCOV" "-3.62502042683891E-03"];
      g "18" [f "DERCOV" "+1.04702372207584E-02"]; g "19" [f "DERCOV" "-1.05046419207449E-03"]; g "20" [f "DERCOV" "+1.14369570920252E-02"]]];
    El "tre" [("name", "RSMECA"); ("location", "des TRE_OVERFLOW")] [
     f "IID" "2_8"; f "EDITION" "1101222272-2"; f "TID" "1101222272-1"; f "INCLIC" "Y"; f "INCLUC" "N"; f "NPAR" "06"; f "NPARO" "07"; f "IGN" "01";
     f "CVDATE" ""; f "XUOL" "-2.42965895449297E+06"; f "YUOL" "-4.76049894293300E+06"; f "ZUOL" "+3.46898407315533E+06";
     f "XUXL" "+8.90698769551156E-01"; f "XUYL" "+2.48664813021570E-01"; f "XUZL" "-3.80554217799520E-01"; f "YUXL" "-4.54593996792805E-01";
     f "YUYL" "+4.87215943350720E-01"; f "YUZL" "-7.45630553709282E-01"; f "ZUXL" "+0.00000000000000E+00"; f "ZUYL" "+8.37129879594448E-01";
     f "ZUZL" "+5.47004172461403E-01"; f "IRO" ""; f "IRX" ""; f "IRY" ""; f "IRZ" ""; f "IRXX" ""; f "IRXY" ""; f "IRXZ" ""; f "IRYY" "";
     f "IRYZ" ""; f "IRZZ" ""; f "IC0" ""; f "ICX" ""; f "ICY" ""; f "ICZ" ""; f "ICXX" ""; f "ICXY" ""; f "ICXZ" ""; f "ICYY" ""; f "ICYZ" "";
     f "ICZZ" ""; f "GXO" "01"; f "GYO" "02"; f "GZO" "03"; f "GXR" "04"; f "GYR" "05"; f "GZR" "06"; f "GS" ""; f "GXX" ""; f "GXY" ""; f "GXZ" "";
     f "GYX" ""; f "GYY" ""; f "GYZ" ""; f "GZX" ""; f "GZY" ""; f "GZZ" "";
     rep "IG" "1" [
      g "0" [
       f "NUMOPG" "07";
       rep "EG" "28" [
        g "0" [f "ERRCVG" "+1.00000000000000E+04"]; g "1" [f "ERRCVG" "+0.00000000000000E+00"]; g "2" [f "ERRCVG" "+0.00000000000000E+00"];
        g "3" [f "ERRCVG" "+0.00000000000000E+00"]; g "4" [f "ERRCVG" "+0.00000000000000E+00"]; g "5" [f "ERRCVG" "+0.00000000000000E+00"];
        g "6" [f "ERRCVG" "+0.00000000000000E+00"]; g "7" [f "ERRCVG" "+1.00000000000000E+04"]; g "8" [f "ERRCVG" "+0.00000000000000E+00"];
        g "9" [f "ERRCVG" "+0.00000000000000E+00"]; g "10" [f "ERRCVG" "+0.00000000000000E+00"]; g "11" [f "ERRCVG" "+0.00000000000000E+00"];
        g "12" [f "ERRCVG" "+0.00000000000000E+00"]; g "13" [f "ERRCVG" "+1.00000000000000E+04"]; g "14" [f "ERRCVG" "+0.00000000000000E+00"];
        g "15" [f "ERRCVG" "+0.00000000000000E+00"]; g "16" [f "ERRCVG" "+0.00000000000000E+00"]; g "17" [f "ERRCVG" "+0.00000000000000E+00"];
        g "18" [f "ERRCVG" "+1.00000000000000E-02"]; g "19" [f "ERRCVG" "+0.00000000000000E+00"]; g "20" [f "ERRCVG" "+0.00000000000000E+00"];
        g "21" [f "ERRCVG" "+0.00000000000000E+00"]; g "22" [f "ERRCVG" "+1.00000000000000E-02"]; g "23" [f "ERRCVG" "+0.00000000000000E+00"];
        g "24" [f "ERRCVG" "+0.00000000000000E+00"]; g "25" [f "ERRCVG" "+1.00000000000000E-02"]; g "26" [f "ERRCVG" "+0.00000000000000E+00"];
        g "27" [f "ERRCVG" "+1.00000000000000E-02"]];
       f "TCDF" "1"; f "NCSEG" "2";
       rep "CORSEG" "2" [
        g "0" [f "CORSEG" "+1.00000000000000E+00"; f "TAUSEG" "+0.00000000000000E+00"];
        g "1" [f "CORSEG" "+0.00000000000000E+00"; f "TAUSEG" "+1.00000000000000E-07"]]]];
     rep "MAP" "42" [
      g "0" [f "MAP" "-1.00008176833852E+00"]; g "1" [f "MAP" "-1.11437111194167E-05"]; g "2" [f "MAP" "-2.10928468971611E-04"];
      g "3" [f "MAP" "+5.63463890093240E+02"]; g "4" [f "MAP" "+2.10378945726364E+03"]; g "5" [f "MAP" "-2.41578874722478E-01"];
      g "6" [f "MAP" "+1.74077554574873E+02"]; g "7" [f "MAP" "+1.31005883607607E-05"]; g "8" [f "MAP" "-9.99948437979009E-01"];
      g "9" [f "MAP" "-1.72134893831482E-04"]; g "10" [f "MAP" "-1.91914100398291E+03"]; g "11" [f "MAP" "+6.18659653597604E+02"];
      g "12" [f "MAP" "-2.05410691498182E-01"]; g "13" [f "MAP" "+2.29140321587218E+02"]; g "14" [f "MAP" "-1.88000374720331E-05"];
      g "15" [f "MAP" "+1.33640873294927E-05"]; g "16" [f "MAP" "-9.96994960856037E-01"]; g "17" [f "MAP" "+6.54111494045653E+01"];
      g "18" [f "MAP" "+6.28462636194570E+01"]; g "19" [f "MAP" "-7.12623476845529E-01"]; g "20" [f "MAP" "+8.65286410729262E+02"];
      g "21" [f "MAP" "+8.15131122853020E-10"]; g "22" [f "MAP" "+5.09474138589725E-09"]; g "23" [f "MAP" "+1.98482385443210E-07"];
      g "24" [f "MAP" "+8.89408128622832E-01"]; g "25" [f "MAP" "-2.82198392231150E-01"]; g "26" [f "MAP" "-3.58263953168625E-02"];
      g "27" [f "MAP" "-2.22004330300662E-01"]; g "28" [f "MAP" "+7.69281402473103E-09"]; g "29" [f "MAP" "+5.64817629532889E-11"];
      g "30" [f "MAP" "-2.27099775858959E-07"]; g "31" [f "MAP" "+2.48154450641811E-01"]; g "32" [f "MAP" "+9.61895506456725E-01"];
      g "33" [f "MAP" "+2.26849271978781E-02"]; g "34" [f "MAP" "+2.44306094490897E-01"]; g "35" [f "MAP" "+4.71499538150666E-09"];
      g "36" [f "MAP" "+3.43903372974882E-09"]; g "37" [f "MAP" "+5.91159234969748E-09"]; g "38" [f "MAP" "-3.79954994290064E-01"];
      g "39" [f "MAP" "-3.23458982189980E-02"]; g "40" [f "MAP" "+9.99096719019677E-01"]; g "41" [f "MAP" "-9.45517636383226E-03"]]];
    El "tre" [("name", "RSMIDA"); ("location", "des TRE_OVERFLOW")] [
     f "IID" "2_8"; f "EDITION" "1101222272-2"; f "ISID" ""; f "SID" ""; f "STID" "FRAME"; f "YEAR" "1970"; f "MONTH" "01"; f "DAY" "01";
     f "HOUR" "00"; f "MINUTE" "00"; f "SECOND" "00.000000"; f "NRG" ""; f "NCG" ""; f "TRG" ""; f "TCG" ""; f "GRNDD" "R";
     f "XUOR" "-2.42965895449297E+06"; f "YUOR" "-4.76049894293300E+06"; f "ZUOR" "+3.46898407315533E+06"; f "XUXR" "+8.90233155120443E-01";
     f "XUYR" "+2.50327118321895E-01"; f "XUZR" "-3.80553890213932E-01"; f "YUXR" "-4.55502457571841E-01"; f "YUYR" "+4.86367706250322E-01";
     f "YUZR" "-7.45629911861651E-01"; f "ZUXR" "-1.56226448294838E-03"; f "ZUYR" "+8.37127701219746E-01"; f "ZUZR" "+5.47005275276417E-01";
     f "V1X" "+3.60917770743581E+01"; f "V1Y" "-2.28824840001127E+01"; f "V1Z" "-9.99992874460703E+02"; f "V2X" "+5.18884362473253E+03";
     f "V2Y" "-2.87450036723962E+01"; f "V2Z" "-1.00211587769373E+03"; f "V3X" "+3.79919348686812E+01"; f "V3Y" "+4.59734548268640E+03";
     f "V3Z" "-1.00166489059808E+03"; f "V4X" "+5.01402740997898E+03"; f "V4Y" "+4.85440104533856E+03"; f "V4Z" "-1.00381011450997E+03";
     f "V5X" "-3.60920649717823E+01"; f "V5Y" "+2.28826665274178E+01"; f "V5Z" "+1.00000085119816E+03"; f "V6X" "+1.88541350122103E+03";
     f "V6Y" "+2.07081675817197E+01"; f "V6Z" "+9.99720731314608E+02"; f "V7X" "-3.53972599523443E+01"; f "V7Y" "+1.74601545186290E+03";
     f "V7Z" "+9.99761368681871E+02"; f "V8X" "+1.81960288385246E+03"; f "V8Y" "+1.84110851608994E+03"; f "V8Z" "+9.99477441903243E+02";
     f "GRPX" ""; f "GRPY" ""; f "GRPZ" ""; f "FULLR" ""; f "FULLC" ""; f "MINR" "00000000"; f "MAXR" "00009292"; f "MINC" "00000000";
     f "MAXC" "00009122"; f "IE0" ""; f "IER" ""; f "IEC" ""; f "IERR" ""; f "IERC" ""; f "IECC" ""; f "IA0" ""; f "IAR" ""; f "IAC" "";
     f "IARR" ""; f "IARC" ""; f "IACC" ""; f "SPX" ""; f "SVX" ""; f "SAX" ""; f "SPY" ""; f "SVY" ""; f "SAY" ""; f "SPZ" ""; f "SVZ" "";
     f "SAZ" ""];
    El "tre" [("name", "RSMPCA"); ("location", "des TRE_OVERFLOW")] [
     f "IID" "2_8"; f "EDITION" "1101222272-2"; f "RSN" "001"; f "CSN" "001"; f "RFEP" "+3.98498860405865E-09"; f "CFEP" "+3.63668781918539E-09";
     f "RNRMO" "+4.64600000000000E+03"; f "CNRMO" "+4.56100000000000E+03"; f "XNRMO" "+2.65571142640788E+03"; f "YNRMO" "+2.40732324869712E+03";
     f "ZNRMO" "-2.33161661728923E+00"; f "RNRMSF" "+5.59920000000000E+03"; f "CNRMSF" "+5.49720000000000E+03"; f "XNRMSF" "+3.11793659470231E+03";
     f "YNRMSF" "+2.96084811268529E+03"; f "ZNRMSF" "+1.00233148808220E+03"; f "RNPWRX" "1"; f "RNPWRY" "1"; f "RNPWRZ" "1"; f "RNTRMS" "008";
     rep "RNPCF" "8" [
      g "0" [f "RNPCF" "+4.63481151803541E-01"]; g "1" [f "RNPCF" "+1.47720153582094E+00"]; g "2" [f "RNPCF" "+2.45032267644299E-02"];
      g "3" [f "RNPCF" "+0.00000000000000E+00"]; g "4" [f "RNPCF" "+3.89362443002779E-01"]; g "5" [f "RNPCF" "+0.00000000000000E+00"];
      g "6" [f "RNPCF" "+0.00000000000000E+00"]; g "7" [f "RNPCF" "+0.00000000000000E+00"]];
     f "RDPWRX" "1"; f "RDPWRY" "1"; f "RDPWRZ" "1"; f "RDTRMS" "008";
     rep "RDPCF" "8" [
      g "0" [f "RDPCF" "+1.00000000000000E+00"]; g "1" [f "RDPCF" "+5.02862720499332E-02"]; g "2" [f "RDPCF" "-3.02226608403966E-02"];
      g "3" [f "RDPCF" "+0.00000000000000E+00"]; g "4" [f "RDPCF" "-4.48001662401358E-01"]; g "5" [f "RDPCF" "+0.00000000000000E+00"];
      g "6" [f "RDPCF" "+0.00000000000000E+00"]; g "7" [f "RDPCF" "+0.00000000000000E+00"]];
     f "CNPWRX" "1"; f "CNPWRY" "1"; f "CNPWRZ" "1"; f "CNTRMS" "008";
     rep "CNPCF" "8" [
      g "0" [f "CNPCF" "+3.66773732052461E-01"]; g "1" [f "CNPCF" "-3.99759610583925E-02"]; g "2" [f "CNPCF" "+1.49479106149881E+00"];
      g "3" [f "CNPCF" "+0.00000000000000E+00"]; g "4" [f "CNPCF" "+3.60340008196375E-01"]; g "5" [f "CNPCF" "+0.00000000000000E+00"];
      g "6" [f "CNPCF" "+0.00000000000000E+00"]; g "7" [f "CNPCF" "+0.00000000000000E+00"]];
     f "CDPWRX" "1"; f "CDPWRY" "1"; f "CDPWRZ" "1"; f "CDTRMS" "008";
     rep "CDPCF" "8" [
      g "0" [f "CDPCF" "+1.00000000000000E+00"]; g "1" [f "CDPCF" "+5.02862720498340E-02"]; g "2" [f "CDPCF" "-3.02226608402894E-02"];
      g "3" [f "CDPCF" "+0.00000000000000E+00"]; g "4" [f "CDPCF" "-4.48001662401429E-01"]; g "5" [f "CDPCF" "+0.00000000000000E+00"];
      g "6" [f "CDPCF" "+0.00000000000000E+00"]; g "7" [f "CDPCF" "+0.00000000000000E+00"]]]].
