(** What the sensor model builders should read of the example documents (test/data/sicd and
    test/data/sidd), taken from these files by the names of the elements: test vectors for C97. *)
Require Import ZArith Reals String List.
Require Import Verif.Base Verif.Vec Verif.SicdModel Verif.SarMetaModel Verif.SchemaModel Verif.SchemaSpec Verif.SchemaCheck Verif.SarDocModel Verif.ExampleDocs.
Import ListNotations.
Local Open Scope string_scope.
Local Open Scope Z_scope.

(** test/data/sicd/example.sicd121.pfa.xml. *)
Definition expected_pfa (num : Decimal -> R) : SicdMeta :=
  mkSicdMeta (mkImageData 1494 1723 0 0) 747 861
    (mkVec (num (6378137, 0)) (num (0, 0)) (num (0, 0)))
    (mkVec (num ((-50000122375786304), (-17))) (num ((-15037583977714006), (-17))) (num ((-8528692064148875), (-16))))
    (mkVec (num ((-13518643844872713), (-17))) (num (98628938466763816, (-17))) (num ((-94646059985916131), (-18))))
    (num (88229809656554448, (-17))) (num (8788669876603048, (-16)))
    (mkPoly2 [mkCoef2 (num (16800674762530383, (-16))) 0 0] 0 0)
    (mkXyzPoly 
    (mkPoly1 [mkCoef1 (num (72281279124448663, (-10))) 0; mkCoef1 (num (35253242998756502, (-14))) 1; mkCoef1 (num ((-35891719134975157), (-16))) 2; mkCoef1 (num ((-57694198643316104), (-21))) 3; mkCoef1 (num (27699968593303768, (-23))) 4; mkCoef1 (num (21592636134572539, (-25))) 5] 5) 
    (mkPoly1 [mkCoef1 (num (26812991744542622, (-11))) 0; mkCoef1 (num ((-73323823879634392), (-13))) 1; mkCoef1 (num ((-13313219332893028), (-17))) 2; mkCoef1 (num (12135963117010783, (-19))) 3; mkCoef1 (num (10196690368353028, (-24))) 4; mkCoef1 (num (13607911396273635, (-27))) 5] 5) 
    (mkPoly1 [mkCoef1 (num (14515274824241539, (-10))) 0; mkCoef1 (num ((-40108990372640221), (-14))) 1; mkCoef1 (num ((-72076439428225647), (-17))) 2; mkCoef1 (num (66511087447480695, (-21))) 3; mkCoef1 (num (56690990559856781, (-24))) 4; mkCoef1 (num (32123861103114586, (-26))) 5] 5))
    RGAZIM AlgoPFA
    (Some (mkPfaMeta (mkVec (num (1, 0)) (num (0, 0)) (num (0, 0)))
    (mkPoly1 [mkCoef1 (num ((-71413060968959627), (-19))) 0; mkCoef1 (num (4245118151048095, (-18))) 1; mkCoef1 (num (3303261280436797, (-21))) 2; mkCoef1 (num ((-2152475729568344), (-23))) 3; mkCoef1 (num ((-55340201006749593), (-27))) 4; mkCoef1 (num (16174039129702326, (-29))) 5; mkCoef1 (num (12038148814517427, (-31))) 6; mkCoef1 (num ((-10008410326624715), (-32))) 7; mkCoef1 (num (16819824323114349, (-33))) 8; mkCoef1 (num ((-11931290667377136), (-34))) 9] 9)
    (mkPoly1 [mkCoef1 (num (99999143699142279, (-17))) 0; mkCoef1 (num (21389170906735031, (-21))) 1; mkCoef1 (num (51388964320644458, (-18))) 2; mkCoef1 (num (48322065140747042, (-19))) 3; mkCoef1 (num ((-20014437732713723), (-18))) 4; mkCoef1 (num (23716850734943114, (-19))) 5; mkCoef1 (num (14153200650672734, (-17))) 6; mkCoef1 (num (45834686287659396, (-16))) 7; mkCoef1 (num ((-13950901983623608), (-13))) 8] 8)))
    None
    None
    (mkVec (num (72287100595508879, (-10))) (num (25581065024467336, (-11))) (num (14508515901888732, (-10))))
    (mkVec (num (34047184478328006, (-14))) (num ((-73328194533174392), (-13))) (num ((-4035112050640754), (-13)))) "L".

(** test/data/sicd/example.sicd121.rma.xml. *)
Definition expected_rma (num : Decimal -> R) : SicdMeta :=
  mkSicdMeta (mkImageData 1491 1773 0 0) 745 886
    (mkVec (num (63781370, (-1))) (num (0, (-1))) (num (0, (-1))))
    (mkVec (num ((-4999996777623892), (-16))) (num ((-15037599477345914), (-17))) (num ((-8528700852344376), (-16))))
    (mkVec (num ((-1351875076070428), (-16))) (num (9862892688060626, (-16))) (num ((-946457389429345), (-16))))
    (num (8764718936120963, (-16))) (num (8384934792671196, (-16)))
    (mkPoly2 [mkCoef2 (num (16800674834531517, (-16))) 0 0] 0 0)
    (mkXyzPoly 
    (mkPoly1 [mkCoef1 (num (7228127912172245, (-9))) 0; mkCoef1 (num (3525324304976341, (-13))) 1; mkCoef1 (num ((-3589171823565171), (-15))) 2; mkCoef1 (num ((-5775512441827908), (-20))) 3; mkCoef1 (num (29439757250673563, (-23))) 4; mkCoef1 (num (3347450914408521, (-25))) 5] 5) 
    (mkPoly1 [mkCoef1 (num (26812991754565184, (-11))) 0; mkCoef1 (num ((-7332382389316185), (-12))) 1; mkCoef1 (num ((-1331321942213263), (-16))) 2; mkCoef1 (num (12135943340884567, (-19))) 3; mkCoef1 (num (10781763144046816, (-24))) 4; mkCoef1 (num ((-49989135258628886), (-27))) 5] 5) 
    (mkPoly1 [mkCoef1 (num (14515274819836628, (-10))) 0; mkCoef1 (num ((-4010899032323167), (-13))) 1; mkCoef1 (num ((-7207643788301279), (-16))) 2; mkCoef1 (num (6649751510936382, (-20))) 3; mkCoef1 (num (6061667359346962, (-23))) 4; mkCoef1 (num ((-10048502370615844), (-26))) 5] 5))
    XRGYCR AlgoRMA
    None
    None
    None
    (mkVec (num (7228710059281655, (-9))) (num (25581065028982106, (-11))) (num (14508515897463118, (-10))))
    (mkVec (num (34047184528526833, (-14))) (num ((-7332819454683194), (-12))) (num ((-4035112045857062), (-13)))) "L".

(** test/data/sicd/example.sicd121.capella.xml. *)
Definition expected_capella (num : Decimal -> R) : SicdMeta :=
  mkSicdMeta (mkImageData 5388 19083 0 0) 2694 9541
    (mkVec (num (5271232528561848, (-9))) (num ((-7039187036014228), (-10))) (num (3509547755004264, (-9))))
    (mkVec (num ((-2313169281599637), (-16))) (num (3556237170721815, (-16))) (num ((-9055519038699015), (-16))))
    (mkVec (num ((-1421942494206885), (-16))) (num (9084236131422561, (-16))) (num (3931250876213012, (-16))))
    (num (6245676208333334, (-16))) (num (1069856275523818, (-15)))
    (mkPoly2 [mkCoef2 (num (2173685700333333, (-15))) 0 0; mkCoef2 (num (150937408161923, (-18))) 0 1] 0 1)
    (mkXyzPoly 
    (mkPoly1 [mkCoef1 (num (5438120473202774, (-9))) 0; mkCoef1 (num ((-9974095925011363), (-13))) 1; mkCoef1 (num ((-2788989728553322), (-15))) 2; mkCoef1 (num (23730335867582828, (-20))) 3; mkCoef1 (num (23545281075582228, (-23))) 4; mkCoef1 (num ((-1492656957489703), (-26))) 5; mkCoef1 (num ((-30570170411356174), (-30))) 6] 6) 
    (mkPoly1 [mkCoef1 (num ((-9716098647421665), (-10))) 0; mkCoef1 (num (6583684605741273, (-12))) 1; mkCoef1 (num (6568128008751011, (-16))) 2; mkCoef1 (num ((-11846374886725296), (-19))) 3; mkCoef1 (num ((-7185209123184431), (-23))) 4; mkCoef1 (num (5783598485367062, (-26))) 5; mkCoef1 (num (9744111832411611, (-29))) 6] 6) 
    (mkPoly1 [mkCoef1 (num (41484238430116437, (-10))) 0; mkCoef1 (num (285580663274287, (-11))) 1; mkCoef1 (num ((-25117319050417883), (-16))) 2; mkCoef1 (num ((-5721514871533472), (-19))) 3; mkCoef1 (num (2545856535909912, (-22))) 4; mkCoef1 (num (320193106149182, (-25))) 5; mkCoef1 (num ((-11676099341312116), (-30))) 6] 6))
    RGZERO AlgoOTHER
    None
    None
    (Some (mkIncaMeta (num (7123524341635579, (-10)))
    (mkPoly1 [mkCoef1 (num (21736857003333334, (-16))) 0; mkCoef1 (num (150937408161923, (-18))) 1] 1)
    (mkPoly2 [mkCoef2 (num (9144184293995976, (-16))) 0 0] 0 0)))
    (mkVec (num (5435939242952521, (-9))) (num ((-9572959124464868), (-10))) (num (4154619595475576, (-9))))
    (mkVec (num ((-1009530993301936), (-12))) (num (6586523220067197, (-12))) (num (2844879101663144, (-12)))) "R".

(** test/data/sidd/example.sidd.xml. *)
Definition expected_sidd (num : Decimal -> R) : SiddMeta :=
  mkSiddMeta (mkVec (num (47090730, (-1))) (num (29031530, (-1))) (num (316462125, (-2)))) (num (76640, (-1))) (num (76640, (-1)))
    (mkVec (num (6261031460016966, (-16))) (num ((-7373836715705693), (-16))) (num ((-2534958999603987), (-16))))
    (mkVec (num (2527187904343009, (-16))) (num (49945506779477, (-14))) (num ((-8286602729931474), (-16))))
    (num (26100745951378024, (-17))) (num (26100745951378024, (-17)))
    (mkPoly2 [mkCoef2 (num (16840395661601488, (-16))) 0 0] 0 0)
    (mkXyzPoly 
    (mkPoly1 [mkCoef1 (num (49127907312307395, (-10))) 0; mkCoef1 (num (40578244093090852, (-13))) 1; mkCoef1 (num ((-291951946321138), (-14))) 2; mkCoef1 (num ((-9301224542527532), (-19))) 3; mkCoef1 (num ((-24005632945030588), (-22))) 4; mkCoef1 (num (2911806790957113, (-22))) 5] 5) 
    (mkPoly1 [mkCoef1 (num (3323582052408638, (-9))) 0; mkCoef1 (num (8331339702642257, (-13))) 1; mkCoef1 (num ((-23121539202972374), (-16))) 2; mkCoef1 (num ((-23146610314206638), (-21))) 3; mkCoef1 (num ((-1938442174581894), (-21))) 4; mkCoef1 (num (23481575679541144, (-23))) 5] 5) 
    (mkPoly1 [mkCoef1 (num (3504195751642983, (-9))) 0; mkCoef1 (num ((-6474829426038806), (-12))) 1; mkCoef1 (num ((-2141025135039039), (-15))) 2; mkCoef1 (num (1321025602566108, (-18))) 3; mkCoef1 (num ((-174315101794343), (-20))) 4; mkCoef1 (num (21178580795171886, (-23))) 5] 5))
    None.

(** test/data/sidd/example.sidd-chip.xml. *)
Definition expected_sidd_chip (num : Decimal -> R) : SiddMeta :=
  mkSiddMeta (mkVec (num (47090730, (-1))) (num (29031530, (-1))) (num (316462125, (-2)))) (num (76640, (-1))) (num (76640, (-1)))
    (mkVec (num (6261031460016966, (-16))) (num ((-7373836715705693), (-16))) (num ((-2534958999603987), (-16))))
    (mkVec (num (2527187904343009, (-16))) (num (49945506779477, (-14))) (num ((-8286602729931474), (-16))))
    (num (26100745951378024, (-17))) (num (26100745951378024, (-17)))
    (mkPoly2 [mkCoef2 (num (16840395661601488, (-16))) 0 0] 0 0)
    (mkXyzPoly 
    (mkPoly1 [mkCoef1 (num (49127907312307395, (-10))) 0; mkCoef1 (num (40578244093090852, (-13))) 1; mkCoef1 (num ((-291951946321138), (-14))) 2; mkCoef1 (num ((-9301224542527532), (-19))) 3; mkCoef1 (num ((-24005632945030588), (-22))) 4; mkCoef1 (num (2911806790957113, (-22))) 5] 5) 
    (mkPoly1 [mkCoef1 (num (3323582052408638, (-9))) 0; mkCoef1 (num (8331339702642257, (-13))) 1; mkCoef1 (num ((-23121539202972374), (-16))) 2; mkCoef1 (num ((-23146610314206638), (-21))) 3; mkCoef1 (num ((-1938442174581894), (-21))) 4; mkCoef1 (num (23481575679541144, (-23))) 5] 5) 
    (mkPoly1 [mkCoef1 (num (3504195751642983, (-9))) 0; mkCoef1 (num ((-6474829426038806), (-12))) 1; mkCoef1 (num ((-2141025135039039), (-15))) 2; mkCoef1 (num (1321025602566108, (-18))) 3; mkCoef1 (num ((-174315101794343), (-20))) 4; mkCoef1 (num (21178580795171886, (-23))) 5] 5))
    (Some (mkGeoChip 512 512 ((num (512, 0)), (num (512, 0))) ((num (1024, 0)), (num (512, 0))) ((num (1024, 0)), (num (1024, 0))) ((num (512, 0)), (num (1024, 0))))).

(** The builders read exactly these numbers, whatever the floats nearest to the decimals are. *)
Theorem C97_sicd_vectors : forall num : Decimal -> R,
  Forall (fun p => bind (parse_document exact formats (fst p)) (sicd_meta num formats) = Ok (snd p))
    [(example_pfa, expected_pfa num); (example_rma, expected_rma num); (example_capella, expected_capella num)].
Proof. intros num. repeat (constructor; [vm_compute; reflexivity|]). constructor. Qed.
Print Assumptions C97_sicd_vectors.
Theorem C97_sidd_vectors : forall num : Decimal -> R,
  Forall (fun p => bind (parse_document exact formats (fst p)) (sidd_meta num formats) = Ok (snd p))
    [(example_sidd, expected_sidd num); (example_sidd_chip, expected_sidd_chip num)].
Proof. intros num. repeat (constructor; [vm_compute; reflexivity|]). constructor. Qed.
Print Assumptions C97_sidd_vectors.
