(* Generated by tools/tests2v.py from /repo/test/unit/string_tolower_test14.cxx -- do not edit.
   The library's own unit tests run on the model: every EXPECT_ of the C++ is one boolean. *)
From Coq Require Import ZArith List Bool.
From Verif Require Import Machine.
From Verif.Model Require Import Internal Decode Tables Predicate Str Lower CodePage SplitJoin Trim Wide Tchar.
From Verif.Tests Require Import Support.
Import ListNotations.
Local Open Scope Z_scope.

(* testEightBitToLowers, 3 checks *)
Definition run_testEightBitToLowers (T : UnicodeTables) : outcome (list bool) :=
  dos t1 <- basic_string (At [84; 72; 69; 32; 81; 85; 73; 67; 75; 32; 66; 82; 79; 87; 78; 32; 70; 79; 88; 32; 74; 85; 77; 80; 83; 32; 79; 86; 69; 82; 32; 84; 72; 69; 32; 76; 65; 90; 89; 32; 68; 79; 71; 0]);
  dos t2 <- basic_string (At [116; 104; 101; 32; 113; 117; 105; 99; 107; 32; 98; 114; 111; 119; 110; 32; 102; 111; 120; 32; 106; 117; 109; 112; 115; 32; 111; 118; 101; 114; 32; 116; 104; 101; 32; 108; 97; 122; 121; 32; 100; 111; 103; 0]);
  dos t3 <- basic_string (At [0]);
  dos t4 <- toLower_8 T t3 Null;
  dos t5 <- toLower_8 T t1 Null;
  dos t6 <- toLower_8 T t1 (At [116; 117; 114; 0]);
  Done [(list_eqb t2 t5);
        (negb (list_eqb t2 t6));
        (match t4 with [] => true | _ => false end)].
Example run_testEightBitToLowers_passes : forallb (fun V => all_true (run_testEightBitToLowers (tables V))) [V14] = true.
Proof. vm_cast_no_check (eq_refl true). Qed.

(* testTurkishToLowers, 35 checks *)
Definition run_testTurkishToLowers (T : UnicodeTables) : outcome (list bool) :=
  dos t1 <- basic_string (At [84; 72; 69; 32; 81; 85; 73; 67; 75; 32; 66; 82; 79; 87; 78; 32; 70; 196; 176; 88; 32; 74; 85; 77; 80; 83; 32; 79; 86; 69; 82; 32; 84; 72; 69; 32; 76; 65; 90; 89; 32; 68; 79; 71; 0]);
  dos t2 <- basic_string (At [116; 104; 101; 32; 113; 117; 196; 177; 99; 107; 32; 98; 114; 111; 119; 110; 32; 102; 105; 120; 32; 106; 117; 109; 112; 115; 32; 111; 118; 101; 114; 32; 116; 104; 101; 32; 108; 97; 122; 121; 32; 100; 111; 103; 0]);
  dos t3 <- basic_string (At [116; 104; 101; 32; 113; 117; 105; 99; 107; 32; 98; 114; 111; 119; 110; 32; 102; 105; 120; 32; 106; 117; 109; 112; 115; 32; 111; 118; 101; 114; 32; 116; 104; 101; 32; 108; 97; 122; 121; 32; 100; 111; 103; 0]);
  dos t4 <- toLower_8 T t1 Null;
  dos t5 <- toLower_8 T t1 (At [116; 114; 0]);
  dos t6 <- toLower_8 T t1 (At [116; 117; 114; 0]);
  dos t7 <- toLower_8 T t1 (At [97; 122; 0]);
  dos t8 <- toLower_8 T t1 (At [97; 122; 101; 0]);
  dos t9 <- toLower_8 T t1 (At [97; 122; 98; 0]);
  dos t10 <- toLower_8 T t1 (At [97; 122; 106; 0]);
  dos t11 <- toLower_8 T t1 (At [116; 116; 0]);
  dos t12 <- toLower_8 T t1 (At [116; 97; 116; 0]);
  dos t13 <- toLower_8 T t1 (At [107; 107; 0]);
  dos t14 <- toLower_8 T t1 (At [107; 97; 122; 0]);
  dos t15 <- toLower_8 T t1 (At [100; 101; 0]);
  dos t16 <- toLower_8 T t1 (At [101; 110; 103; 108; 0]);
  dos t17 <- basic_string (At [84; 72; 69; 32; 81; 85; 73; 67; 75; 32; 66; 82; 79; 87; 78; 32; 70; 304; 88; 32; 74; 85; 77; 80; 83; 32; 79; 86; 69; 82; 32; 84; 72; 69; 32; 76; 65; 90; 89; 32; 68; 79; 71; 0]);
  dos t18 <- basic_string (At [116; 104; 101; 32; 113; 117; 305; 99; 107; 32; 98; 114; 111; 119; 110; 32; 102; 105; 120; 32; 106; 117; 109; 112; 115; 32; 111; 118; 101; 114; 32; 116; 104; 101; 32; 108; 97; 122; 121; 32; 100; 111; 103; 0]);
  dos t19 <- toLower_16 T t17 Null;
  dos t20 <- toLower_16 T t17 (At [116; 114; 0]);
  dos t21 <- toLower_16 T t17 (At [116; 117; 114; 0]);
  dos t22 <- toLower_16 T t17 (At [97; 122; 0]);
  dos t23 <- toLower_16 T t17 (At [97; 122; 101; 0]);
  dos t24 <- toLower_16 T t17 (At [97; 122; 98; 0]);
  dos t25 <- toLower_16 T t17 (At [97; 122; 106; 0]);
  dos t26 <- toLower_16 T t17 (At [116; 116; 0]);
  dos t27 <- toLower_16 T t17 (At [116; 97; 116; 0]);
  dos t28 <- toLower_16 T t17 (At [107; 107; 0]);
  dos t29 <- toLower_16 T t17 (At [107; 97; 122; 0]);
  dos t30 <- basic_string (At [84; 72; 69; 32; 81; 85; 73; 67; 75; 32; 66; 82; 79; 87; 78; 32; 70; 304; 88; 32; 74; 85; 77; 80; 83; 32; 79; 86; 69; 82; 32; 84; 72; 69; 32; 76; 65; 90; 89; 32; 68; 79; 71; 0]);
  dos t31 <- basic_string (At [116; 104; 101; 32; 113; 117; 305; 99; 107; 32; 98; 114; 111; 119; 110; 32; 102; 105; 120; 32; 106; 117; 109; 112; 115; 32; 111; 118; 101; 114; 32; 116; 104; 101; 32; 108; 97; 122; 121; 32; 100; 111; 103; 0]);
  dos t32 <- toLower_32 T t30 Null;
  dos t33 <- toLower_32 T t30 (At [116; 114; 0]);
  dos t34 <- toLower_32 T t30 (At [116; 117; 114; 0]);
  dos t35 <- toLower_32 T t30 (At [97; 122; 0]);
  dos t36 <- toLower_32 T t30 (At [97; 122; 101; 0]);
  dos t37 <- toLower_32 T t30 (At [97; 122; 98; 0]);
  dos t38 <- toLower_32 T t30 (At [97; 122; 106; 0]);
  dos t39 <- toLower_32 T t30 (At [116; 116; 0]);
  dos t40 <- toLower_32 T t30 (At [116; 97; 116; 0]);
  dos t41 <- toLower_32 T t30 (At [107; 107; 0]);
  dos t42 <- toLower_32 T t30 (At [107; 97; 122; 0]);
  Done [(negb (list_eqb t2 t4));
        (list_eqb t2 t5);
        (list_eqb t2 t6);
        (list_eqb t2 t7);
        (list_eqb t2 t8);
        (list_eqb t2 t9);
        (list_eqb t2 t10);
        (list_eqb t2 t11);
        (list_eqb t2 t12);
        (list_eqb t2 t13);
        (list_eqb t2 t14);
        (list_eqb t3 t15);
        (list_eqb t3 t16);
        (negb (list_eqb t18 t19));
        (list_eqb t18 t20);
        (list_eqb t18 t21);
        (list_eqb t18 t22);
        (list_eqb t18 t23);
        (list_eqb t18 t24);
        (list_eqb t18 t25);
        (list_eqb t18 t26);
        (list_eqb t18 t27);
        (list_eqb t18 t28);
        (list_eqb t18 t29);
        (negb (list_eqb t31 t32));
        (list_eqb t31 t33);
        (list_eqb t31 t34);
        (list_eqb t31 t35);
        (list_eqb t31 t36);
        (list_eqb t31 t37);
        (list_eqb t31 t38);
        (list_eqb t31 t39);
        (list_eqb t31 t40);
        (list_eqb t31 t41);
        (list_eqb t31 t42)].
Example run_testTurkishToLowers_passes : forallb (fun V => all_true (run_testTurkishToLowers (tables V))) [V14] = true.
Proof. vm_cast_no_check (eq_refl true). Qed.

(* testSixteenBitToLowers, 57 checks *)
Definition run_testSixteenBitToLowers (T : UnicodeTables) : outcome (list bool) :=
  dos t1 <- toLower_16 T (@nil Z) Null;
  dos t2 <- basic_string (At [65; 66; 67; 68; 69; 70; 71; 72; 73; 74; 75; 76; 77; 78; 79; 80; 81; 82; 83; 84; 85; 0]);
  dos t3 <- basic_string (At [86; 87; 88; 89; 90; 192; 193; 194; 195; 196; 197; 198; 199; 200; 201; 202; 203; 204; 205; 206; 207; 0]);
  dos t4 <- basic_string (At [208; 209; 210; 211; 212; 213; 214; 216; 217; 218; 219; 220; 221; 222; 256; 260; 262; 264; 266; 268; 270; 0]);
  dos t5 <- basic_string (At [272; 274; 276; 278; 280; 282; 284; 286; 288; 290; 292; 294; 296; 298; 300; 302; 304; 306; 308; 310; 313; 0]);
  dos t6 <- basic_string (At [315; 317; 319; 321; 323; 325; 327; 330; 332; 334; 336; 338; 340; 342; 344; 346; 348; 350; 352; 354; 356; 0]);
  dos t7 <- basic_string (At [358; 360; 362; 364; 366; 368; 370; 372; 374; 376; 377; 379; 381; 385; 386; 388; 390; 391; 393; 394; 395; 0]);
  dos t8 <- basic_string (At [398; 399; 400; 401; 403; 404; 406; 407; 408; 412; 413; 415; 416; 418; 420; 422; 423; 425; 428; 430; 431; 0]);
  dos t9 <- basic_string (At [433; 434; 435; 437; 439; 440; 444; 452; 453; 455; 456; 458; 459; 461; 463; 465; 467; 469; 471; 473; 475; 0]);
  dos t10 <- basic_string (At [478; 480; 482; 484; 486; 488; 490; 492; 494; 497; 498; 500; 502; 503; 504; 506; 508; 510; 512; 514; 516; 0]);
  dos t11 <- basic_string (At [518; 520; 522; 524; 526; 528; 530; 532; 534; 536; 538; 540; 542; 544; 546; 548; 550; 552; 554; 556; 558; 0]);
  dos t12 <- basic_string (At [560; 562; 570; 571; 573; 574; 577; 579; 580; 581; 582; 584; 586; 588; 590; 880; 882; 886; 895; 902; 904; 0]);
  dos t13 <- basic_string (At [905; 906; 908; 910; 911; 913; 914; 915; 916; 917; 918; 919; 920; 921; 922; 923; 924; 925; 926; 927; 928; 0]);
  dos t14 <- basic_string (At [929; 931; 932; 933; 934; 935; 936; 937; 938; 939; 975; 984; 986; 988; 990; 992; 994; 996; 998; 1000; 1002; 0]);
  dos t15 <- basic_string (At [1004; 1006; 1012; 1015; 1017; 1018; 1021; 1022; 1023; 1024; 1025; 1026; 1027; 1028; 1029; 1030; 1031; 1032; 1033; 1034; 1035; 0]);
  dos t16 <- basic_string (At [1036; 1037; 1038; 1039; 1040; 1041; 1042; 1043; 1044; 1045; 1046; 1047; 1048; 1049; 1050; 1051; 1052; 1053; 1054; 1055; 1056; 0]);
  dos t17 <- basic_string (At [1057; 1058; 1059; 1060; 1061; 1062; 1063; 1064; 1065; 1066; 1067; 1068; 1069; 1070; 1071; 1120; 1122; 1124; 1126; 1128; 1130; 0]);
  dos t18 <- basic_string (At [1132; 1134; 1136; 1138; 1140; 1142; 1144; 1146; 1148; 1150; 1152; 1162; 1164; 1166; 1168; 1170; 1172; 1174; 1176; 1178; 1180; 0]);
  dos t19 <- basic_string (At [1182; 1184; 1186; 1188; 1190; 1192; 1194; 1196; 1198; 1200; 1202; 1204; 1206; 1208; 1210; 1212; 1214; 1216; 1217; 1219; 1221; 0]);
  dos t20 <- basic_string (At [1223; 1225; 1227; 1229; 1232; 1234; 1236; 1238; 1240; 1242; 1244; 1246; 1248; 1250; 1252; 1254; 1256; 1258; 1260; 1262; 1264; 0]);
  dos t21 <- basic_string (At [1266; 1268; 1270; 1272; 1274; 1276; 1278; 1280; 1282; 1284; 1286; 1288; 1290; 1292; 1294; 1296; 1298; 1300; 1302; 1304; 1306; 0]);
  dos t22 <- basic_string (At [1308; 1310; 1312; 1314; 1316; 1318; 1320; 1322; 1324; 1326; 1329; 1330; 1331; 1332; 1333; 1334; 1335; 1336; 1337; 1338; 1339; 0]);
  dos t23 <- basic_string (At [1340; 1341; 1342; 1343; 1344; 1345; 1346; 1347; 1348; 1349; 1350; 1351; 1352; 1353; 1354; 1355; 1356; 1357; 1358; 1359; 1360; 0]);
  dos t24 <- basic_string (At [1361; 1362; 1363; 1364; 1365; 1366; 4256; 4257; 4258; 4259; 4260; 4261; 4262; 4263; 4264; 4265; 4266; 4267; 4268; 4269; 4270; 0]);
  dos t25 <- basic_string (At [4271; 4272; 4273; 4274; 4275; 4276; 4277; 4278; 4279; 4280; 4281; 4282; 4283; 4284; 4285; 4286; 4287; 4288; 4289; 4290; 4291; 0]);
  dos t26 <- basic_string (At [4292; 4293; 4295; 4301; 5024; 5025; 5026; 5027; 5028; 5029; 5030; 5031; 5032; 5033; 5034; 5035; 5036; 5037; 5038; 5039; 5040; 0]);
  dos t27 <- basic_string (At [5041; 5042; 5043; 5044; 5045; 5046; 5047; 5048; 5049; 5050; 5051; 5052; 5053; 5054; 5055; 5056; 5057; 5058; 5059; 5060; 5061; 0]);
  dos t28 <- basic_string (At [5062; 5063; 5064; 5065; 5066; 5067; 5068; 5069; 5070; 5071; 5072; 5073; 5074; 5075; 5076; 5077; 5078; 5079; 5080; 5081; 5082; 0]);
  dos t29 <- basic_string (At [5083; 5084; 5085; 5086; 5087; 5088; 5089; 5090; 5091; 5092; 5093; 5094; 5095; 5096; 5097; 5098; 5099; 5100; 5101; 5102; 5103; 0]);
  dos t30 <- basic_string (At [5104; 5105; 5106; 5107; 5108; 5109; 7680; 7682; 7684; 7686; 7688; 7690; 7692; 7694; 7696; 7698; 7700; 7702; 7704; 7706; 7708; 0]);
  dos t31 <- basic_string (At [7710; 7712; 7714; 7716; 7718; 7720; 7722; 7724; 7726; 7728; 7730; 7732; 7734; 7736; 7738; 7740; 7742; 7744; 7746; 7748; 7750; 0]);
  dos t32 <- basic_string (At [7752; 7754; 7756; 7758; 7760; 7762; 7764; 7766; 7768; 7770; 7772; 7774; 7776; 7778; 7780; 7782; 7784; 7786; 7788; 7790; 7792; 0]);
  dos t33 <- basic_string (At [7794; 7796; 7798; 7800; 7802; 7804; 7806; 7808; 7810; 7812; 7814; 7816; 7818; 7820; 7822; 7824; 7826; 7828; 7838; 7840; 7842; 0]);
  dos t34 <- basic_string (At [7844; 7846; 7848; 7850; 7852; 7854; 7856; 7858; 7860; 7862; 7864; 7866; 7868; 7870; 7872; 7874; 7876; 7878; 7880; 7882; 7884; 0]);
  dos t35 <- basic_string (At [7886; 7888; 7890; 7892; 7894; 7896; 7898; 7900; 7902; 7904; 7906; 7908; 7910; 7912; 7914; 7916; 7918; 7920; 7922; 7924; 7926; 0]);
  dos t36 <- basic_string (At [7928; 7930; 7932; 7934; 7944; 7945; 7946; 7947; 7948; 7949; 7950; 7951; 7960; 7961; 7962; 7963; 7964; 7965; 7976; 7977; 7978; 0]);
  dos t37 <- basic_string (At [7979; 7980; 7981; 7982; 7983; 7992; 7993; 7994; 7995; 7996; 7997; 7998; 7999; 8008; 8009; 8010; 8011; 8012; 8013; 8025; 8027; 0]);
  dos t38 <- basic_string (At [8029; 8031; 8040; 8041; 8042; 8043; 8044; 8045; 8046; 8047; 8072; 8073; 8074; 8075; 8076; 8077; 8078; 8079; 8088; 8089; 8090; 0]);
  dos t39 <- basic_string (At [8091; 8092; 8093; 8094; 8095; 8104; 8105; 8106; 8107; 8108; 8109; 8110; 8111; 8120; 8121; 8122; 8123; 8124; 8136; 8137; 8138; 0]);
  dos t40 <- basic_string (At [8139; 8140; 8152; 8153; 8154; 8155; 8168; 8169; 8170; 8171; 8172; 8184; 8185; 8186; 8187; 8188; 8486; 8490; 8491; 8498; 8544; 0]);
  dos t41 <- basic_string (At [8545; 8546; 8547; 8548; 8549; 8550; 8551; 8552; 8553; 8554; 8555; 8556; 8557; 8558; 8559; 8579; 9398; 9399; 9400; 9401; 9402; 0]);
  dos t42 <- basic_string (At [9403; 9404; 9405; 9406; 9407; 9408; 9409; 9410; 9411; 9412; 9413; 9414; 9415; 9416; 9417; 9418; 9419; 9420; 9421; 9422; 9423; 0]);
  dos t43 <- basic_string (At [11264; 11265; 11266; 11267; 11268; 11269; 11270; 11271; 11272; 11273; 11274; 11275; 11276; 11277; 11278; 11279; 11280; 11281; 11282; 11283; 11284; 0]);
  dos t44 <- basic_string (At [11285; 11286; 11287; 11288; 11289; 11290; 11291; 11292; 11293; 11294; 11295; 11296; 11297; 11298; 11299; 11300; 11301; 11302; 11303; 11304; 11305; 0]);
  dos t45 <- basic_string (At [11306; 11307; 11308; 11309; 11310; 11360; 11362; 11363; 11364; 11367; 11369; 11371; 11373; 11374; 11375; 11376; 11378; 11381; 11390; 11391; 11392; 0]);
  dos t46 <- basic_string (At [11394; 11396; 11398; 11400; 11402; 11404; 11406; 11408; 11410; 11412; 11414; 11416; 11418; 11420; 11422; 11424; 11426; 11428; 11430; 11432; 11434; 0]);
  dos t47 <- basic_string (At [11436; 11438; 11440; 11442; 11444; 11446; 11448; 11450; 11452; 11454; 11456; 11458; 11460; 11462; 11464; 11466; 11468; 11470; 11472; 11474; 11476; 0]);
  dos t48 <- basic_string (At [11478; 11480; 11482; 11484; 11486; 11488; 11490; 11499; 11501; 11506; 42560; 42562; 42564; 42566; 42568; 42570; 42572; 42574; 42576; 42578; 42580; 0]);
  dos t49 <- basic_string (At [42582; 42584; 42586; 42588; 42590; 42592; 42594; 42596; 42598; 42600; 42602; 42604; 42624; 42626; 42628; 42630; 42632; 42634; 42636; 42638; 42640; 0]);
  dos t50 <- basic_string (At [42642; 42644; 42646; 42648; 42650; 42786; 42788; 42790; 42792; 42794; 42796; 42798; 42802; 42804; 42806; 42808; 42810; 42812; 42814; 42816; 42818; 0]);
  dos t51 <- basic_string (At [42820; 42822; 42824; 42826; 42828; 42830; 42832; 42834; 42836; 42838; 42840; 42842; 42844; 42846; 42848; 42850; 42852; 42854; 42856; 42858; 42860; 0]);
  dos t52 <- basic_string (At [42862; 42873; 42875; 42877; 42878; 42880; 42882; 42884; 42886; 42891; 42893; 42896; 42898; 42902; 42904; 42906; 42908; 42910; 42912; 42914; 42916; 0]);
  dos t53 <- basic_string (At [42918; 42920; 42922; 42923; 42924; 42925; 42926; 42928; 42929; 42930; 42931; 42932; 42934; 42938; 42940; 42942; 42946; 42948; 42949; 42950; 65313; 0]);
  dos t54 <- basic_string (At [65314; 65315; 65316; 65317; 65318; 65319; 65320; 65321; 65322; 65323; 65324; 65325; 65326; 65327; 65328; 65329; 65330; 65331; 65332; 65333; 65334; 0]);
  dos t55 <- basic_string (At [65335; 65336; 65337; 65338; 65114; 1537; 1794; 2051; 2308; 2565; 2822; 3079; 3336; 3593; 3850; 12289; 16386; 20483; 24580; 28677; 32774; 0]);
  dos t56 <- basic_string (At [36871; 45064; 49161; 53258; 57355; 42951; 42953; 42997; 11311; 42960; 42966; 42968; 0]);
  dos t57 <- basic_string (At [97; 98; 99; 100; 101; 102; 103; 104; 105; 106; 107; 108; 109; 110; 111; 112; 113; 114; 115; 116; 117; 0]);
  dos t58 <- basic_string (At [118; 119; 120; 121; 122; 224; 225; 226; 227; 228; 229; 230; 231; 232; 233; 234; 235; 236; 237; 238; 239; 0]);
  dos t59 <- basic_string (At [240; 241; 242; 243; 244; 245; 246; 248; 249; 250; 251; 252; 253; 254; 257; 261; 263; 265; 267; 269; 271; 0]);
  dos t60 <- basic_string (At [273; 275; 277; 279; 281; 283; 285; 287; 289; 291; 293; 295; 297; 299; 301; 303; 105; 307; 309; 311; 314; 0]);
  dos t61 <- basic_string (At [316; 318; 320; 322; 324; 326; 328; 331; 333; 335; 337; 339; 341; 343; 345; 347; 349; 351; 353; 355; 357; 0]);
  dos t62 <- basic_string (At [359; 361; 363; 365; 367; 369; 371; 373; 375; 255; 378; 380; 382; 595; 387; 389; 596; 392; 598; 599; 396; 0]);
  dos t63 <- basic_string (At [477; 601; 603; 402; 608; 611; 617; 616; 409; 623; 626; 629; 417; 419; 421; 640; 424; 643; 429; 648; 432; 0]);
  dos t64 <- basic_string (At [650; 651; 436; 438; 658; 441; 445; 454; 454; 457; 457; 460; 460; 462; 464; 466; 468; 470; 472; 474; 476; 0]);
  dos t65 <- basic_string (At [479; 481; 483; 485; 487; 489; 491; 493; 495; 499; 499; 501; 405; 447; 505; 507; 509; 511; 513; 515; 517; 0]);
  dos t66 <- basic_string (At [519; 521; 523; 525; 527; 529; 531; 533; 535; 537; 539; 541; 543; 414; 547; 549; 551; 553; 555; 557; 559; 0]);
  dos t67 <- basic_string (At [561; 563; 11365; 572; 410; 11366; 578; 384; 649; 652; 583; 585; 587; 589; 591; 881; 883; 887; 1011; 940; 941; 0]);
  dos t68 <- basic_string (At [942; 943; 972; 973; 974; 945; 946; 947; 948; 949; 950; 951; 952; 953; 954; 955; 956; 957; 958; 959; 960; 0]);
  dos t69 <- basic_string (At [961; 963; 964; 965; 966; 967; 968; 969; 970; 971; 983; 985; 987; 989; 991; 993; 995; 997; 999; 1001; 1003; 0]);
  dos t70 <- basic_string (At [1005; 1007; 952; 1016; 1010; 1019; 891; 892; 893; 1104; 1105; 1106; 1107; 1108; 1109; 1110; 1111; 1112; 1113; 1114; 1115; 0]);
  dos t71 <- basic_string (At [1116; 1117; 1118; 1119; 1072; 1073; 1074; 1075; 1076; 1077; 1078; 1079; 1080; 1081; 1082; 1083; 1084; 1085; 1086; 1087; 1088; 0]);
  dos t72 <- basic_string (At [1089; 1090; 1091; 1092; 1093; 1094; 1095; 1096; 1097; 1098; 1099; 1100; 1101; 1102; 1103; 1121; 1123; 1125; 1127; 1129; 1131; 0]);
  dos t73 <- basic_string (At [1133; 1135; 1137; 1139; 1141; 1143; 1145; 1147; 1149; 1151; 1153; 1163; 1165; 1167; 1169; 1171; 1173; 1175; 1177; 1179; 1181; 0]);
  dos t74 <- basic_string (At [1183; 1185; 1187; 1189; 1191; 1193; 1195; 1197; 1199; 1201; 1203; 1205; 1207; 1209; 1211; 1213; 1215; 1231; 1218; 1220; 1222; 0]);
  dos t75 <- basic_string (At [1224; 1226; 1228; 1230; 1233; 1235; 1237; 1239; 1241; 1243; 1245; 1247; 1249; 1251; 1253; 1255; 1257; 1259; 1261; 1263; 1265; 0]);
  dos t76 <- basic_string (At [1267; 1269; 1271; 1273; 1275; 1277; 1279; 1281; 1283; 1285; 1287; 1289; 1291; 1293; 1295; 1297; 1299; 1301; 1303; 1305; 1307; 0]);
  dos t77 <- basic_string (At [1309; 1311; 1313; 1315; 1317; 1319; 1321; 1323; 1325; 1327; 1377; 1378; 1379; 1380; 1381; 1382; 1383; 1384; 1385; 1386; 1387; 0]);
  dos t78 <- basic_string (At [1388; 1389; 1390; 1391; 1392; 1393; 1394; 1395; 1396; 1397; 1398; 1399; 1400; 1401; 1402; 1403; 1404; 1405; 1406; 1407; 1408; 0]);
  dos t79 <- basic_string (At [1409; 1410; 1411; 1412; 1413; 1414; 11520; 11521; 11522; 11523; 11524; 11525; 11526; 11527; 11528; 11529; 11530; 11531; 11532; 11533; 11534; 0]);
  dos t80 <- basic_string (At [11535; 11536; 11537; 11538; 11539; 11540; 11541; 11542; 11543; 11544; 11545; 11546; 11547; 11548; 11549; 11550; 11551; 11552; 11553; 11554; 11555; 0]);
  dos t81 <- basic_string (At [11556; 11557; 11559; 11565; 43888; 43889; 43890; 43891; 43892; 43893; 43894; 43895; 43896; 43897; 43898; 43899; 43900; 43901; 43902; 43903; 43904; 0]);
  dos t82 <- basic_string (At [43905; 43906; 43907; 43908; 43909; 43910; 43911; 43912; 43913; 43914; 43915; 43916; 43917; 43918; 43919; 43920; 43921; 43922; 43923; 43924; 43925; 0]);
  dos t83 <- basic_string (At [43926; 43927; 43928; 43929; 43930; 43931; 43932; 43933; 43934; 43935; 43936; 43937; 43938; 43939; 43940; 43941; 43942; 43943; 43944; 43945; 43946; 0]);
  dos t84 <- basic_string (At [43947; 43948; 43949; 43950; 43951; 43952; 43953; 43954; 43955; 43956; 43957; 43958; 43959; 43960; 43961; 43962; 43963; 43964; 43965; 43966; 43967; 0]);
  dos t85 <- basic_string (At [5112; 5113; 5114; 5115; 5116; 5117; 7681; 7683; 7685; 7687; 7689; 7691; 7693; 7695; 7697; 7699; 7701; 7703; 7705; 7707; 7709; 0]);
  dos t86 <- basic_string (At [7711; 7713; 7715; 7717; 7719; 7721; 7723; 7725; 7727; 7729; 7731; 7733; 7735; 7737; 7739; 7741; 7743; 7745; 7747; 7749; 7751; 0]);
  dos t87 <- basic_string (At [7753; 7755; 7757; 7759; 7761; 7763; 7765; 7767; 7769; 7771; 7773; 7775; 7777; 7779; 7781; 7783; 7785; 7787; 7789; 7791; 7793; 0]);
  dos t88 <- basic_string (At [7795; 7797; 7799; 7801; 7803; 7805; 7807; 7809; 7811; 7813; 7815; 7817; 7819; 7821; 7823; 7825; 7827; 7829; 223; 7841; 7843; 0]);
  dos t89 <- basic_string (At [7845; 7847; 7849; 7851; 7853; 7855; 7857; 7859; 7861; 7863; 7865; 7867; 7869; 7871; 7873; 7875; 7877; 7879; 7881; 7883; 7885; 0]);
  dos t90 <- basic_string (At [7887; 7889; 7891; 7893; 7895; 7897; 7899; 7901; 7903; 7905; 7907; 7909; 7911; 7913; 7915; 7917; 7919; 7921; 7923; 7925; 7927; 0]);
  dos t91 <- basic_string (At [7929; 7931; 7933; 7935; 7936; 7937; 7938; 7939; 7940; 7941; 7942; 7943; 7952; 7953; 7954; 7955; 7956; 7957; 7968; 7969; 7970; 0]);
  dos t92 <- basic_string (At [7971; 7972; 7973; 7974; 7975; 7984; 7985; 7986; 7987; 7988; 7989; 7990; 7991; 8000; 8001; 8002; 8003; 8004; 8005; 8017; 8019; 0]);
  dos t93 <- basic_string (At [8021; 8023; 8032; 8033; 8034; 8035; 8036; 8037; 8038; 8039; 8064; 8065; 8066; 8067; 8068; 8069; 8070; 8071; 8080; 8081; 8082; 0]);
  dos t94 <- basic_string (At [8083; 8084; 8085; 8086; 8087; 8096; 8097; 8098; 8099; 8100; 8101; 8102; 8103; 8112; 8113; 8048; 8049; 8115; 8050; 8051; 8052; 0]);
  dos t95 <- basic_string (At [8053; 8131; 8144; 8145; 8054; 8055; 8160; 8161; 8058; 8059; 8165; 8056; 8057; 8060; 8061; 8179; 969; 107; 229; 8526; 8560; 0]);
  dos t96 <- basic_string (At [8561; 8562; 8563; 8564; 8565; 8566; 8567; 8568; 8569; 8570; 8571; 8572; 8573; 8574; 8575; 8580; 9424; 9425; 9426; 9427; 9428; 0]);
  dos t97 <- basic_string (At [9429; 9430; 9431; 9432; 9433; 9434; 9435; 9436; 9437; 9438; 9439; 9440; 9441; 9442; 9443; 9444; 9445; 9446; 9447; 9448; 9449; 0]);
  dos t98 <- basic_string (At [11312; 11313; 11314; 11315; 11316; 11317; 11318; 11319; 11320; 11321; 11322; 11323; 11324; 11325; 11326; 11327; 11328; 11329; 11330; 11331; 11332; 0]);
  dos t99 <- basic_string (At [11333; 11334; 11335; 11336; 11337; 11338; 11339; 11340; 11341; 11342; 11343; 11344; 11345; 11346; 11347; 11348; 11349; 11350; 11351; 11352; 11353; 0]);
  dos t100 <- basic_string (At [11354; 11355; 11356; 11357; 11358; 11361; 619; 7549; 637; 11368; 11370; 11372; 593; 625; 592; 594; 11379; 11382; 575; 576; 11393; 0]);
  dos t101 <- basic_string (At [11395; 11397; 11399; 11401; 11403; 11405; 11407; 11409; 11411; 11413; 11415; 11417; 11419; 11421; 11423; 11425; 11427; 11429; 11431; 11433; 11435; 0]);
  dos t102 <- basic_string (At [11437; 11439; 11441; 11443; 11445; 11447; 11449; 11451; 11453; 11455; 11457; 11459; 11461; 11463; 11465; 11467; 11469; 11471; 11473; 11475; 11477; 0]);
  dos t103 <- basic_string (At [11479; 11481; 11483; 11485; 11487; 11489; 11491; 11500; 11502; 11507; 42561; 42563; 42565; 42567; 42569; 42571; 42573; 42575; 42577; 42579; 42581; 0]);
  dos t104 <- basic_string (At [42583; 42585; 42587; 42589; 42591; 42593; 42595; 42597; 42599; 42601; 42603; 42605; 42625; 42627; 42629; 42631; 42633; 42635; 42637; 42639; 42641; 0]);
  dos t105 <- basic_string (At [42643; 42645; 42647; 42649; 42651; 42787; 42789; 42791; 42793; 42795; 42797; 42799; 42803; 42805; 42807; 42809; 42811; 42813; 42815; 42817; 42819; 0]);
  dos t106 <- basic_string (At [42821; 42823; 42825; 42827; 42829; 42831; 42833; 42835; 42837; 42839; 42841; 42843; 42845; 42847; 42849; 42851; 42853; 42855; 42857; 42859; 42861; 0]);
  dos t107 <- basic_string (At [42863; 42874; 42876; 7545; 42879; 42881; 42883; 42885; 42887; 42892; 613; 42897; 42899; 42903; 42905; 42907; 42909; 42911; 42913; 42915; 42917; 0]);
  dos t108 <- basic_string (At [42919; 42921; 614; 604; 609; 620; 618; 670; 647; 669; 43859; 42933; 42935; 42939; 42941; 42943; 42947; 42900; 642; 7566; 65345; 0]);
  dos t109 <- basic_string (At [65346; 65347; 65348; 65349; 65350; 65351; 65352; 65353; 65354; 65355; 65356; 65357; 65358; 65359; 65360; 65361; 65362; 65363; 65364; 65365; 65366; 0]);
  dos t110 <- basic_string (At [65367; 65368; 65369; 65370; 65114; 1537; 1794; 2051; 2308; 2565; 2822; 3079; 3336; 3593; 3850; 12289; 16386; 20483; 24580; 28677; 32774; 0]);
  dos t111 <- basic_string (At [36871; 45064; 49161; 53258; 57355; 42952; 42954; 42998; 11359; 42961; 42967; 42969; 0]);
  dos t112 <- toLower_16 T t2 Null;
  let z113 := Z.lor 0 (if (list_eqb t57 t112) then 1 else 0) in
  dos t114 <- toLower_16 T t3 Null;
  let z115 := Z.lor z113 (if (list_eqb t58 t114) then 2 else 0) in
  dos t116 <- toLower_16 T t4 Null;
  let z117 := Z.lor z115 (if (list_eqb t59 t116) then 4 else 0) in
  dos t118 <- toLower_16 T t5 Null;
  let z119 := Z.lor z117 (if (list_eqb t60 t118) then 8 else 0) in
  dos t120 <- toLower_16 T t6 Null;
  let z121 := Z.lor z119 (if (list_eqb t61 t120) then 16 else 0) in
  dos t122 <- toLower_16 T t7 Null;
  let z123 := Z.lor z121 (if (list_eqb t62 t122) then 32 else 0) in
  dos t124 <- toLower_16 T t8 Null;
  let z125 := Z.lor z123 (if (list_eqb t63 t124) then 64 else 0) in
  dos t126 <- toLower_16 T t9 Null;
  let z127 := Z.lor z125 (if (list_eqb t64 t126) then 128 else 0) in
  dos t128 <- toLower_16 T t10 Null;
  let z129 := Z.lor z127 (if (list_eqb t65 t128) then 256 else 0) in
  dos t130 <- toLower_16 T t11 Null;
  let z131 := Z.lor z129 (if (list_eqb t66 t130) then 512 else 0) in
  dos t132 <- toLower_16 T t12 Null;
  let z133 := Z.lor z131 (if (list_eqb t67 t132) then 1024 else 0) in
  dos t134 <- toLower_16 T t13 Null;
  let z135 := Z.lor z133 (if (list_eqb t68 t134) then 2048 else 0) in
  dos t136 <- toLower_16 T t14 Null;
  let z137 := Z.lor z135 (if (list_eqb t69 t136) then 4096 else 0) in
  dos t138 <- toLower_16 T t15 Null;
  let z139 := Z.lor z137 (if (list_eqb t70 t138) then 8192 else 0) in
  dos t140 <- toLower_16 T t16 Null;
  let z141 := Z.lor z139 (if (list_eqb t71 t140) then 16384 else 0) in
  dos t142 <- toLower_16 T t17 Null;
  let z143 := Z.lor z141 (if (list_eqb t72 t142) then 32768 else 0) in
  dos t144 <- toLower_16 T t18 Null;
  let z145 := Z.lor z143 (if (list_eqb t73 t144) then 65536 else 0) in
  dos t146 <- toLower_16 T t19 Null;
  let z147 := Z.lor z145 (if (list_eqb t74 t146) then 131072 else 0) in
  dos t148 <- toLower_16 T t20 Null;
  let z149 := Z.lor z147 (if (list_eqb t75 t148) then 262144 else 0) in
  dos t150 <- toLower_16 T t21 Null;
  let z151 := Z.lor z149 (if (list_eqb t76 t150) then 524288 else 0) in
  dos t152 <- toLower_16 T t22 Null;
  let z153 := Z.lor z151 (if (list_eqb t77 t152) then 1048576 else 0) in
  dos t154 <- toLower_16 T t23 Null;
  let z155 := Z.lor z153 (if (list_eqb t78 t154) then 2097152 else 0) in
  dos t156 <- toLower_16 T t24 Null;
  let z157 := Z.lor z155 (if (list_eqb t79 t156) then 4194304 else 0) in
  dos t158 <- toLower_16 T t25 Null;
  let z159 := Z.lor z157 (if (list_eqb t80 t158) then 8388608 else 0) in
  dos t160 <- toLower_16 T t26 Null;
  let z161 := Z.lor z159 (if (list_eqb t81 t160) then 16777216 else 0) in
  dos t162 <- toLower_16 T t27 Null;
  let z163 := Z.lor z161 (if (list_eqb t82 t162) then 33554432 else 0) in
  dos t164 <- toLower_16 T t28 Null;
  let z165 := Z.lor z163 (if (list_eqb t83 t164) then 67108864 else 0) in
  dos t166 <- toLower_16 T t29 Null;
  let z167 := Z.lor z165 (if (list_eqb t84 t166) then 134217728 else 0) in
  dos t168 <- toLower_16 T t30 Null;
  let z169 := Z.lor z167 (if (list_eqb t85 t168) then 268435456 else 0) in
  dos t170 <- toLower_16 T t31 Null;
  let z171 := Z.lor z169 (if (list_eqb t86 t170) then 536870912 else 0) in
  dos t172 <- toLower_16 T t32 Null;
  let z173 := Z.lor z171 (if (list_eqb t87 t172) then 1073741824 else 0) in
  dos t174 <- toLower_16 T t33 Null;
  let z175 := Z.lor z173 (if (list_eqb t88 t174) then 2147483648 else 0) in
  dos t176 <- toLower_16 T t34 Null;
  let z177 := Z.lor z175 (if (list_eqb t89 t176) then 4294967296 else 0) in
  dos t178 <- toLower_16 T t35 Null;
  let z179 := Z.lor z177 (if (list_eqb t90 t178) then 8589934592 else 0) in
  dos t180 <- toLower_16 T t36 Null;
  let z181 := Z.lor z179 (if (list_eqb t91 t180) then 17179869184 else 0) in
  dos t182 <- toLower_16 T t37 Null;
  let z183 := Z.lor z181 (if (list_eqb t92 t182) then 34359738368 else 0) in
  dos t184 <- toLower_16 T t38 Null;
  let z185 := Z.lor z183 (if (list_eqb t93 t184) then 68719476736 else 0) in
  dos t186 <- toLower_16 T t39 Null;
  let z187 := Z.lor z185 (if (list_eqb t94 t186) then 137438953472 else 0) in
  dos t188 <- toLower_16 T t40 Null;
  let z189 := Z.lor z187 (if (list_eqb t95 t188) then 274877906944 else 0) in
  dos t190 <- toLower_16 T t41 Null;
  let z191 := Z.lor z189 (if (list_eqb t96 t190) then 549755813888 else 0) in
  dos t192 <- toLower_16 T t42 Null;
  let z193 := Z.lor z191 (if (list_eqb t97 t192) then 1099511627776 else 0) in
  dos t194 <- toLower_16 T t43 Null;
  let z195 := Z.lor z193 (if (list_eqb t98 t194) then 2199023255552 else 0) in
  dos t196 <- toLower_16 T t44 Null;
  let z197 := Z.lor z195 (if (list_eqb t99 t196) then 4398046511104 else 0) in
  dos t198 <- toLower_16 T t45 Null;
  let z199 := Z.lor z197 (if (list_eqb t100 t198) then 8796093022208 else 0) in
  dos t200 <- toLower_16 T t46 Null;
  let z201 := Z.lor z199 (if (list_eqb t101 t200) then 17592186044416 else 0) in
  dos t202 <- toLower_16 T t47 Null;
  let z203 := Z.lor z201 (if (list_eqb t102 t202) then 35184372088832 else 0) in
  dos t204 <- toLower_16 T t48 Null;
  let z205 := Z.lor z203 (if (list_eqb t103 t204) then 70368744177664 else 0) in
  dos t206 <- toLower_16 T t49 Null;
  let z207 := Z.lor z205 (if (list_eqb t104 t206) then 140737488355328 else 0) in
  dos t208 <- toLower_16 T t50 Null;
  let z209 := Z.lor z207 (if (list_eqb t105 t208) then 281474976710656 else 0) in
  dos t210 <- toLower_16 T t51 Null;
  let z211 := Z.lor z209 (if (list_eqb t106 t210) then 562949953421312 else 0) in
  dos t212 <- toLower_16 T t52 Null;
  let z213 := Z.lor z211 (if (list_eqb t107 t212) then 1125899906842624 else 0) in
  dos t214 <- toLower_16 T t53 Null;
  let z215 := Z.lor z213 (if (list_eqb t108 t214) then 2251799813685248 else 0) in
  dos t216 <- toLower_16 T t54 Null;
  let z217 := Z.lor z215 (if (list_eqb t109 t216) then 4503599627370496 else 0) in
  dos t218 <- toLower_16 T t55 Null;
  let z219 := Z.lor z217 (if (list_eqb t110 t218) then 9007199254740992 else 0) in
  dos t220 <- toLower_16 T t56 Null;
  let z221 := Z.lor z219 (if (list_eqb t111 t220) then 18014398509481984 else 0) in
  dos t222 <- toLower_16 T t57 Null;
  dos t223 <- toLower_16 T t58 Null;
  dos t224 <- toLower_16 T t59 Null;
  dos t225 <- toLower_16 T t60 Null;
  dos t226 <- toLower_16 T t61 Null;
  dos t227 <- toLower_16 T t62 Null;
  dos t228 <- toLower_16 T t63 Null;
  dos t229 <- toLower_16 T t64 Null;
  dos t230 <- toLower_16 T t65 Null;
  dos t231 <- toLower_16 T t66 Null;
  dos t232 <- toLower_16 T t67 Null;
  dos t233 <- toLower_16 T t68 Null;
  dos t234 <- toLower_16 T t69 Null;
  dos t235 <- toLower_16 T t70 Null;
  dos t236 <- toLower_16 T t71 Null;
  dos t237 <- toLower_16 T t72 Null;
  dos t238 <- toLower_16 T t73 Null;
  dos t239 <- toLower_16 T t74 Null;
  dos t240 <- toLower_16 T t75 Null;
  dos t241 <- toLower_16 T t76 Null;
  dos t242 <- toLower_16 T t77 Null;
  dos t243 <- toLower_16 T t78 Null;
  dos t244 <- toLower_16 T t79 Null;
  dos t245 <- toLower_16 T t80 Null;
  dos t246 <- toLower_16 T t81 Null;
  dos t247 <- toLower_16 T t82 Null;
  dos t248 <- toLower_16 T t83 Null;
  dos t249 <- toLower_16 T t84 Null;
  dos t250 <- toLower_16 T t85 Null;
  dos t251 <- toLower_16 T t86 Null;
  dos t252 <- toLower_16 T t87 Null;
  dos t253 <- toLower_16 T t88 Null;
  dos t254 <- toLower_16 T t89 Null;
  dos t255 <- toLower_16 T t90 Null;
  dos t256 <- toLower_16 T t91 Null;
  dos t257 <- toLower_16 T t92 Null;
  dos t258 <- toLower_16 T t93 Null;
  dos t259 <- toLower_16 T t94 Null;
  dos t260 <- toLower_16 T t95 Null;
  dos t261 <- toLower_16 T t96 Null;
  dos t262 <- toLower_16 T t97 Null;
  dos t263 <- toLower_16 T t98 Null;
  dos t264 <- toLower_16 T t99 Null;
  dos t265 <- toLower_16 T t100 Null;
  dos t266 <- toLower_16 T t101 Null;
  dos t267 <- toLower_16 T t102 Null;
  dos t268 <- toLower_16 T t103 Null;
  dos t269 <- toLower_16 T t104 Null;
  dos t270 <- toLower_16 T t105 Null;
  dos t271 <- toLower_16 T t106 Null;
  dos t272 <- toLower_16 T t107 Null;
  dos t273 <- toLower_16 T t108 Null;
  dos t274 <- toLower_16 T t109 Null;
  dos t275 <- toLower_16 T t110 Null;
  dos t276 <- toLower_16 T t111 Null;
  Done [(match t1 with [] => true | _ => false end);
        (36028797018963967 =? z221);
        (list_eqb t57 t222);
        (list_eqb t58 t223);
        (list_eqb t59 t224);
        (list_eqb t60 t225);
        (list_eqb t61 t226);
        (list_eqb t62 t227);
        (list_eqb t63 t228);
        (list_eqb t64 t229);
        (list_eqb t65 t230);
        (list_eqb t66 t231);
        (list_eqb t67 t232);
        (list_eqb t68 t233);
        (list_eqb t69 t234);
        (list_eqb t70 t235);
        (list_eqb t71 t236);
        (list_eqb t72 t237);
        (list_eqb t73 t238);
        (list_eqb t74 t239);
        (list_eqb t75 t240);
        (list_eqb t76 t241);
        (list_eqb t77 t242);
        (list_eqb t78 t243);
        (list_eqb t79 t244);
        (list_eqb t80 t245);
        (list_eqb t81 t246);
        (list_eqb t82 t247);
        (list_eqb t83 t248);
        (list_eqb t84 t249);
        (list_eqb t85 t250);
        (list_eqb t86 t251);
        (list_eqb t87 t252);
        (list_eqb t88 t253);
        (list_eqb t89 t254);
        (list_eqb t90 t255);
        (list_eqb t91 t256);
        (list_eqb t92 t257);
        (list_eqb t93 t258);
        (list_eqb t94 t259);
        (list_eqb t95 t260);
        (list_eqb t96 t261);
        (list_eqb t97 t262);
        (list_eqb t98 t263);
        (list_eqb t99 t264);
        (list_eqb t100 t265);
        (list_eqb t101 t266);
        (list_eqb t102 t267);
        (list_eqb t103 t268);
        (list_eqb t104 t269);
        (list_eqb t105 t270);
        (list_eqb t106 t271);
        (list_eqb t107 t272);
        (list_eqb t108 t273);
        (list_eqb t109 t274);
        (list_eqb t110 t275);
        (list_eqb t111 t276)].
Example run_testSixteenBitToLowers_passes : forallb (fun V => all_true (run_testSixteenBitToLowers (tables V))) [V14] = true.
Proof. vm_cast_no_check (eq_refl true). Qed.

(* testThirtyTwoBitToLowers, 152 checks *)
Definition run_testThirtyTwoBitToLowers (T : UnicodeTables) : outcome (list bool) :=
  dos t1 <- toLower_32 T (@nil Z) Null;
  dos t2 <- basic_string (At [65; 66; 67; 68; 69; 70; 71; 72; 73; 0]);
  dos t3 <- basic_string (At [97; 98; 99; 100; 101; 102; 103; 104; 105; 0]);
  dos t4 <- toLower_32 T t2 Null;
  let z5 := Z.lor 0 (if (list_eqb t3 t4) then 1 else 0) in
  dos t6 <- toLower_32 T t3 Null;
  dos t7 <- basic_string (At [74; 75; 76; 77; 78; 79; 80; 81; 82; 0]);
  dos t8 <- basic_string (At [106; 107; 108; 109; 110; 111; 112; 113; 114; 0]);
  dos t9 <- toLower_32 T t7 Null;
  let z10 := Z.lor z5 (if (list_eqb t8 t9) then 2 else 0) in
  dos t11 <- toLower_32 T t8 Null;
  dos t12 <- basic_string (At [83; 84; 85; 86; 87; 88; 89; 90; 192; 0]);
  dos t13 <- basic_string (At [115; 116; 117; 118; 119; 120; 121; 122; 224; 0]);
  dos t14 <- toLower_32 T t12 Null;
  let z15 := Z.lor z10 (if (list_eqb t13 t14) then 4 else 0) in
  dos t16 <- toLower_32 T t13 Null;
  dos t17 <- basic_string (At [193; 194; 195; 196; 197; 198; 199; 200; 201; 0]);
  dos t18 <- basic_string (At [225; 226; 227; 228; 229; 230; 231; 232; 233; 0]);
  dos t19 <- toLower_32 T t17 Null;
  let z20 := Z.lor z15 (if (list_eqb t18 t19) then 8 else 0) in
  dos t21 <- toLower_32 T t18 Null;
  dos t22 <- basic_string (At [202; 203; 204; 205; 206; 207; 208; 209; 210; 0]);
  dos t23 <- basic_string (At [234; 235; 236; 237; 238; 239; 240; 241; 242; 0]);
  dos t24 <- toLower_32 T t22 Null;
  let z25 := Z.lor z20 (if (list_eqb t23 t24) then 16 else 0) in
  dos t26 <- toLower_32 T t23 Null;
  dos t27 <- basic_string (At [211; 212; 213; 214; 216; 217; 218; 219; 220; 0]);
  dos t28 <- basic_string (At [243; 244; 245; 246; 248; 249; 250; 251; 252; 0]);
  dos t29 <- toLower_32 T t27 Null;
  let z30 := Z.lor z25 (if (list_eqb t28 t29) then 32 else 0) in
  dos t31 <- toLower_32 T t28 Null;
  dos t32 <- basic_string (At [221; 222; 256; 260; 262; 264; 266; 268; 270; 0]);
  dos t33 <- basic_string (At [253; 254; 257; 261; 263; 265; 267; 269; 271; 0]);
  dos t34 <- toLower_32 T t32 Null;
  let z35 := Z.lor z30 (if (list_eqb t33 t34) then 64 else 0) in
  dos t36 <- toLower_32 T t33 Null;
  dos t37 <- basic_string (At [272; 274; 276; 278; 280; 282; 284; 286; 288; 0]);
  dos t38 <- basic_string (At [273; 275; 277; 279; 281; 283; 285; 287; 289; 0]);
  dos t39 <- toLower_32 T t37 Null;
  let z40 := Z.lor z35 (if (list_eqb t38 t39) then 128 else 0) in
  dos t41 <- toLower_32 T t38 Null;
  dos t42 <- basic_string (At [290; 292; 294; 296; 298; 300; 302; 304; 306; 0]);
  dos t43 <- basic_string (At [291; 293; 295; 297; 299; 301; 303; 105; 307; 0]);
  dos t44 <- toLower_32 T t42 Null;
  let z45 := Z.lor z40 (if (list_eqb t43 t44) then 256 else 0) in
  dos t46 <- toLower_32 T t43 Null;
  dos t47 <- basic_string (At [308; 310; 313; 315; 317; 319; 321; 323; 325; 0]);
  dos t48 <- basic_string (At [309; 311; 314; 316; 318; 320; 322; 324; 326; 0]);
  dos t49 <- toLower_32 T t47 Null;
  let z50 := Z.lor z45 (if (list_eqb t48 t49) then 512 else 0) in
  dos t51 <- toLower_32 T t48 Null;
  dos t52 <- basic_string (At [327; 330; 332; 334; 336; 338; 340; 342; 344; 0]);
  dos t53 <- basic_string (At [328; 331; 333; 335; 337; 339; 341; 343; 345; 0]);
  dos t54 <- toLower_32 T t52 Null;
  let z55 := Z.lor z50 (if (list_eqb t53 t54) then 1024 else 0) in
  dos t56 <- toLower_32 T t53 Null;
  dos t57 <- basic_string (At [346; 348; 350; 352; 354; 356; 358; 360; 362; 0]);
  dos t58 <- basic_string (At [347; 349; 351; 353; 355; 357; 359; 361; 363; 0]);
  dos t59 <- toLower_32 T t57 Null;
  let z60 := Z.lor z55 (if (list_eqb t58 t59) then 2048 else 0) in
  dos t61 <- toLower_32 T t58 Null;
  dos t62 <- basic_string (At [364; 366; 368; 370; 372; 374; 376; 377; 379; 0]);
  dos t63 <- basic_string (At [365; 367; 369; 371; 373; 375; 255; 378; 380; 0]);
  dos t64 <- toLower_32 T t62 Null;
  let z65 := Z.lor z60 (if (list_eqb t63 t64) then 4096 else 0) in
  dos t66 <- toLower_32 T t63 Null;
  dos t67 <- basic_string (At [381; 385; 386; 388; 390; 391; 393; 394; 395; 0]);
  dos t68 <- basic_string (At [382; 595; 387; 389; 596; 392; 598; 599; 396; 0]);
  dos t69 <- toLower_32 T t67 Null;
  let z70 := Z.lor z65 (if (list_eqb t68 t69) then 8192 else 0) in
  dos t71 <- basic_string (At [398; 399; 400; 401; 403; 404; 406; 407; 408; 0]);
  dos t72 <- basic_string (At [477; 601; 603; 402; 608; 611; 617; 616; 409; 0]);
  dos t73 <- toLower_32 T t71 Null;
  let z74 := Z.lor z70 (if (list_eqb t72 t73) then 16384 else 0) in
  dos t75 <- toLower_32 T t72 Null;
  dos t76 <- basic_string (At [412; 413; 415; 416; 418; 420; 422; 423; 425; 0]);
  dos t77 <- basic_string (At [623; 626; 629; 417; 419; 421; 640; 424; 643; 0]);
  dos t78 <- toLower_32 T t76 Null;
  let z79 := Z.lor z74 (if (list_eqb t77 t78) then 32768 else 0) in
  dos t80 <- toLower_32 T t77 Null;
  dos t81 <- basic_string (At [428; 430; 431; 433; 434; 435; 437; 439; 440; 0]);
  dos t82 <- basic_string (At [429; 648; 432; 650; 651; 436; 438; 658; 441; 0]);
  dos t83 <- toLower_32 T t81 Null;
  let z84 := Z.lor z79 (if (list_eqb t82 t83) then 65536 else 0) in
  dos t85 <- toLower_32 T t82 Null;
  dos t86 <- basic_string (At [444; 452; 453; 455; 456; 458; 459; 461; 463; 0]);
  dos t87 <- basic_string (At [445; 454; 454; 457; 457; 460; 460; 462; 464; 0]);
  dos t88 <- toLower_32 T t86 Null;
  let z89 := Z.lor z84 (if (list_eqb t87 t88) then 131072 else 0) in
  dos t90 <- toLower_32 T t87 Null;
  dos t91 <- basic_string (At [465; 467; 469; 471; 473; 475; 478; 480; 482; 0]);
  dos t92 <- basic_string (At [466; 468; 470; 472; 474; 476; 479; 481; 483; 0]);
  dos t93 <- toLower_32 T t91 Null;
  let z94 := Z.lor z89 (if (list_eqb t92 t93) then 262144 else 0) in
  dos t95 <- toLower_32 T t92 Null;
  dos t96 <- basic_string (At [484; 486; 488; 490; 492; 494; 497; 498; 500; 0]);
  dos t97 <- basic_string (At [485; 487; 489; 491; 493; 495; 499; 499; 501; 0]);
  dos t98 <- toLower_32 T t96 Null;
  let z99 := Z.lor z94 (if (list_eqb t97 t98) then 524288 else 0) in
  dos t100 <- toLower_32 T t97 Null;
  dos t101 <- basic_string (At [502; 503; 504; 506; 508; 510; 512; 514; 516; 0]);
  dos t102 <- basic_string (At [405; 447; 505; 507; 509; 511; 513; 515; 517; 0]);
  dos t103 <- toLower_32 T t101 Null;
  let z104 := Z.lor z99 (if (list_eqb t102 t103) then 1048576 else 0) in
  dos t105 <- toLower_32 T t102 Null;
  dos t106 <- basic_string (At [518; 520; 522; 524; 526; 528; 530; 532; 534; 0]);
  dos t107 <- basic_string (At [519; 521; 523; 525; 527; 529; 531; 533; 535; 0]);
  dos t108 <- toLower_32 T t106 Null;
  let z109 := Z.lor z104 (if (list_eqb t107 t108) then 2097152 else 0) in
  dos t110 <- toLower_32 T t107 Null;
  dos t111 <- basic_string (At [536; 538; 540; 542; 544; 546; 548; 550; 552; 0]);
  dos t112 <- basic_string (At [537; 539; 541; 543; 414; 547; 549; 551; 553; 0]);
  dos t113 <- toLower_32 T t111 Null;
  let z114 := Z.lor z109 (if (list_eqb t112 t113) then 4194304 else 0) in
  dos t115 <- toLower_32 T t112 Null;
  dos t116 <- basic_string (At [554; 556; 558; 560; 562; 570; 571; 573; 574; 0]);
  dos t117 <- basic_string (At [555; 557; 559; 561; 563; 11365; 572; 410; 11366; 0]);
  dos t118 <- toLower_32 T t116 Null;
  let z119 := Z.lor z114 (if (list_eqb t117 t118) then 8388608 else 0) in
  dos t120 <- toLower_32 T t117 Null;
  dos t121 <- basic_string (At [577; 579; 580; 581; 582; 584; 586; 588; 590; 0]);
  dos t122 <- basic_string (At [578; 384; 649; 652; 583; 585; 587; 589; 591; 0]);
  dos t123 <- toLower_32 T t121 Null;
  let z124 := Z.lor z119 (if (list_eqb t122 t123) then 16777216 else 0) in
  dos t125 <- toLower_32 T t122 Null;
  dos t126 <- basic_string (At [880; 882; 886; 895; 902; 904; 905; 906; 908; 0]);
  dos t127 <- basic_string (At [881; 883; 887; 1011; 940; 941; 942; 943; 972; 0]);
  dos t128 <- toLower_32 T t126 Null;
  let z129 := Z.lor z124 (if (list_eqb t127 t128) then 33554432 else 0) in
  dos t130 <- toLower_32 T t127 Null;
  dos t131 <- basic_string (At [910; 911; 913; 914; 915; 916; 917; 918; 919; 0]);
  dos t132 <- basic_string (At [973; 974; 945; 946; 947; 948; 949; 950; 951; 0]);
  dos t133 <- toLower_32 T t131 Null;
  let z134 := Z.lor z129 (if (list_eqb t132 t133) then 67108864 else 0) in
  dos t135 <- toLower_32 T t132 Null;
  dos t136 <- basic_string (At [920; 921; 922; 923; 924; 925; 926; 927; 928; 0]);
  dos t137 <- basic_string (At [952; 953; 954; 955; 956; 957; 958; 959; 960; 0]);
  dos t138 <- toLower_32 T t136 Null;
  let z139 := Z.lor z134 (if (list_eqb t137 t138) then 134217728 else 0) in
  dos t140 <- toLower_32 T t137 Null;
  dos t141 <- basic_string (At [929; 931; 932; 933; 934; 935; 936; 937; 938; 0]);
  dos t142 <- basic_string (At [961; 963; 964; 965; 966; 967; 968; 969; 970; 0]);
  dos t143 <- toLower_32 T t141 Null;
  let z144 := Z.lor z139 (if (list_eqb t142 t143) then 268435456 else 0) in
  dos t145 <- toLower_32 T t142 Null;
  dos t146 <- basic_string (At [939; 975; 984; 986; 988; 990; 992; 994; 996; 0]);
  dos t147 <- basic_string (At [971; 983; 985; 987; 989; 991; 993; 995; 997; 0]);
  dos t148 <- toLower_32 T t146 Null;
  let z149 := Z.lor z144 (if (list_eqb t147 t148) then 536870912 else 0) in
  dos t150 <- toLower_32 T t147 Null;
  dos t151 <- basic_string (At [998; 1000; 1002; 1004; 1006; 1012; 1015; 1017; 1018; 0]);
  dos t152 <- basic_string (At [999; 1001; 1003; 1005; 1007; 952; 1016; 1010; 1019; 0]);
  dos t153 <- toLower_32 T t151 Null;
  let z154 := Z.lor z149 (if (list_eqb t152 t153) then 1073741824 else 0) in
  dos t155 <- toLower_32 T t152 Null;
  dos t156 <- basic_string (At [1021; 1022; 1023; 1024; 1025; 1026; 1027; 1028; 1029; 0]);
  dos t157 <- basic_string (At [891; 892; 893; 1104; 1105; 1106; 1107; 1108; 1109; 0]);
  dos t158 <- toLower_32 T t156 Null;
  let z159 := Z.lor z154 (if (list_eqb t157 t158) then 2147483648 else 0) in
  dos t160 <- toLower_32 T t157 Null;
  dos t161 <- basic_string (At [1030; 1031; 1032; 1033; 1034; 1035; 1036; 1037; 1038; 0]);
  dos t162 <- basic_string (At [1110; 1111; 1112; 1113; 1114; 1115; 1116; 1117; 1118; 0]);
  dos t163 <- toLower_32 T t161 Null;
  let z164 := Z.lor z159 (if (list_eqb t162 t163) then 4294967296 else 0) in
  dos t165 <- toLower_32 T t162 Null;
  dos t166 <- basic_string (At [1039; 1040; 1041; 1042; 1043; 1044; 1045; 1046; 1047; 0]);
  dos t167 <- basic_string (At [1119; 1072; 1073; 1074; 1075; 1076; 1077; 1078; 1079; 0]);
  dos t168 <- toLower_32 T t166 Null;
  let z169 := Z.lor z164 (if (list_eqb t167 t168) then 8589934592 else 0) in
  dos t170 <- toLower_32 T t167 Null;
  dos t171 <- basic_string (At [1048; 1049; 1050; 1051; 1052; 1053; 1054; 1055; 1056; 0]);
  dos t172 <- basic_string (At [1080; 1081; 1082; 1083; 1084; 1085; 1086; 1087; 1088; 0]);
  dos t173 <- toLower_32 T t171 Null;
  let z174 := Z.lor z169 (if (list_eqb t172 t173) then 17179869184 else 0) in
  dos t175 <- toLower_32 T t172 Null;
  dos t176 <- basic_string (At [1057; 1058; 1059; 1060; 1061; 1062; 1063; 1064; 1065; 0]);
  dos t177 <- basic_string (At [1089; 1090; 1091; 1092; 1093; 1094; 1095; 1096; 1097; 0]);
  dos t178 <- toLower_32 T t176 Null;
  let z179 := Z.lor z174 (if (list_eqb t177 t178) then 34359738368 else 0) in
  dos t180 <- toLower_32 T t177 Null;
  dos t181 <- basic_string (At [1066; 1067; 1068; 1069; 1070; 1071; 1120; 1122; 1124; 0]);
  dos t182 <- basic_string (At [1098; 1099; 1100; 1101; 1102; 1103; 1121; 1123; 1125; 0]);
  dos t183 <- toLower_32 T t181 Null;
  let z184 := Z.lor z179 (if (list_eqb t182 t183) then 68719476736 else 0) in
  dos t185 <- toLower_32 T t182 Null;
  dos t186 <- basic_string (At [1126; 1128; 1130; 1132; 1134; 1136; 1138; 1140; 1142; 0]);
  dos t187 <- basic_string (At [1127; 1129; 1131; 1133; 1135; 1137; 1139; 1141; 1143; 0]);
  dos t188 <- toLower_32 T t186 Null;
  let z189 := Z.lor z184 (if (list_eqb t187 t188) then 137438953472 else 0) in
  dos t190 <- toLower_32 T t187 Null;
  dos t191 <- basic_string (At [1144; 1146; 1148; 1150; 1152; 1162; 1164; 1166; 1168; 0]);
  dos t192 <- basic_string (At [1145; 1147; 1149; 1151; 1153; 1163; 1165; 1167; 1169; 0]);
  dos t193 <- toLower_32 T t191 Null;
  let z194 := Z.lor z189 (if (list_eqb t192 t193) then 274877906944 else 0) in
  dos t195 <- toLower_32 T t192 Null;
  dos t196 <- basic_string (At [1170; 1172; 1174; 1176; 1178; 1180; 1182; 1184; 1186; 0]);
  dos t197 <- basic_string (At [1171; 1173; 1175; 1177; 1179; 1181; 1183; 1185; 1187; 0]);
  dos t198 <- toLower_32 T t196 Null;
  let z199 := Z.lor z194 (if (list_eqb t197 t198) then 549755813888 else 0) in
  dos t200 <- toLower_32 T t197 Null;
  dos t201 <- basic_string (At [1188; 1190; 1192; 1194; 1196; 1198; 1200; 1202; 1204; 0]);
  dos t202 <- basic_string (At [1189; 1191; 1193; 1195; 1197; 1199; 1201; 1203; 1205; 0]);
  dos t203 <- toLower_32 T t201 Null;
  let z204 := Z.lor z199 (if (list_eqb t202 t203) then 1099511627776 else 0) in
  dos t205 <- toLower_32 T t202 Null;
  dos t206 <- basic_string (At [1206; 1208; 1210; 1212; 1214; 1216; 1217; 1219; 1221; 0]);
  dos t207 <- basic_string (At [1207; 1209; 1211; 1213; 1215; 1231; 1218; 1220; 1222; 0]);
  dos t208 <- toLower_32 T t206 Null;
  let z209 := Z.lor z204 (if (list_eqb t207 t208) then 2199023255552 else 0) in
  dos t210 <- toLower_32 T t207 Null;
  dos t211 <- basic_string (At [1223; 1225; 1227; 1229; 1232; 1234; 1236; 1238; 1240; 0]);
  dos t212 <- basic_string (At [1224; 1226; 1228; 1230; 1233; 1235; 1237; 1239; 1241; 0]);
  dos t213 <- toLower_32 T t211 Null;
  let z214 := Z.lor z209 (if (list_eqb t212 t213) then 4398046511104 else 0) in
  dos t215 <- toLower_32 T t212 Null;
  dos t216 <- basic_string (At [1242; 1244; 1246; 1248; 1250; 1252; 1254; 1256; 1258; 0]);
  dos t217 <- basic_string (At [1243; 1245; 1247; 1249; 1251; 1253; 1255; 1257; 1259; 0]);
  dos t218 <- toLower_32 T t216 Null;
  let z219 := Z.lor z214 (if (list_eqb t217 t218) then 8796093022208 else 0) in
  dos t220 <- toLower_32 T t217 Null;
  dos t221 <- basic_string (At [1260; 1262; 1264; 1266; 1268; 1270; 1272; 1274; 1276; 0]);
  dos t222 <- basic_string (At [1261; 1263; 1265; 1267; 1269; 1271; 1273; 1275; 1277; 0]);
  dos t223 <- toLower_32 T t221 Null;
  let z224 := Z.lor z219 (if (list_eqb t222 t223) then 17592186044416 else 0) in
  dos t225 <- toLower_32 T t222 Null;
  dos t226 <- basic_string (At [1278; 1280; 1282; 1284; 1286; 1288; 1290; 1292; 1294; 0]);
  dos t227 <- basic_string (At [1279; 1281; 1283; 1285; 1287; 1289; 1291; 1293; 1295; 0]);
  dos t228 <- toLower_32 T t226 Null;
  let z229 := Z.lor z224 (if (list_eqb t227 t228) then 35184372088832 else 0) in
  dos t230 <- toLower_32 T t227 Null;
  dos t231 <- basic_string (At [1296; 1298; 1300; 1302; 1304; 1306; 1308; 1310; 1312; 0]);
  dos t232 <- basic_string (At [1297; 1299; 1301; 1303; 1305; 1307; 1309; 1311; 1313; 0]);
  dos t233 <- toLower_32 T t231 Null;
  let z234 := Z.lor z229 (if (list_eqb t232 t233) then 70368744177664 else 0) in
  dos t235 <- toLower_32 T t232 Null;
  dos t236 <- basic_string (At [1314; 1316; 1318; 1320; 1322; 1324; 1326; 1329; 1330; 0]);
  dos t237 <- basic_string (At [1315; 1317; 1319; 1321; 1323; 1325; 1327; 1377; 1378; 0]);
  dos t238 <- toLower_32 T t236 Null;
  let z239 := Z.lor z234 (if (list_eqb t237 t238) then 140737488355328 else 0) in
  dos t240 <- toLower_32 T t237 Null;
  dos t241 <- basic_string (At [1331; 1332; 1333; 1334; 1335; 1336; 1337; 1338; 1339; 0]);
  dos t242 <- basic_string (At [1379; 1380; 1381; 1382; 1383; 1384; 1385; 1386; 1387; 0]);
  dos t243 <- toLower_32 T t241 Null;
  let z244 := Z.lor z239 (if (list_eqb t242 t243) then 281474976710656 else 0) in
  dos t245 <- toLower_32 T t242 Null;
  dos t246 <- basic_string (At [1340; 1341; 1342; 1343; 1344; 1345; 1346; 1347; 1348; 0]);
  dos t247 <- basic_string (At [1388; 1389; 1390; 1391; 1392; 1393; 1394; 1395; 1396; 0]);
  dos t248 <- toLower_32 T t246 Null;
  let z249 := Z.lor z244 (if (list_eqb t247 t248) then 562949953421312 else 0) in
  dos t250 <- toLower_32 T t247 Null;
  dos t251 <- basic_string (At [1349; 1350; 1351; 1352; 1353; 1354; 1355; 1356; 1357; 0]);
  dos t252 <- basic_string (At [1397; 1398; 1399; 1400; 1401; 1402; 1403; 1404; 1405; 0]);
  dos t253 <- toLower_32 T t251 Null;
  let z254 := Z.lor z249 (if (list_eqb t252 t253) then 1125899906842624 else 0) in
  dos t255 <- toLower_32 T t252 Null;
  dos t256 <- basic_string (At [1358; 1359; 1360; 1361; 1362; 1363; 1364; 1365; 1366; 0]);
  dos t257 <- basic_string (At [1406; 1407; 1408; 1409; 1410; 1411; 1412; 1413; 1414; 0]);
  dos t258 <- toLower_32 T t256 Null;
  let z259 := Z.lor z254 (if (list_eqb t257 t258) then 2251799813685248 else 0) in
  dos t260 <- toLower_32 T t257 Null;
  dos t261 <- basic_string (At [4256; 4257; 4258; 4259; 4260; 4261; 4262; 4263; 4264; 0]);
  dos t262 <- basic_string (At [11520; 11521; 11522; 11523; 11524; 11525; 11526; 11527; 11528; 0]);
  dos t263 <- toLower_32 T t261 Null;
  let z264 := Z.lor z259 (if (list_eqb t262 t263) then 4503599627370496 else 0) in
  dos t265 <- toLower_32 T t262 Null;
  dos t266 <- basic_string (At [4265; 4266; 4267; 4268; 4269; 4270; 4271; 4272; 4273; 0]);
  dos t267 <- basic_string (At [11529; 11530; 11531; 11532; 11533; 11534; 11535; 11536; 11537; 0]);
  dos t268 <- toLower_32 T t266 Null;
  let z269 := Z.lor z264 (if (list_eqb t267 t268) then 9007199254740992 else 0) in
  dos t270 <- toLower_32 T t267 Null;
  dos t271 <- basic_string (At [4274; 4275; 4276; 4277; 4278; 4279; 4280; 4281; 4282; 0]);
  dos t272 <- basic_string (At [11538; 11539; 11540; 11541; 11542; 11543; 11544; 11545; 11546; 0]);
  dos t273 <- toLower_32 T t271 Null;
  let z274 := Z.lor z269 (if (list_eqb t272 t273) then 18014398509481984 else 0) in
  dos t275 <- toLower_32 T t272 Null;
  dos t276 <- basic_string (At [4283; 4284; 4285; 4286; 4287; 4288; 4289; 4290; 4291; 0]);
  dos t277 <- basic_string (At [11547; 11548; 11549; 11550; 11551; 11552; 11553; 11554; 11555; 0]);
  dos t278 <- toLower_32 T t276 Null;
  let z279 := Z.lor z274 (if (list_eqb t277 t278) then 36028797018963968 else 0) in
  dos t280 <- toLower_32 T t277 Null;
  dos t281 <- basic_string (At [4292; 4293; 4295; 4301; 5024; 5025; 5026; 5027; 5028; 0]);
  dos t282 <- basic_string (At [11556; 11557; 11559; 11565; 43888; 43889; 43890; 43891; 43892; 0]);
  dos t283 <- toLower_32 T t281 Null;
  let z284 := Z.lor z279 (if (list_eqb t282 t283) then 72057594037927936 else 0) in
  dos t285 <- toLower_32 T t282 Null;
  dos t286 <- basic_string (At [5029; 5030; 5031; 5032; 5033; 5034; 5035; 5036; 5037; 0]);
  dos t287 <- basic_string (At [43893; 43894; 43895; 43896; 43897; 43898; 43899; 43900; 43901; 0]);
  dos t288 <- toLower_32 T t286 Null;
  let z289 := Z.lor z284 (if (list_eqb t287 t288) then 144115188075855872 else 0) in
  dos t290 <- toLower_32 T t287 Null;
  dos t291 <- basic_string (At [5038; 5039; 5040; 5041; 5042; 5043; 5044; 5045; 5046; 0]);
  dos t292 <- basic_string (At [43902; 43903; 43904; 43905; 43906; 43907; 43908; 43909; 43910; 0]);
  dos t293 <- toLower_32 T t291 Null;
  let z294 := Z.lor z289 (if (list_eqb t292 t293) then 288230376151711744 else 0) in
  dos t295 <- toLower_32 T t292 Null;
  dos t296 <- basic_string (At [5047; 5048; 5049; 5050; 5051; 5052; 5053; 5054; 5055; 0]);
  dos t297 <- basic_string (At [43911; 43912; 43913; 43914; 43915; 43916; 43917; 43918; 43919; 0]);
  dos t298 <- toLower_32 T t296 Null;
  let z299 := Z.lor z294 (if (list_eqb t297 t298) then 576460752303423488 else 0) in
  dos t300 <- toLower_32 T t297 Null;
  dos t301 <- basic_string (At [5056; 5057; 5058; 5059; 5060; 5061; 5062; 5063; 5064; 0]);
  dos t302 <- basic_string (At [43920; 43921; 43922; 43923; 43924; 43925; 43926; 43927; 43928; 0]);
  dos t303 <- toLower_32 T t301 Null;
  let z304 := Z.lor z299 (if (list_eqb t302 t303) then 1152921504606846976 else 0) in
  dos t305 <- toLower_32 T t302 Null;
  dos t306 <- basic_string (At [5065; 5066; 5067; 5068; 5069; 5070; 5071; 5072; 5073; 0]);
  dos t307 <- basic_string (At [43929; 43930; 43931; 43932; 43933; 43934; 43935; 43936; 43937; 0]);
  dos t308 <- toLower_32 T t306 Null;
  let z309 := Z.lor z304 (if (list_eqb t307 t308) then 2305843009213693952 else 0) in
  dos t310 <- toLower_32 T t307 Null;
  dos t311 <- basic_string (At [5074; 5075; 5076; 5077; 5078; 5079; 5080; 5081; 5082; 0]);
  dos t312 <- basic_string (At [43938; 43939; 43940; 43941; 43942; 43943; 43944; 43945; 43946; 0]);
  dos t313 <- toLower_32 T t311 Null;
  let z314 := Z.lor z309 (if (list_eqb t312 t313) then 4611686018427387904 else 0) in
  dos t315 <- toLower_32 T t312 Null;
  dos t316 <- basic_string (At [5083; 5084; 5085; 5086; 5087; 5088; 5089; 5090; 5091; 0]);
  dos t317 <- basic_string (At [43947; 43948; 43949; 43950; 43951; 43952; 43953; 43954; 43955; 0]);
  dos t318 <- toLower_32 T t316 Null;
  let z319 := Z.lor 0 (if (list_eqb t317 t318) then 1 else 0) in
  dos t320 <- toLower_32 T t317 Null;
  dos t321 <- basic_string (At [5092; 5093; 5094; 5095; 5096; 5097; 5098; 5099; 5100; 0]);
  dos t322 <- basic_string (At [43956; 43957; 43958; 43959; 43960; 43961; 43962; 43963; 43964; 0]);
  dos t323 <- toLower_32 T t321 Null;
  let z324 := Z.lor z319 (if (list_eqb t322 t323) then 2 else 0) in
  dos t325 <- toLower_32 T t322 Null;
  dos t326 <- basic_string (At [5101; 5102; 5103; 5104; 5105; 5106; 5107; 5108; 5109; 0]);
  dos t327 <- basic_string (At [43965; 43966; 43967; 5112; 5113; 5114; 5115; 5116; 5117; 0]);
  dos t328 <- toLower_32 T t326 Null;
  let z329 := Z.lor z324 (if (list_eqb t327 t328) then 4 else 0) in
  dos t330 <- toLower_32 T t327 Null;
  dos t331 <- basic_string (At [7680; 7682; 7684; 7686; 7688; 7690; 7692; 7694; 7696; 0]);
  dos t332 <- basic_string (At [7681; 7683; 7685; 7687; 7689; 7691; 7693; 7695; 7697; 0]);
  dos t333 <- toLower_32 T t331 Null;
  let z334 := Z.lor z329 (if (list_eqb t332 t333) then 8 else 0) in
  dos t335 <- toLower_32 T t332 Null;
  dos t336 <- basic_string (At [7698; 7700; 7702; 7704; 7706; 7708; 7710; 7712; 7714; 0]);
  dos t337 <- basic_string (At [7699; 7701; 7703; 7705; 7707; 7709; 7711; 7713; 7715; 0]);
  dos t338 <- toLower_32 T t336 Null;
  let z339 := Z.lor z334 (if (list_eqb t337 t338) then 16 else 0) in
  dos t340 <- toLower_32 T t337 Null;
  dos t341 <- basic_string (At [7716; 7718; 7720; 7722; 7724; 7726; 7728; 7730; 7732; 0]);
  dos t342 <- basic_string (At [7717; 7719; 7721; 7723; 7725; 7727; 7729; 7731; 7733; 0]);
  dos t343 <- toLower_32 T t341 Null;
  let z344 := Z.lor z339 (if (list_eqb t342 t343) then 32 else 0) in
  dos t345 <- toLower_32 T t342 Null;
  dos t346 <- basic_string (At [7734; 7736; 7738; 7740; 7742; 7744; 7746; 7748; 7750; 0]);
  dos t347 <- basic_string (At [7735; 7737; 7739; 7741; 7743; 7745; 7747; 7749; 7751; 0]);
  dos t348 <- toLower_32 T t346 Null;
  let z349 := Z.lor z344 (if (list_eqb t347 t348) then 64 else 0) in
  dos t350 <- toLower_32 T t347 Null;
  dos t351 <- basic_string (At [7752; 7754; 7756; 7758; 7760; 7762; 7764; 7766; 7768; 0]);
  dos t352 <- basic_string (At [7753; 7755; 7757; 7759; 7761; 7763; 7765; 7767; 7769; 0]);
  dos t353 <- toLower_32 T t351 Null;
  let z354 := Z.lor z349 (if (list_eqb t352 t353) then 128 else 0) in
  dos t355 <- toLower_32 T t352 Null;
  dos t356 <- basic_string (At [7770; 7772; 7774; 7776; 7778; 7780; 7782; 7784; 7786; 0]);
  dos t357 <- basic_string (At [7771; 7773; 7775; 7777; 7779; 7781; 7783; 7785; 7787; 0]);
  dos t358 <- toLower_32 T t356 Null;
  let z359 := Z.lor z354 (if (list_eqb t357 t358) then 256 else 0) in
  dos t360 <- toLower_32 T t357 Null;
  dos t361 <- basic_string (At [7788; 7790; 7792; 7794; 7796; 7798; 7800; 7802; 7804; 0]);
  dos t362 <- basic_string (At [7789; 7791; 7793; 7795; 7797; 7799; 7801; 7803; 7805; 0]);
  dos t363 <- toLower_32 T t361 Null;
  let z364 := Z.lor z359 (if (list_eqb t362 t363) then 512 else 0) in
  dos t365 <- toLower_32 T t362 Null;
  dos t366 <- basic_string (At [7806; 7808; 7810; 7812; 7814; 7816; 7818; 7820; 7822; 0]);
  dos t367 <- basic_string (At [7807; 7809; 7811; 7813; 7815; 7817; 7819; 7821; 7823; 0]);
  dos t368 <- toLower_32 T t366 Null;
  let z369 := Z.lor z364 (if (list_eqb t367 t368) then 1024 else 0) in
  dos t370 <- toLower_32 T t367 Null;
  dos t371 <- basic_string (At [7824; 7826; 7828; 7838; 7840; 7842; 7844; 7846; 7848; 0]);
  dos t372 <- basic_string (At [7825; 7827; 7829; 223; 7841; 7843; 7845; 7847; 7849; 0]);
  dos t373 <- toLower_32 T t371 Null;
  let z374 := Z.lor z369 (if (list_eqb t372 t373) then 2048 else 0) in
  dos t375 <- toLower_32 T t372 Null;
  dos t376 <- basic_string (At [7850; 7852; 7854; 7856; 7858; 7860; 7862; 7864; 7866; 0]);
  dos t377 <- basic_string (At [7851; 7853; 7855; 7857; 7859; 7861; 7863; 7865; 7867; 0]);
  dos t378 <- toLower_32 T t376 Null;
  let z379 := Z.lor z374 (if (list_eqb t377 t378) then 4096 else 0) in
  dos t380 <- toLower_32 T t377 Null;
  dos t381 <- basic_string (At [7868; 7870; 7872; 7874; 7876; 7878; 7880; 7882; 7884; 0]);
  dos t382 <- basic_string (At [7869; 7871; 7873; 7875; 7877; 7879; 7881; 7883; 7885; 0]);
  dos t383 <- toLower_32 T t381 Null;
  let z384 := Z.lor z379 (if (list_eqb t382 t383) then 8192 else 0) in
  dos t385 <- toLower_32 T t382 Null;
  dos t386 <- basic_string (At [7886; 7888; 7890; 7892; 7894; 7896; 7898; 7900; 7902; 0]);
  dos t387 <- basic_string (At [7887; 7889; 7891; 7893; 7895; 7897; 7899; 7901; 7903; 0]);
  dos t388 <- toLower_32 T t386 Null;
  let z389 := Z.lor z384 (if (list_eqb t387 t388) then 16384 else 0) in
  dos t390 <- toLower_32 T t387 Null;
  dos t391 <- basic_string (At [7904; 7906; 7908; 7910; 7912; 7914; 7916; 7918; 7920; 0]);
  dos t392 <- basic_string (At [7905; 7907; 7909; 7911; 7913; 7915; 7917; 7919; 7921; 0]);
  dos t393 <- toLower_32 T t391 Null;
  let z394 := Z.lor z389 (if (list_eqb t392 t393) then 32768 else 0) in
  dos t395 <- toLower_32 T t392 Null;
  dos t396 <- basic_string (At [7922; 7924; 7926; 7928; 7930; 7932; 7934; 7944; 7945; 0]);
  dos t397 <- basic_string (At [7923; 7925; 7927; 7929; 7931; 7933; 7935; 7936; 7937; 0]);
  dos t398 <- toLower_32 T t396 Null;
  let z399 := Z.lor z394 (if (list_eqb t397 t398) then 65536 else 0) in
  dos t400 <- toLower_32 T t397 Null;
  dos t401 <- basic_string (At [7946; 7947; 7948; 7949; 7950; 7951; 7960; 7961; 7962; 0]);
  dos t402 <- basic_string (At [7938; 7939; 7940; 7941; 7942; 7943; 7952; 7953; 7954; 0]);
  dos t403 <- toLower_32 T t401 Null;
  let z404 := Z.lor z399 (if (list_eqb t402 t403) then 131072 else 0) in
  dos t405 <- toLower_32 T t402 Null;
  dos t406 <- basic_string (At [7963; 7964; 7965; 7976; 7977; 7978; 7979; 7980; 7981; 0]);
  dos t407 <- basic_string (At [7955; 7956; 7957; 7968; 7969; 7970; 7971; 7972; 7973; 0]);
  dos t408 <- toLower_32 T t406 Null;
  let z409 := Z.lor z404 (if (list_eqb t407 t408) then 262144 else 0) in
  dos t410 <- toLower_32 T t407 Null;
  dos t411 <- basic_string (At [7982; 7983; 7992; 7993; 7994; 7995; 7996; 7997; 7998; 0]);
  dos t412 <- basic_string (At [7974; 7975; 7984; 7985; 7986; 7987; 7988; 7989; 7990; 0]);
  dos t413 <- toLower_32 T t411 Null;
  let z414 := Z.lor z409 (if (list_eqb t412 t413) then 524288 else 0) in
  dos t415 <- toLower_32 T t412 Null;
  dos t416 <- basic_string (At [7999; 8008; 8009; 8010; 8011; 8012; 8013; 8025; 8027; 0]);
  dos t417 <- basic_string (At [7991; 8000; 8001; 8002; 8003; 8004; 8005; 8017; 8019; 0]);
  dos t418 <- toLower_32 T t416 Null;
  let z419 := Z.lor z414 (if (list_eqb t417 t418) then 1048576 else 0) in
  dos t420 <- toLower_32 T t417 Null;
  dos t421 <- basic_string (At [8029; 8031; 8040; 8041; 8042; 8043; 8044; 8045; 8046; 0]);
  dos t422 <- basic_string (At [8021; 8023; 8032; 8033; 8034; 8035; 8036; 8037; 8038; 0]);
  dos t423 <- toLower_32 T t421 Null;
  let z424 := Z.lor z419 (if (list_eqb t422 t423) then 2097152 else 0) in
  dos t425 <- toLower_32 T t422 Null;
  dos t426 <- basic_string (At [8047; 8072; 8073; 8074; 8075; 8076; 8077; 8078; 8079; 0]);
  dos t427 <- basic_string (At [8039; 8064; 8065; 8066; 8067; 8068; 8069; 8070; 8071; 0]);
  dos t428 <- toLower_32 T t426 Null;
  let z429 := Z.lor z424 (if (list_eqb t427 t428) then 4194304 else 0) in
  dos t430 <- toLower_32 T t427 Null;
  dos t431 <- basic_string (At [8088; 8089; 8090; 8091; 8092; 8093; 8094; 8095; 8104; 0]);
  dos t432 <- basic_string (At [8080; 8081; 8082; 8083; 8084; 8085; 8086; 8087; 8096; 0]);
  dos t433 <- toLower_32 T t431 Null;
  let z434 := Z.lor z429 (if (list_eqb t432 t433) then 8388608 else 0) in
  dos t435 <- toLower_32 T t432 Null;
  dos t436 <- basic_string (At [8105; 8106; 8107; 8108; 8109; 8110; 8111; 8120; 8121; 0]);
  dos t437 <- basic_string (At [8097; 8098; 8099; 8100; 8101; 8102; 8103; 8112; 8113; 0]);
  dos t438 <- toLower_32 T t436 Null;
  let z439 := Z.lor z434 (if (list_eqb t437 t438) then 16777216 else 0) in
  dos t440 <- toLower_32 T t437 Null;
  dos t441 <- basic_string (At [8122; 8123; 8124; 8136; 8137; 8138; 8139; 8140; 8152; 0]);
  dos t442 <- basic_string (At [8048; 8049; 8115; 8050; 8051; 8052; 8053; 8131; 8144; 0]);
  dos t443 <- toLower_32 T t441 Null;
  let z444 := Z.lor z439 (if (list_eqb t442 t443) then 33554432 else 0) in
  dos t445 <- toLower_32 T t442 Null;
  dos t446 <- basic_string (At [8153; 8154; 8155; 8168; 8169; 8170; 8171; 8172; 8184; 0]);
  dos t447 <- basic_string (At [8145; 8054; 8055; 8160; 8161; 8058; 8059; 8165; 8056; 0]);
  dos t448 <- toLower_32 T t446 Null;
  let z449 := Z.lor z444 (if (list_eqb t447 t448) then 67108864 else 0) in
  dos t450 <- toLower_32 T t447 Null;
  dos t451 <- basic_string (At [8185; 8186; 8187; 8188; 8486; 8490; 8491; 8498; 8544; 0]);
  dos t452 <- basic_string (At [8057; 8060; 8061; 8179; 969; 107; 229; 8526; 8560; 0]);
  dos t453 <- toLower_32 T t451 Null;
  let z454 := Z.lor z449 (if (list_eqb t452 t453) then 134217728 else 0) in
  dos t455 <- toLower_32 T t452 Null;
  dos t456 <- basic_string (At [8545; 8546; 8547; 8548; 8549; 8550; 8551; 8552; 8553; 0]);
  dos t457 <- basic_string (At [8561; 8562; 8563; 8564; 8565; 8566; 8567; 8568; 8569; 0]);
  dos t458 <- toLower_32 T t456 Null;
  let z459 := Z.lor z454 (if (list_eqb t457 t458) then 268435456 else 0) in
  dos t460 <- toLower_32 T t457 Null;
  dos t461 <- basic_string (At [8554; 8555; 8556; 8557; 8558; 8559; 8579; 9398; 9399; 0]);
  dos t462 <- basic_string (At [8570; 8571; 8572; 8573; 8574; 8575; 8580; 9424; 9425; 0]);
  dos t463 <- toLower_32 T t461 Null;
  let z464 := Z.lor z459 (if (list_eqb t462 t463) then 536870912 else 0) in
  dos t465 <- toLower_32 T t462 Null;
  dos t466 <- basic_string (At [9400; 9401; 9402; 9403; 9404; 9405; 9406; 9407; 9408; 0]);
  dos t467 <- basic_string (At [9426; 9427; 9428; 9429; 9430; 9431; 9432; 9433; 9434; 0]);
  dos t468 <- toLower_32 T t466 Null;
  let z469 := Z.lor z464 (if (list_eqb t467 t468) then 1073741824 else 0) in
  dos t470 <- toLower_32 T t467 Null;
  dos t471 <- basic_string (At [9409; 9410; 9411; 9412; 9413; 9414; 9415; 9416; 9417; 0]);
  dos t472 <- basic_string (At [9435; 9436; 9437; 9438; 9439; 9440; 9441; 9442; 9443; 0]);
  dos t473 <- toLower_32 T t471 Null;
  let z474 := Z.lor z469 (if (list_eqb t472 t473) then 2147483648 else 0) in
  dos t475 <- toLower_32 T t472 Null;
  dos t476 <- basic_string (At [9418; 9419; 9420; 9421; 9422; 9423; 11264; 11265; 11266; 0]);
  dos t477 <- basic_string (At [9444; 9445; 9446; 9447; 9448; 9449; 11312; 11313; 11314; 0]);
  dos t478 <- toLower_32 T t476 Null;
  let z479 := Z.lor z474 (if (list_eqb t477 t478) then 4294967296 else 0) in
  dos t480 <- toLower_32 T t477 Null;
  dos t481 <- basic_string (At [11267; 11268; 11269; 11270; 11271; 11272; 11273; 11274; 11275; 0]);
  dos t482 <- basic_string (At [11315; 11316; 11317; 11318; 11319; 11320; 11321; 11322; 11323; 0]);
  dos t483 <- toLower_32 T t481 Null;
  let z484 := Z.lor z479 (if (list_eqb t482 t483) then 8589934592 else 0) in
  dos t485 <- toLower_32 T t482 Null;
  dos t486 <- basic_string (At [11276; 11277; 11278; 11279; 11280; 11281; 11282; 11283; 11284; 0]);
  dos t487 <- basic_string (At [11324; 11325; 11326; 11327; 11328; 11329; 11330; 11331; 11332; 0]);
  dos t488 <- toLower_32 T t486 Null;
  let z489 := Z.lor z484 (if (list_eqb t487 t488) then 17179869184 else 0) in
  dos t490 <- toLower_32 T t487 Null;
  dos t491 <- basic_string (At [11285; 11286; 11287; 11288; 11289; 11290; 11291; 11292; 11293; 0]);
  dos t492 <- basic_string (At [11333; 11334; 11335; 11336; 11337; 11338; 11339; 11340; 11341; 0]);
  dos t493 <- toLower_32 T t491 Null;
  let z494 := Z.lor z489 (if (list_eqb t492 t493) then 34359738368 else 0) in
  dos t495 <- toLower_32 T t492 Null;
  dos t496 <- basic_string (At [11294; 11295; 11296; 11297; 11298; 11299; 11300; 11301; 11302; 0]);
  dos t497 <- basic_string (At [11342; 11343; 11344; 11345; 11346; 11347; 11348; 11349; 11350; 0]);
  dos t498 <- toLower_32 T t496 Null;
  let z499 := Z.lor z494 (if (list_eqb t497 t498) then 68719476736 else 0) in
  dos t500 <- toLower_32 T t497 Null;
  dos t501 <- basic_string (At [11303; 11304; 11305; 11306; 11307; 11308; 11309; 11310; 11360; 0]);
  dos t502 <- basic_string (At [11351; 11352; 11353; 11354; 11355; 11356; 11357; 11358; 11361; 0]);
  dos t503 <- toLower_32 T t501 Null;
  let z504 := Z.lor z499 (if (list_eqb t502 t503) then 137438953472 else 0) in
  dos t505 <- toLower_32 T t502 Null;
  dos t506 <- basic_string (At [11362; 11363; 11364; 11367; 11369; 11371; 11373; 11374; 11375; 0]);
  dos t507 <- basic_string (At [619; 7549; 637; 11368; 11370; 11372; 593; 625; 592; 0]);
  dos t508 <- toLower_32 T t506 Null;
  let z509 := Z.lor z504 (if (list_eqb t507 t508) then 274877906944 else 0) in
  dos t510 <- toLower_32 T t507 Null;
  dos t511 <- basic_string (At [11376; 11378; 11381; 11390; 11391; 11392; 11394; 11396; 11398; 0]);
  dos t512 <- basic_string (At [594; 11379; 11382; 575; 576; 11393; 11395; 11397; 11399; 0]);
  dos t513 <- toLower_32 T t511 Null;
  let z514 := Z.lor z509 (if (list_eqb t512 t513) then 549755813888 else 0) in
  dos t515 <- toLower_32 T t512 Null;
  dos t516 <- basic_string (At [11400; 11402; 11404; 11406; 11408; 11410; 11412; 11414; 11416; 0]);
  dos t517 <- basic_string (At [11401; 11403; 11405; 11407; 11409; 11411; 11413; 11415; 11417; 0]);
  dos t518 <- toLower_32 T t516 Null;
  let z519 := Z.lor z514 (if (list_eqb t517 t518) then 1099511627776 else 0) in
  dos t520 <- toLower_32 T t517 Null;
  dos t521 <- basic_string (At [11418; 11420; 11422; 11424; 11426; 11428; 11430; 11432; 11434; 0]);
  dos t522 <- basic_string (At [11419; 11421; 11423; 11425; 11427; 11429; 11431; 11433; 11435; 0]);
  dos t523 <- toLower_32 T t521 Null;
  let z524 := Z.lor z519 (if (list_eqb t522 t523) then 2199023255552 else 0) in
  dos t525 <- toLower_32 T t522 Null;
  dos t526 <- basic_string (At [11436; 11438; 11440; 11442; 11444; 11446; 11448; 11450; 11452; 0]);
  dos t527 <- basic_string (At [11437; 11439; 11441; 11443; 11445; 11447; 11449; 11451; 11453; 0]);
  dos t528 <- toLower_32 T t526 Null;
  let z529 := Z.lor z524 (if (list_eqb t527 t528) then 4398046511104 else 0) in
  dos t530 <- toLower_32 T t527 Null;
  dos t531 <- basic_string (At [11454; 11456; 11458; 11460; 11462; 11464; 11466; 11468; 11470; 0]);
  dos t532 <- basic_string (At [11455; 11457; 11459; 11461; 11463; 11465; 11467; 11469; 11471; 0]);
  dos t533 <- toLower_32 T t531 Null;
  let z534 := Z.lor z529 (if (list_eqb t532 t533) then 8796093022208 else 0) in
  dos t535 <- toLower_32 T t532 Null;
  dos t536 <- basic_string (At [11472; 11474; 11476; 11478; 11480; 11482; 11484; 11486; 11488; 0]);
  dos t537 <- basic_string (At [11473; 11475; 11477; 11479; 11481; 11483; 11485; 11487; 11489; 0]);
  dos t538 <- toLower_32 T t536 Null;
  let z539 := Z.lor z534 (if (list_eqb t537 t538) then 17592186044416 else 0) in
  dos t540 <- toLower_32 T t537 Null;
  dos t541 <- basic_string (At [11490; 11499; 11501; 11506; 42560; 42562; 42564; 42566; 42568; 0]);
  dos t542 <- basic_string (At [11491; 11500; 11502; 11507; 42561; 42563; 42565; 42567; 42569; 0]);
  dos t543 <- toLower_32 T t541 Null;
  let z544 := Z.lor z539 (if (list_eqb t542 t543) then 35184372088832 else 0) in
  dos t545 <- toLower_32 T t542 Null;
  dos t546 <- basic_string (At [42570; 42572; 42574; 42576; 42578; 42580; 42582; 42584; 42586; 0]);
  dos t547 <- basic_string (At [42571; 42573; 42575; 42577; 42579; 42581; 42583; 42585; 42587; 0]);
  dos t548 <- toLower_32 T t546 Null;
  let z549 := Z.lor z544 (if (list_eqb t547 t548) then 70368744177664 else 0) in
  dos t550 <- toLower_32 T t547 Null;
  dos t551 <- basic_string (At [42588; 42590; 42592; 42594; 42596; 42598; 42600; 42602; 42604; 0]);
  dos t552 <- basic_string (At [42589; 42591; 42593; 42595; 42597; 42599; 42601; 42603; 42605; 0]);
  dos t553 <- toLower_32 T t551 Null;
  let z554 := Z.lor z549 (if (list_eqb t552 t553) then 140737488355328 else 0) in
  dos t555 <- toLower_32 T t552 Null;
  dos t556 <- basic_string (At [42624; 42626; 42628; 42630; 42632; 42634; 42636; 42638; 42640; 0]);
  dos t557 <- basic_string (At [42625; 42627; 42629; 42631; 42633; 42635; 42637; 42639; 42641; 0]);
  dos t558 <- toLower_32 T t556 Null;
  let z559 := Z.lor z554 (if (list_eqb t557 t558) then 281474976710656 else 0) in
  dos t560 <- toLower_32 T t557 Null;
  dos t561 <- basic_string (At [42642; 42644; 42646; 42648; 42650; 42786; 42788; 42790; 42792; 0]);
  dos t562 <- basic_string (At [42643; 42645; 42647; 42649; 42651; 42787; 42789; 42791; 42793; 0]);
  dos t563 <- toLower_32 T t561 Null;
  let z564 := Z.lor z559 (if (list_eqb t562 t563) then 562949953421312 else 0) in
  dos t565 <- toLower_32 T t562 Null;
  dos t566 <- basic_string (At [42794; 42796; 42798; 42802; 42804; 42806; 42808; 42810; 42812; 0]);
  dos t567 <- basic_string (At [42795; 42797; 42799; 42803; 42805; 42807; 42809; 42811; 42813; 0]);
  dos t568 <- toLower_32 T t566 Null;
  let z569 := Z.lor z564 (if (list_eqb t567 t568) then 1125899906842624 else 0) in
  dos t570 <- toLower_32 T t567 Null;
  dos t571 <- basic_string (At [42814; 42816; 42818; 42820; 42822; 42824; 42826; 42828; 42830; 0]);
  dos t572 <- basic_string (At [42815; 42817; 42819; 42821; 42823; 42825; 42827; 42829; 42831; 0]);
  dos t573 <- toLower_32 T t571 Null;
  let z574 := Z.lor z569 (if (list_eqb t572 t573) then 2251799813685248 else 0) in
  dos t575 <- toLower_32 T t572 Null;
  dos t576 <- basic_string (At [42832; 42834; 42836; 42838; 42840; 42842; 42844; 42846; 42848; 0]);
  dos t577 <- basic_string (At [42833; 42835; 42837; 42839; 42841; 42843; 42845; 42847; 42849; 0]);
  dos t578 <- toLower_32 T t576 Null;
  let z579 := Z.lor z574 (if (list_eqb t577 t578) then 4503599627370496 else 0) in
  dos t580 <- toLower_32 T t577 Null;
  dos t581 <- basic_string (At [42850; 42852; 42854; 42856; 42858; 42860; 42862; 42873; 42875; 0]);
  dos t582 <- basic_string (At [42851; 42853; 42855; 42857; 42859; 42861; 42863; 42874; 42876; 0]);
  dos t583 <- toLower_32 T t581 Null;
  let z584 := Z.lor z579 (if (list_eqb t582 t583) then 9007199254740992 else 0) in
  dos t585 <- toLower_32 T t582 Null;
  dos t586 <- basic_string (At [42877; 42878; 42880; 42882; 42884; 42886; 42891; 42893; 42896; 0]);
  dos t587 <- basic_string (At [7545; 42879; 42881; 42883; 42885; 42887; 42892; 613; 42897; 0]);
  dos t588 <- toLower_32 T t586 Null;
  let z589 := Z.lor z584 (if (list_eqb t587 t588) then 18014398509481984 else 0) in
  dos t590 <- toLower_32 T t587 Null;
  dos t591 <- basic_string (At [42898; 42902; 42904; 42906; 42908; 42910; 42912; 42914; 42916; 0]);
  dos t592 <- basic_string (At [42899; 42903; 42905; 42907; 42909; 42911; 42913; 42915; 42917; 0]);
  dos t593 <- toLower_32 T t591 Null;
  let z594 := Z.lor z589 (if (list_eqb t592 t593) then 36028797018963968 else 0) in
  dos t595 <- toLower_32 T t592 Null;
  dos t596 <- basic_string (At [42918; 42920; 42922; 42923; 42924; 42925; 42926; 42928; 42929; 42930; 0]);
  dos t597 <- basic_string (At [42919; 42921; 614; 604; 609; 620; 618; 670; 647; 669; 0]);
  dos t598 <- toLower_32 T t596 Null;
  let z599 := Z.lor z594 (if (list_eqb t597 t598) then 72057594037927936 else 0) in
  dos t600 <- toLower_32 T t597 Null;
  dos t601 <- basic_string (At [42931; 42932; 42934; 42938; 42940; 42942; 42946; 42948; 42949; 42950; 0]);
  dos t602 <- basic_string (At [43859; 42933; 42935; 42939; 42941; 42943; 42947; 42900; 642; 7566; 0]);
  dos t603 <- toLower_32 T t601 Null;
  let z604 := Z.lor z599 (if (list_eqb t602 t603) then 144115188075855872 else 0) in
  dos t605 <- toLower_32 T t602 Null;
  dos t606 <- basic_string (At [65313; 65314; 65315; 65316; 65317; 65318; 65319; 65320; 65321; 65322; 0]);
  dos t607 <- basic_string (At [65345; 65346; 65347; 65348; 65349; 65350; 65351; 65352; 65353; 65354; 0]);
  dos t608 <- toLower_32 T t606 Null;
  let z609 := Z.lor z604 (if (list_eqb t607 t608) then 288230376151711744 else 0) in
  dos t610 <- toLower_32 T t607 Null;
  dos t611 <- basic_string (At [65323; 65324; 65325; 65326; 65327; 65328; 65329; 65330; 65331; 65332; 0]);
  dos t612 <- basic_string (At [65355; 65356; 65357; 65358; 65359; 65360; 65361; 65362; 65363; 65364; 0]);
  dos t613 <- toLower_32 T t611 Null;
  let z614 := Z.lor z609 (if (list_eqb t612 t613) then 576460752303423488 else 0) in
  dos t615 <- toLower_32 T t612 Null;
  dos t616 <- basic_string (At [65333; 65334; 65335; 65336; 65337; 65338; 66560; 66561; 66562; 66563; 0]);
  dos t617 <- basic_string (At [65365; 65366; 65367; 65368; 65369; 65370; 66600; 66601; 66602; 66603; 0]);
  dos t618 <- toLower_32 T t616 Null;
  let z619 := Z.lor z614 (if (list_eqb t617 t618) then 1152921504606846976 else 0) in
  dos t620 <- toLower_32 T t617 Null;
  dos t621 <- basic_string (At [66564; 66565; 66566; 66567; 66568; 66569; 66570; 66571; 66572; 66573; 0]);
  dos t622 <- basic_string (At [66604; 66605; 66606; 66607; 66608; 66609; 66610; 66611; 66612; 66613; 0]);
  dos t623 <- toLower_32 T t621 Null;
  let z624 := Z.lor z619 (if (list_eqb t622 t623) then 2305843009213693952 else 0) in
  dos t625 <- toLower_32 T t622 Null;
  dos t626 <- basic_string (At [66574; 66575; 66576; 66577; 66578; 66579; 66580; 66581; 66582; 66583; 0]);
  dos t627 <- basic_string (At [66614; 66615; 66616; 66617; 66618; 66619; 66620; 66621; 66622; 66623; 0]);
  dos t628 <- toLower_32 T t626 Null;
  let z629 := Z.lor z624 (if (list_eqb t627 t628) then 4611686018427387904 else 0) in
  dos t630 <- toLower_32 T t627 Null;
  dos t631 <- basic_string (At [66584; 66585; 66586; 66587; 66588; 66589; 66590; 66591; 66592; 66593; 0]);
  dos t632 <- basic_string (At [66624; 66625; 66626; 66627; 66628; 66629; 66630; 66631; 66632; 66633; 0]);
  dos t633 <- toLower_32 T t631 Null;
  let z634 := Z.lor 0 (if (list_eqb t632 t633) then 1 else 0) in
  dos t635 <- toLower_32 T t632 Null;
  dos t636 <- basic_string (At [66594; 66595; 66596; 66597; 66598; 66599; 68736; 68737; 68738; 0]);
  dos t637 <- basic_string (At [66634; 66635; 66636; 66637; 66638; 66639; 68800; 68801; 68802; 0]);
  dos t638 <- toLower_32 T t636 Null;
  let z639 := Z.lor z634 (if (list_eqb t637 t638) then 2 else 0) in
  dos t640 <- toLower_32 T t637 Null;
  dos t641 <- basic_string (At [68739; 68740; 68741; 68742; 68743; 68744; 68745; 68746; 68747; 0]);
  dos t642 <- basic_string (At [68803; 68804; 68805; 68806; 68807; 68808; 68809; 68810; 68811; 0]);
  dos t643 <- toLower_32 T t641 Null;
  let z644 := Z.lor z639 (if (list_eqb t642 t643) then 4 else 0) in
  dos t645 <- toLower_32 T t642 Null;
  dos t646 <- basic_string (At [68748; 68749; 68750; 68751; 68752; 68753; 68754; 68755; 68756; 0]);
  dos t647 <- basic_string (At [68812; 68813; 68814; 68815; 68816; 68817; 68818; 68819; 68820; 0]);
  dos t648 <- toLower_32 T t646 Null;
  let z649 := Z.lor z644 (if (list_eqb t647 t648) then 8 else 0) in
  dos t650 <- toLower_32 T t647 Null;
  dos t651 <- basic_string (At [68757; 68758; 68759; 68760; 68761; 68762; 68763; 68764; 68765; 0]);
  dos t652 <- basic_string (At [68821; 68822; 68823; 68824; 68825; 68826; 68827; 68828; 68829; 0]);
  dos t653 <- toLower_32 T t651 Null;
  let z654 := Z.lor z649 (if (list_eqb t652 t653) then 16 else 0) in
  dos t655 <- toLower_32 T t652 Null;
  dos t656 <- basic_string (At [68766; 68767; 68768; 68769; 68770; 68771; 68772; 68773; 68774; 0]);
  dos t657 <- basic_string (At [68830; 68831; 68832; 68833; 68834; 68835; 68836; 68837; 68838; 0]);
  dos t658 <- toLower_32 T t656 Null;
  let z659 := Z.lor z654 (if (list_eqb t657 t658) then 32 else 0) in
  dos t660 <- toLower_32 T t657 Null;
  dos t661 <- basic_string (At [68775; 68776; 68777; 68778; 68779; 68780; 68781; 68782; 68783; 0]);
  dos t662 <- basic_string (At [68839; 68840; 68841; 68842; 68843; 68844; 68845; 68846; 68847; 0]);
  dos t663 <- toLower_32 T t661 Null;
  let z664 := Z.lor z659 (if (list_eqb t662 t663) then 64 else 0) in
  dos t665 <- toLower_32 T t662 Null;
  dos t666 <- basic_string (At [68784; 68785; 68786; 71840; 71841; 71842; 71843; 71844; 71845; 0]);
  dos t667 <- basic_string (At [68848; 68849; 68850; 71872; 71873; 71874; 71875; 71876; 71877; 0]);
  dos t668 <- toLower_32 T t666 Null;
  let z669 := Z.lor z664 (if (list_eqb t667 t668) then 128 else 0) in
  dos t670 <- toLower_32 T t667 Null;
  dos t671 <- basic_string (At [71846; 71847; 71848; 71849; 71850; 71851; 71852; 71853; 71854; 0]);
  dos t672 <- basic_string (At [71878; 71879; 71880; 71881; 71882; 71883; 71884; 71885; 71886; 0]);
  dos t673 <- toLower_32 T t671 Null;
  let z674 := Z.lor z669 (if (list_eqb t672 t673) then 256 else 0) in
  dos t675 <- toLower_32 T t672 Null;
  dos t676 <- basic_string (At [71855; 71856; 71857; 71858; 71859; 71860; 71861; 71862; 71863; 0]);
  dos t677 <- basic_string (At [71887; 71888; 71889; 71890; 71891; 71892; 71893; 71894; 71895; 0]);
  dos t678 <- toLower_32 T t676 Null;
  let z679 := Z.lor z674 (if (list_eqb t677 t678) then 512 else 0) in
  dos t680 <- toLower_32 T t677 Null;
  dos t681 <- basic_string (At [71864; 71865; 71866; 71867; 71868; 71869; 71870; 71871; 0]);
  dos t682 <- basic_string (At [71896; 71897; 71898; 71899; 71900; 71901; 71902; 71903; 0]);
  dos t683 <- toLower_32 T t681 Null;
  let z684 := Z.lor z679 (if (list_eqb t682 t683) then 1024 else 0) in
  dos t685 <- toLower_32 T t682 Null;
  dos t686 <- basic_string (At [66736; 66737; 66738; 66739; 66740; 66741; 66742; 66743; 66744; 0]);
  dos t687 <- basic_string (At [66776; 66777; 66778; 66779; 66780; 66781; 66782; 66783; 66784; 0]);
  dos t688 <- toLower_32 T t686 Null;
  let z689 := Z.lor z684 (if (list_eqb t687 t688) then 2048 else 0) in
  dos t690 <- toLower_32 T t687 Null;
  dos t691 <- basic_string (At [66745; 66746; 66747; 66748; 66749; 66750; 66751; 66752; 66753; 0]);
  dos t692 <- basic_string (At [66785; 66786; 66787; 66788; 66789; 66790; 66791; 66792; 66793; 0]);
  dos t693 <- toLower_32 T t691 Null;
  let z694 := Z.lor z689 (if (list_eqb t692 t693) then 4096 else 0) in
  dos t695 <- toLower_32 T t692 Null;
  dos t696 <- basic_string (At [66754; 66755; 66756; 66757; 66758; 66759; 66760; 66761; 66762; 0]);
  dos t697 <- basic_string (At [66794; 66795; 66796; 66797; 66798; 66799; 66800; 66801; 66802; 0]);
  dos t698 <- toLower_32 T t696 Null;
  let z699 := Z.lor z694 (if (list_eqb t697 t698) then 8192 else 0) in
  dos t700 <- toLower_32 T t697 Null;
  dos t701 <- basic_string (At [66763; 66764; 66765; 66766; 66767; 66768; 66769; 66770; 66771; 0]);
  dos t702 <- basic_string (At [66803; 66804; 66805; 66806; 66807; 66808; 66809; 66810; 66811; 0]);
  dos t703 <- toLower_32 T t701 Null;
  let z704 := Z.lor z699 (if (list_eqb t702 t703) then 16384 else 0) in
  dos t705 <- toLower_32 T t702 Null;
  dos t706 <- basic_string (At [125184; 125185; 125186; 125187; 125188; 125189; 125190; 125191; 125192; 0]);
  dos t707 <- basic_string (At [125218; 125219; 125220; 125221; 125222; 125223; 125224; 125225; 125226; 0]);
  dos t708 <- toLower_32 T t706 Null;
  let z709 := Z.lor z704 (if (list_eqb t707 t708) then 32768 else 0) in
  dos t710 <- toLower_32 T t707 Null;
  dos t711 <- basic_string (At [125193; 125194; 125195; 125196; 125197; 125198; 125199; 125200; 125201; 0]);
  dos t712 <- basic_string (At [125227; 125228; 125229; 125230; 125231; 125232; 125233; 125234; 125235; 0]);
  dos t713 <- toLower_32 T t711 Null;
  let z714 := Z.lor z709 (if (list_eqb t712 t713) then 65536 else 0) in
  dos t715 <- toLower_32 T t712 Null;
  dos t716 <- basic_string (At [125202; 125203; 125204; 125205; 125206; 125207; 125208; 125209; 125210; 0]);
  dos t717 <- basic_string (At [125236; 125237; 125238; 125239; 125240; 125241; 125242; 125243; 125244; 0]);
  dos t718 <- toLower_32 T t716 Null;
  let z719 := Z.lor z714 (if (list_eqb t717 t718) then 131072 else 0) in
  dos t720 <- toLower_32 T t717 Null;
  dos t721 <- basic_string (At [125211; 125212; 125213; 125214; 125215; 125216; 125217; 0]);
  dos t722 <- basic_string (At [125245; 125246; 125247; 125248; 125249; 125250; 125251; 0]);
  dos t723 <- toLower_32 T t721 Null;
  let z724 := Z.lor z719 (if (list_eqb t722 t723) then 262144 else 0) in
  dos t725 <- toLower_32 T t722 Null;
  dos t726 <- basic_string (At [66928; 66929; 66930; 66931; 66932; 66933; 66934; 66935; 66936; 0]);
  dos t727 <- basic_string (At [66967; 66968; 66969; 66970; 66971; 66972; 66973; 66974; 66975; 0]);
  dos t728 <- toLower_32 T t726 Null;
  let z729 := Z.lor z724 (if (list_eqb t727 t728) then 524288 else 0) in
  dos t730 <- toLower_32 T t727 Null;
  dos t731 <- basic_string (At [66937; 66938; 66940; 66941; 66942; 66943; 66944; 66945; 66946; 0]);
  dos t732 <- basic_string (At [66976; 66977; 66979; 66980; 66981; 66982; 66983; 66984; 66985; 0]);
  dos t733 <- toLower_32 T t731 Null;
  let z734 := Z.lor z729 (if (list_eqb t732 t733) then 1048576 else 0) in
  dos t735 <- toLower_32 T t732 Null;
  dos t736 <- basic_string (At [66947; 66948; 66949; 66950; 66951; 66952; 66953; 66954; 66956; 0]);
  dos t737 <- basic_string (At [66986; 66987; 66988; 66989; 66990; 66991; 66992; 66993; 66995; 0]);
  dos t738 <- toLower_32 T t736 Null;
  let z739 := Z.lor z734 (if (list_eqb t737 t738) then 2097152 else 0) in
  dos t740 <- toLower_32 T t737 Null;
  dos t741 <- basic_string (At [66957; 66958; 66959; 66960; 66961; 66962; 66964; 66965; 0]);
  dos t742 <- basic_string (At [66996; 66997; 66998; 66999; 67000; 67001; 67003; 67004; 0]);
  dos t743 <- toLower_32 T t741 Null;
  let z744 := Z.lor z739 (if (list_eqb t742 t743) then 4194304 else 0) in
  dos t745 <- toLower_32 T t742 Null;
  Done [(match t1 with [] => true | _ => false end);
        (list_eqb t3 t6);
        (list_eqb t8 t11);
        (list_eqb t13 t16);
        (list_eqb t18 t21);
        (list_eqb t23 t26);
        (list_eqb t28 t31);
        (list_eqb t33 t36);
        (list_eqb t38 t41);
        (list_eqb t43 t46);
        (list_eqb t48 t51);
        (list_eqb t53 t56);
        (list_eqb t58 t61);
        (list_eqb t63 t66);
        (list_eqb t72 t75);
        (list_eqb t77 t80);
        (list_eqb t82 t85);
        (list_eqb t87 t90);
        (list_eqb t92 t95);
        (list_eqb t97 t100);
        (list_eqb t102 t105);
        (list_eqb t107 t110);
        (list_eqb t112 t115);
        (list_eqb t117 t120);
        (list_eqb t122 t125);
        (list_eqb t127 t130);
        (list_eqb t132 t135);
        (list_eqb t137 t140);
        (list_eqb t142 t145);
        (list_eqb t147 t150);
        (list_eqb t152 t155);
        (list_eqb t157 t160);
        (list_eqb t162 t165);
        (list_eqb t167 t170);
        (list_eqb t172 t175);
        (list_eqb t177 t180);
        (list_eqb t182 t185);
        (list_eqb t187 t190);
        (list_eqb t192 t195);
        (list_eqb t197 t200);
        (list_eqb t202 t205);
        (list_eqb t207 t210);
        (list_eqb t212 t215);
        (list_eqb t217 t220);
        (list_eqb t222 t225);
        (list_eqb t227 t230);
        (list_eqb t232 t235);
        (list_eqb t237 t240);
        (list_eqb t242 t245);
        (list_eqb t247 t250);
        (list_eqb t252 t255);
        (list_eqb t257 t260);
        (list_eqb t262 t265);
        (list_eqb t267 t270);
        (list_eqb t272 t275);
        (list_eqb t277 t280);
        (list_eqb t282 t285);
        (list_eqb t287 t290);
        (list_eqb t292 t295);
        (list_eqb t297 t300);
        (list_eqb t302 t305);
        (list_eqb t307 t310);
        (list_eqb t312 t315);
        (list_eqb t317 t320);
        (list_eqb t322 t325);
        (list_eqb t327 t330);
        (list_eqb t332 t335);
        (list_eqb t337 t340);
        (list_eqb t342 t345);
        (list_eqb t347 t350);
        (list_eqb t352 t355);
        (list_eqb t357 t360);
        (list_eqb t362 t365);
        (list_eqb t367 t370);
        (list_eqb t372 t375);
        (list_eqb t377 t380);
        (list_eqb t382 t385);
        (list_eqb t387 t390);
        (list_eqb t392 t395);
        (list_eqb t397 t400);
        (list_eqb t402 t405);
        (list_eqb t407 t410);
        (list_eqb t412 t415);
        (list_eqb t417 t420);
        (list_eqb t422 t425);
        (list_eqb t427 t430);
        (list_eqb t432 t435);
        (list_eqb t437 t440);
        (list_eqb t442 t445);
        (list_eqb t447 t450);
        (list_eqb t452 t455);
        (list_eqb t457 t460);
        (list_eqb t462 t465);
        (list_eqb t467 t470);
        (list_eqb t472 t475);
        (list_eqb t477 t480);
        (list_eqb t482 t485);
        (list_eqb t487 t490);
        (list_eqb t492 t495);
        (list_eqb t497 t500);
        (list_eqb t502 t505);
        (list_eqb t507 t510);
        (list_eqb t512 t515);
        (list_eqb t517 t520);
        (list_eqb t522 t525);
        (list_eqb t527 t530);
        (list_eqb t532 t535);
        (list_eqb t537 t540);
        (list_eqb t542 t545);
        (list_eqb t547 t550);
        (list_eqb t552 t555);
        (list_eqb t557 t560);
        (list_eqb t562 t565);
        (list_eqb t567 t570);
        (list_eqb t572 t575);
        (list_eqb t577 t580);
        (list_eqb t582 t585);
        (list_eqb t587 t590);
        (list_eqb t592 t595);
        (list_eqb t597 t600);
        (list_eqb t602 t605);
        (list_eqb t607 t610);
        (list_eqb t612 t615);
        (list_eqb t617 t620);
        (list_eqb t622 t625);
        (list_eqb t627 t630);
        (list_eqb t632 t635);
        (list_eqb t637 t640);
        (list_eqb t642 t645);
        (list_eqb t647 t650);
        (list_eqb t652 t655);
        (list_eqb t657 t660);
        (list_eqb t662 t665);
        (list_eqb t667 t670);
        (list_eqb t672 t675);
        (list_eqb t677 t680);
        (list_eqb t682 t685);
        (list_eqb t687 t690);
        (list_eqb t692 t695);
        (list_eqb t697 t700);
        (list_eqb t702 t705);
        (list_eqb t707 t710);
        (list_eqb t712 t715);
        (list_eqb t717 t720);
        (list_eqb t722 t725);
        (list_eqb t727 t730);
        (list_eqb t732 t735);
        (list_eqb t737 t740);
        (list_eqb t742 t745);
        (9223372036854775807 =? z314);
        (9223372036854775807 =? z629);
        (524287 =? z744)].
Example run_testThirtyTwoBitToLowers_passes : forallb (fun V => all_true (run_testThirtyTwoBitToLowers (tables V))) [V14] = true.
Proof. vm_cast_no_check (eq_refl true). Qed.

(* testPageZeroUnshiftables, 6 checks *)
Definition run_testPageZeroUnshiftables (T : UnicodeTables) : outcome (list bool) :=
  dos t1 <- basic_string (At [1; 2; 3; 4; 5; 6; 7; 8; 9; 10; 11; 12; 13; 14; 15; 16; 17; 18; 19; 20; 21; 22; 23; 24; 25; 26; 27; 28; 29; 30; 31; 32; 33; 34; 35; 36; 37; 38; 39; 40; 41; 42; 43; 44; 45; 46; 47; 48; 49; 50; 51; 52; 53; 54; 55; 56; 57; 58; 59; 60; 61; 62; 63; 64; 92; 93; 94; 95; 96; 97; 98; 99; 100; 101; 102; 103; 104; 105; 106; 107; 108; 109; 110; 111; 112; 113; 114; 115; 116; 117; 118; 119; 120; 121; 122; 123; 124; 125; 126; 127; 0]);
  dos t2 <- toLower_8 T t1 Null;
  dos t3 <- basic_string (At [312; 329; 397; 411; 426; 427; 442; 443; 446; 448; 449; 450; 451; 496; 0]);
  dos t4 <- toLower_16 T t3 Null;
  dos t5 <- basic_string (At [545; 564; 565; 566; 567; 568; 569; 0]);
  dos t6 <- toLower_16 T t5 Null;
  dos t7 <- basic_string (At [884; 885; 888; 889; 890; 894; 896; 897; 898; 899; 900; 901; 903; 907; 909; 912; 930; 944; 978; 979; 980; 1014; 1020; 0]);
  dos t8 <- toLower_16 T t7 Null;
  dos t9 <- basic_string (At [1154; 1155; 1156; 1157; 1158; 1159; 1160; 1161; 1231; 0]);
  dos t10 <- toLower_16 T t9 Null;
  dos t11 <- basic_string (At [1408; 1409; 1410; 1411; 1412; 1413; 1414; 1415; 1416; 1417; 1418; 1419; 1420; 1421; 1422; 1423; 1424; 1425; 1426; 1427; 1428; 1429; 1430; 1431; 1432; 1433; 1434; 1435; 1436; 1437; 1438; 1439; 0]);
  dos t12 <- toLower_16 T t11 Null;
  Done [(list_eqb t1 t2);
        (list_eqb t3 t4);
        (list_eqb t5 t6);
        (list_eqb t7 t8);
        (list_eqb t9 t10);
        (list_eqb t11 t12)].
Example run_testPageZeroUnshiftables_passes : forallb (fun V => all_true (run_testPageZeroUnshiftables (tables V))) [V14] = true.
Proof. vm_cast_no_check (eq_refl true). Qed.

(* testPageOneUnshiftables, 1 checks *)
Definition run_testPageOneUnshiftables (T : UnicodeTables) : outcome (list bool) :=
  dos t1 <- basic_string (At [4255; 4294; 4296; 4297; 4298; 4299; 4300; 4302; 4303; 4304; 5023; 5110; 5111; 5112; 5113; 5114; 5115; 5116; 5117; 5118; 5119; 7679; 8189; 8190; 8191; 0]);
  dos t2 <- toLower_16 T t1 Null;
  Done [(list_eqb t1 t2)].
Example run_testPageOneUnshiftables_passes : forallb (fun V => all_true (run_testPageOneUnshiftables (tables V))) [V14] = true.
Proof. vm_cast_no_check (eq_refl true). Qed.

(* testPageTwoUnshiftables, 1 checks *)
Definition run_testPageTwoUnshiftables (T : UnicodeTables) : outcome (list bool) :=
  dos t1 <- basic_string (At [8543; 8576; 8577; 8578; 8581; 8582; 8583; 8584; 8585; 9392; 9393; 9394; 9395; 9396; 9397; 9450; 9451; 9452; 9453; 9454; 9455; 11260; 11261; 11262; 11263; 11377; 11380; 11383; 11384; 11385; 11386; 11387; 11388; 11389; 11492; 11493; 11494; 11495; 11496; 11497; 11498; 11503; 11504; 11505; 11508; 11509; 11510; 11511; 11512; 11513; 11514; 11515; 11516; 11517; 11518; 11519; 11558; 11560; 11561; 11562; 11563; 11564; 11566; 11567; 11568; 0]);
  dos t2 <- toLower_16 T t1 Null;
  Done [(list_eqb t1 t2)].
Example run_testPageTwoUnshiftables_passes : forallb (fun V => all_true (run_testPageTwoUnshiftables (tables V))) [V14] = true.
Proof. vm_cast_no_check (eq_refl true). Qed.

(* testPageAToFUnshiftables, 1 checks *)
Definition run_testPageAToFUnshiftables (T : UnicodeTables) : outcome (list bool) :=
  dos t1 <- basic_string (At [42495; 42507; 42519; 42531; 42544; 42551; 42556; 42557; 42558; 42559; 42606; 42607; 42608; 42613; 42618; 42623; 42652; 42653; 42654; 42655; 42752; 42764; 42770; 42776; 42782; 42785; 42800; 42801; 42864; 42865; 42866; 42867; 42868; 42869; 42870; 42871; 42872; 42888; 42889; 42890; 42894; 42895; 42900; 42901; 42927; 42936; 42937; 43968; 43984; 44000; 44016; 65280; 65284; 65288; 65292; 65296; 65304; 65308; 65311; 65312; 65339; 65340; 65341; 65342; 65343; 65344; 65371; 65372; 65373; 65374; 65375; 65376; 0]);
  dos t2 <- toLower_16 T t1 Null;
  Done [(list_eqb t1 t2)].
Example run_testPageAToFUnshiftables_passes : forallb (fun V => all_true (run_testPageAToFUnshiftables (tables V))) [V14] = true.
Proof. vm_cast_no_check (eq_refl true). Qed.

(* testPlane1Unshiftables, 1 checks *)
Definition run_testPlane1Unshiftables (T : UnicodeTables) : outcome (list bool) :=
  dos t1 <- basic_string (At [66557; 66558; 66559; 66640; 66641; 66642; 66643; 68733; 68734; 68735; 68787; 68788; 68789; 68790; 68796; 68797; 68798; 68799; 68851; 68852; 68853; 71837; 71838; 71839; 71904; 71905; 71906; 71907; 0]);
  dos t2 <- toLower_32 T t1 Null;
  Done [(list_eqb t1 t2)].
Example run_testPlane1Unshiftables_passes : forallb (fun V => all_true (run_testPlane1Unshiftables (tables V))) [V14] = true.
Proof. vm_cast_no_check (eq_refl true). Qed.

(* testCoverageGaps, 1 checks *)
Definition run_testCoverageGaps (T : UnicodeTables) : outcome (list bool) :=
  dos t1 <- basic_string (At [7966; 7967; 8014; 8015; 8024; 8026; 8028; 8030; 0]);
  dos t2 <- toLower_16 T t1 Null;
  Done [(list_eqb t1 t2)].
Example run_testCoverageGaps_passes : forallb (fun V => all_true (run_testCoverageGaps (tables V))) [V14] = true.
Proof. vm_cast_no_check (eq_refl true). Qed.
