(* The name mapping tables of libfsapfs_name.c and libfsapfs_name_hash.c, copied by a
   script that also checked that every table has the declared number of elements, that the
   comment in front of every element is its code point, and that every count of characters
   is the number of characters listed. A table is given with the bounds that the macros
   in libfsapfs_name.h test before indexing it. *)
From Verif Require Import Base.

(* libfsapfs_name.c 33-562 *)
Definition fold_40 : list Z :=
  [
    64; 97; 98; 99; 100; 101; 102; 103; 104; 105; 106; 107; 108; 109; 110; 111; 112; 113; 114; 115;
    116; 117; 118; 119; 120; 121; 122; 91; 92; 93; 94; 95; 96; 97; 98; 99; 100; 101; 102; 103; 104;
    105; 106; 107; 108; 109; 110; 111; 112; 113; 114; 115; 116; 117; 118; 119; 120; 121; 122; 123;
    124; 125; 126; 127; 128; 129; 130; 131; 132; 133; 134; 135; 136; 137; 138; 139; 140; 141; 142;
    143; 144; 145; 146; 147; 148; 149; 150; 151; 152; 153; 154; 155; 156; 157; 158; 159; 160; 161;
    162; 163; 164; 165; 166; 167; 168; 169; 170; 171; 172; 173; 174; 175; 176; 177; 178; 179; 180;
    956; 182; 183; 184; 185; 186; 187; 188; 189; 190; 191; 224; 225; 226; 227; 228; 229; 230; 231;
    232; 233; 234; 235; 236; 237; 238; 239; 240; 241; 242; 243; 244; 245; 246; 215; 248; 249; 250;
    251; 252; 253; 254; 223; 224; 225; 226; 227; 228; 229; 230; 231; 232; 233; 234; 235; 236; 237;
    238; 239; 240; 241; 242; 243; 244; 245; 246; 247; 248; 249; 250; 251; 252; 253; 254; 255; 257;
    257; 259; 259; 261; 261; 263; 263; 265; 265; 267; 267; 269; 269; 271; 271; 273; 273; 275; 275;
    277; 277; 279; 279; 281; 281; 283; 283; 285; 285; 287; 287; 289; 289; 291; 291; 293; 293; 295;
    295; 297; 297; 299; 299; 301; 301; 303; 303; 304; 305; 307; 307; 309; 309; 311; 311; 312; 314;
    314; 316; 316; 318; 318; 320; 320; 322; 322; 324; 324; 326; 326; 328; 328; 329; 331; 331; 333;
    333; 335; 335; 337; 337; 339; 339; 341; 341; 343; 343; 345; 345; 347; 347; 349; 349; 351; 351;
    353; 353; 355; 355; 357; 357; 359; 359; 361; 361; 363; 363; 365; 365; 367; 367; 369; 369; 371;
    371; 373; 373; 375; 375; 255; 378; 378; 380; 380; 382; 382; 115; 384; 595; 387; 387; 389; 389;
    596; 392; 392; 598; 599; 396; 396; 397; 477; 601; 603; 402; 402; 608; 611; 405; 617; 616; 409;
    409; 410; 411; 623; 626; 414; 629; 417; 417; 419; 419; 421; 421; 640; 424; 424; 643; 426; 427;
    429; 429; 648; 432; 432; 650; 651; 436; 436; 438; 438; 658; 441; 441; 442; 443; 445; 445; 446;
    447; 448; 449; 450; 451; 454; 454; 454; 457; 457; 457; 460; 460; 460; 462; 462; 464; 464; 466;
    466; 468; 468; 470; 470; 472; 472; 474; 474; 476; 476; 477; 479; 479; 481; 481; 483; 483; 485;
    485; 487; 487; 489; 489; 491; 491; 493; 493; 495; 495; 496; 499; 499; 499; 501; 501; 405; 447;
    505; 505; 507; 507; 509; 509; 511; 511; 513; 513; 515; 515; 517; 517; 519; 519; 521; 521; 523;
    523; 525; 525; 527; 527; 529; 529; 531; 531; 533; 533; 535; 535; 537; 537; 539; 539; 541; 541;
    543; 543; 414; 545; 547; 547; 549; 549; 551; 551; 553; 553; 555; 555; 557; 557; 559; 559; 561;
    561; 563; 563; 564; 565; 566; 567; 568; 569; 11365; 572; 572; 410; 11366; 575; 576; 578; 578;
    384; 649; 652; 583; 583; 585; 585; 587; 587; 589; 589; 591; 591
  ].

(* libfsapfs_name.c 564-1101 *)
Definition fold_340 : list Z :=
  [
    832; 833; 834; 835; 836; 953; 838; 839; 840; 841; 842; 843; 844; 845; 846; 847; 848; 849; 850;
    851; 852; 853; 854; 855; 856; 857; 858; 859; 860; 861; 862; 863; 864; 865; 866; 867; 868; 869;
    870; 871; 872; 873; 874; 875; 876; 877; 878; 879; 881; 881; 883; 883; 884; 885; 887; 887; 888;
    889; 890; 891; 892; 893; 894; 1011; 896; 897; 898; 899; 900; 901; 940; 903; 941; 942; 943; 907;
    972; 909; 973; 974; 912; 945; 946; 947; 948; 949; 950; 951; 952; 953; 954; 955; 956; 957; 958;
    959; 960; 961; 930; 963; 964; 965; 966; 967; 968; 969; 970; 971; 940; 941; 942; 943; 944; 945;
    946; 947; 948; 949; 950; 951; 952; 953; 954; 955; 956; 957; 958; 959; 960; 961; 963; 963; 964;
    965; 966; 967; 968; 969; 970; 971; 972; 973; 974; 983; 946; 952; 978; 979; 980; 966; 960; 983;
    985; 985; 987; 987; 989; 989; 991; 991; 993; 993; 995; 995; 997; 997; 999; 999; 1001; 1001; 1003;
    1003; 1005; 1005; 1007; 1007; 954; 961; 1010; 1011; 952; 949; 1014; 1016; 1016; 1010; 1019; 1019;
    1020; 891; 892; 893; 1104; 1105; 1106; 1107; 1108; 1109; 1110; 1111; 1112; 1113; 1114; 1115;
    1116; 1117; 1118; 1119; 1072; 1073; 1074; 1075; 1076; 1077; 1078; 1079; 1080; 1081; 1082; 1083;
    1084; 1085; 1086; 1087; 1088; 1089; 1090; 1091; 1092; 1093; 1094; 1095; 1096; 1097; 1098; 1099;
    1100; 1101; 1102; 1103; 1072; 1073; 1074; 1075; 1076; 1077; 1078; 1079; 1080; 1081; 1082; 1083;
    1084; 1085; 1086; 1087; 1088; 1089; 1090; 1091; 1092; 1093; 1094; 1095; 1096; 1097; 1098; 1099;
    1100; 1101; 1102; 1103; 1104; 1105; 1106; 1107; 1108; 1109; 1110; 1111; 1112; 1113; 1114; 1115;
    1116; 1117; 1118; 1119; 1121; 1121; 1123; 1123; 1125; 1125; 1127; 1127; 1129; 1129; 1131; 1131;
    1133; 1133; 1135; 1135; 1137; 1137; 1139; 1139; 1141; 1141; 1143; 1143; 1145; 1145; 1147; 1147;
    1149; 1149; 1151; 1151; 1153; 1153; 1154; 1155; 1156; 1157; 1158; 1159; 1160; 1161; 1163; 1163;
    1165; 1165; 1167; 1167; 1169; 1169; 1171; 1171; 1173; 1173; 1175; 1175; 1177; 1177; 1179; 1179;
    1181; 1181; 1183; 1183; 1185; 1185; 1187; 1187; 1189; 1189; 1191; 1191; 1193; 1193; 1195; 1195;
    1197; 1197; 1199; 1199; 1201; 1201; 1203; 1203; 1205; 1205; 1207; 1207; 1209; 1209; 1211; 1211;
    1213; 1213; 1215; 1215; 1231; 1218; 1218; 1220; 1220; 1222; 1222; 1224; 1224; 1226; 1226; 1228;
    1228; 1230; 1230; 1231; 1233; 1233; 1235; 1235; 1237; 1237; 1239; 1239; 1241; 1241; 1243; 1243;
    1245; 1245; 1247; 1247; 1249; 1249; 1251; 1251; 1253; 1253; 1255; 1255; 1257; 1257; 1259; 1259;
    1261; 1261; 1263; 1263; 1265; 1265; 1267; 1267; 1269; 1269; 1271; 1271; 1273; 1273; 1275; 1275;
    1277; 1277; 1279; 1279; 1281; 1281; 1283; 1283; 1285; 1285; 1287; 1287; 1289; 1289; 1291; 1291;
    1293; 1293; 1295; 1295; 1297; 1297; 1299; 1299; 1301; 1301; 1303; 1303; 1305; 1305; 1307; 1307;
    1309; 1309; 1311; 1311; 1313; 1313; 1315; 1315; 1317; 1317; 1319; 1319; 1321; 1321; 1323; 1323;
    1325; 1325; 1327; 1327; 1328; 1377; 1378; 1379; 1380; 1381; 1382; 1383; 1384; 1385; 1386; 1387;
    1388; 1389; 1390; 1391; 1392; 1393; 1394; 1395; 1396; 1397; 1398; 1399; 1400; 1401; 1402; 1403;
    1404; 1405; 1406; 1407; 1408; 1409; 1410; 1411; 1412; 1413; 1414; 1367
  ].

(* libfsapfs_name.c 1103-1152 *)
Definition fold_10a0 : list Z :=
  [
    11520; 11521; 11522; 11523; 11524; 11525; 11526; 11527; 11528; 11529; 11530; 11531; 11532; 11533;
    11534; 11535; 11536; 11537; 11538; 11539; 11540; 11541; 11542; 11543; 11544; 11545; 11546; 11547;
    11548; 11549; 11550; 11551; 11552; 11553; 11554; 11555; 11556; 11557; 4294; 11559; 4296; 4297;
    4298; 4299; 4300; 11565; 4302; 4303
  ].

(* libfsapfs_name.c 1154-1163 *)
Definition fold_13f8 : list Z :=
  [
    5104; 5105; 5106; 5107; 5108; 5109; 5118; 5119
  ].

(* libfsapfs_name.c 1165-1230 *)
Definition fold_1c80 : list Z :=
  [
    1074; 1076; 1086; 1089; 1090; 1090; 1098; 1123; 42571; 7305; 7306; 7307; 7308; 7309; 7310; 7311;
    4304; 4305; 4306; 4307; 4308; 4309; 4310; 4311; 4312; 4313; 4314; 4315; 4316; 4317; 4318; 4319;
    4320; 4321; 4322; 4323; 4324; 4325; 4326; 4327; 4328; 4329; 4330; 4331; 4332; 4333; 4334; 4335;
    4336; 4337; 4338; 4339; 4340; 4341; 4342; 4343; 4344; 4345; 4346; 4347; 4348; 4349; 4350; 4351
  ].

(* libfsapfs_name.c 1232-1745 *)
Definition fold_1e00 : list Z :=
  [
    7681; 7681; 7683; 7683; 7685; 7685; 7687; 7687; 7689; 7689; 7691; 7691; 7693; 7693; 7695; 7695;
    7697; 7697; 7699; 7699; 7701; 7701; 7703; 7703; 7705; 7705; 7707; 7707; 7709; 7709; 7711; 7711;
    7713; 7713; 7715; 7715; 7717; 7717; 7719; 7719; 7721; 7721; 7723; 7723; 7725; 7725; 7727; 7727;
    7729; 7729; 7731; 7731; 7733; 7733; 7735; 7735; 7737; 7737; 7739; 7739; 7741; 7741; 7743; 7743;
    7745; 7745; 7747; 7747; 7749; 7749; 7751; 7751; 7753; 7753; 7755; 7755; 7757; 7757; 7759; 7759;
    7761; 7761; 7763; 7763; 7765; 7765; 7767; 7767; 7769; 7769; 7771; 7771; 7773; 7773; 7775; 7775;
    7777; 7777; 7779; 7779; 7781; 7781; 7783; 7783; 7785; 7785; 7787; 7787; 7789; 7789; 7791; 7791;
    7793; 7793; 7795; 7795; 7797; 7797; 7799; 7799; 7801; 7801; 7803; 7803; 7805; 7805; 7807; 7807;
    7809; 7809; 7811; 7811; 7813; 7813; 7815; 7815; 7817; 7817; 7819; 7819; 7821; 7821; 7823; 7823;
    7825; 7825; 7827; 7827; 7829; 7829; 7830; 7831; 7832; 7833; 7834; 7777; 7836; 7837; 223; 7839;
    7841; 7841; 7843; 7843; 7845; 7845; 7847; 7847; 7849; 7849; 7851; 7851; 7853; 7853; 7855; 7855;
    7857; 7857; 7859; 7859; 7861; 7861; 7863; 7863; 7865; 7865; 7867; 7867; 7869; 7869; 7871; 7871;
    7873; 7873; 7875; 7875; 7877; 7877; 7879; 7879; 7881; 7881; 7883; 7883; 7885; 7885; 7887; 7887;
    7889; 7889; 7891; 7891; 7893; 7893; 7895; 7895; 7897; 7897; 7899; 7899; 7901; 7901; 7903; 7903;
    7905; 7905; 7907; 7907; 7909; 7909; 7911; 7911; 7913; 7913; 7915; 7915; 7917; 7917; 7919; 7919;
    7921; 7921; 7923; 7923; 7925; 7925; 7927; 7927; 7929; 7929; 7931; 7931; 7933; 7933; 7935; 7935;
    7936; 7937; 7938; 7939; 7940; 7941; 7942; 7943; 7936; 7937; 7938; 7939; 7940; 7941; 7942; 7943;
    7952; 7953; 7954; 7955; 7956; 7957; 7958; 7959; 7952; 7953; 7954; 7955; 7956; 7957; 7966; 7967;
    7968; 7969; 7970; 7971; 7972; 7973; 7974; 7975; 7968; 7969; 7970; 7971; 7972; 7973; 7974; 7975;
    7984; 7985; 7986; 7987; 7988; 7989; 7990; 7991; 7984; 7985; 7986; 7987; 7988; 7989; 7990; 7991;
    8000; 8001; 8002; 8003; 8004; 8005; 8006; 8007; 8000; 8001; 8002; 8003; 8004; 8005; 8014; 8015;
    8016; 8017; 8018; 8019; 8020; 8021; 8022; 8023; 8024; 8017; 8026; 8019; 8028; 8021; 8030; 8023;
    8032; 8033; 8034; 8035; 8036; 8037; 8038; 8039; 8032; 8033; 8034; 8035; 8036; 8037; 8038; 8039;
    8048; 8049; 8050; 8051; 8052; 8053; 8054; 8055; 8056; 8057; 8058; 8059; 8060; 8061; 8062; 8063;
    8064; 8065; 8066; 8067; 8068; 8069; 8070; 8071; 8064; 8065; 8066; 8067; 8068; 8069; 8070; 8071;
    8080; 8081; 8082; 8083; 8084; 8085; 8086; 8087; 8080; 8081; 8082; 8083; 8084; 8085; 8086; 8087;
    8096; 8097; 8098; 8099; 8100; 8101; 8102; 8103; 8096; 8097; 8098; 8099; 8100; 8101; 8102; 8103;
    8112; 8113; 8114; 8115; 8116; 8117; 8118; 8119; 8112; 8113; 8048; 8049; 8115; 8125; 953; 8127;
    8128; 8129; 8130; 8131; 8132; 8133; 8134; 8135; 8050; 8051; 8052; 8053; 8131; 8141; 8142; 8143;
    8144; 8145; 8146; 8147; 8148; 8149; 8150; 8151; 8144; 8145; 8054; 8055; 8156; 8157; 8158; 8159;
    8160; 8161; 8162; 8163; 8164; 8165; 8166; 8167; 8160; 8161; 8058; 8059; 8165; 8173; 8174; 8175;
    8176; 8177; 8178; 8179; 8180; 8181; 8182; 8183; 8056; 8057; 8060; 8061; 8179; 8189; 8190; 8191
  ].

(* libfsapfs_name.c 1747-1852 *)
Definition fold_2120 : list Z :=
  [
    8480; 8481; 8482; 8483; 8484; 8485; 969; 8487; 8488; 8489; 107; 229; 8492; 8493; 8494; 8495;
    8496; 8497; 8526; 8499; 8500; 8501; 8502; 8503; 8504; 8505; 8506; 8507; 8508; 8509; 8510; 8511;
    8512; 8513; 8514; 8515; 8516; 8517; 8518; 8519; 8520; 8521; 8522; 8523; 8524; 8525; 8526; 8527;
    8528; 8529; 8530; 8531; 8532; 8533; 8534; 8535; 8536; 8537; 8538; 8539; 8540; 8541; 8542; 8543;
    8560; 8561; 8562; 8563; 8564; 8565; 8566; 8567; 8568; 8569; 8570; 8571; 8572; 8573; 8574; 8575;
    8560; 8561; 8562; 8563; 8564; 8565; 8566; 8567; 8568; 8569; 8570; 8571; 8572; 8573; 8574; 8575;
    8576; 8577; 8578; 8580; 8580; 8581; 8582; 8583
  ].

(* libfsapfs_name.c 1854-1887 *)
Definition fold_24b0 : list Z :=
  [
    9392; 9393; 9394; 9395; 9396; 9397; 9424; 9425; 9426; 9427; 9428; 9429; 9430; 9431; 9432; 9433;
    9434; 9435; 9436; 9437; 9438; 9439; 9440; 9441; 9442; 9443; 9444; 9445; 9446; 9447; 9448; 9449
  ].

(* libfsapfs_name.c 1889-2138 *)
Definition fold_2c00 : list Z :=
  [
    11312; 11313; 11314; 11315; 11316; 11317; 11318; 11319; 11320; 11321; 11322; 11323; 11324; 11325;
    11326; 11327; 11328; 11329; 11330; 11331; 11332; 11333; 11334; 11335; 11336; 11337; 11338; 11339;
    11340; 11341; 11342; 11343; 11344; 11345; 11346; 11347; 11348; 11349; 11350; 11351; 11352; 11353;
    11354; 11355; 11356; 11357; 11358; 11311; 11312; 11313; 11314; 11315; 11316; 11317; 11318; 11319;
    11320; 11321; 11322; 11323; 11324; 11325; 11326; 11327; 11328; 11329; 11330; 11331; 11332; 11333;
    11334; 11335; 11336; 11337; 11338; 11339; 11340; 11341; 11342; 11343; 11344; 11345; 11346; 11347;
    11348; 11349; 11350; 11351; 11352; 11353; 11354; 11355; 11356; 11357; 11358; 11359; 11361; 11361;
    619; 7549; 637; 11365; 11366; 11368; 11368; 11370; 11370; 11372; 11372; 593; 625; 592; 594;
    11377; 11379; 11379; 11380; 11382; 11382; 11383; 11384; 11385; 11386; 11387; 11388; 11389; 575;
    576; 11393; 11393; 11395; 11395; 11397; 11397; 11399; 11399; 11401; 11401; 11403; 11403; 11405;
    11405; 11407; 11407; 11409; 11409; 11411; 11411; 11413; 11413; 11415; 11415; 11417; 11417; 11419;
    11419; 11421; 11421; 11423; 11423; 11425; 11425; 11427; 11427; 11429; 11429; 11431; 11431; 11433;
    11433; 11435; 11435; 11437; 11437; 11439; 11439; 11441; 11441; 11443; 11443; 11445; 11445; 11447;
    11447; 11449; 11449; 11451; 11451; 11453; 11453; 11455; 11455; 11457; 11457; 11459; 11459; 11461;
    11461; 11463; 11463; 11465; 11465; 11467; 11467; 11469; 11469; 11471; 11471; 11473; 11473; 11475;
    11475; 11477; 11477; 11479; 11479; 11481; 11481; 11483; 11483; 11485; 11485; 11487; 11487; 11489;
    11489; 11491; 11491; 11492; 11493; 11494; 11495; 11496; 11497; 11498; 11500; 11500; 11502; 11502;
    11503; 11504; 11505; 11507; 11507; 11508; 11509; 11510; 11511
  ].

(* libfsapfs_name.c 2140-2237 *)
Definition fold_a640 : list Z :=
  [
    42561; 42561; 42563; 42563; 42565; 42565; 42567; 42567; 42569; 42569; 42571; 42571; 42573; 42573;
    42575; 42575; 42577; 42577; 42579; 42579; 42581; 42581; 42583; 42583; 42585; 42585; 42587; 42587;
    42589; 42589; 42591; 42591; 42593; 42593; 42595; 42595; 42597; 42597; 42599; 42599; 42601; 42601;
    42603; 42603; 42605; 42605; 42606; 42607; 42608; 42609; 42610; 42611; 42612; 42613; 42614; 42615;
    42616; 42617; 42618; 42619; 42620; 42621; 42622; 42623; 42625; 42625; 42627; 42627; 42629; 42629;
    42631; 42631; 42633; 42633; 42635; 42635; 42637; 42637; 42639; 42639; 42641; 42641; 42643; 42643;
    42645; 42645; 42647; 42647; 42649; 42649; 42651; 42651; 42652; 42653; 42654; 42655
  ].

(* libfsapfs_name.c 2239-2456 *)
Definition fold_a720 : list Z :=
  [
    42784; 42785; 42787; 42787; 42789; 42789; 42791; 42791; 42793; 42793; 42795; 42795; 42797; 42797;
    42799; 42799; 42800; 42801; 42803; 42803; 42805; 42805; 42807; 42807; 42809; 42809; 42811; 42811;
    42813; 42813; 42815; 42815; 42817; 42817; 42819; 42819; 42821; 42821; 42823; 42823; 42825; 42825;
    42827; 42827; 42829; 42829; 42831; 42831; 42833; 42833; 42835; 42835; 42837; 42837; 42839; 42839;
    42841; 42841; 42843; 42843; 42845; 42845; 42847; 42847; 42849; 42849; 42851; 42851; 42853; 42853;
    42855; 42855; 42857; 42857; 42859; 42859; 42861; 42861; 42863; 42863; 42864; 42865; 42866; 42867;
    42868; 42869; 42870; 42871; 42872; 42874; 42874; 42876; 42876; 7545; 42879; 42879; 42881; 42881;
    42883; 42883; 42885; 42885; 42887; 42887; 42888; 42889; 42890; 42892; 42892; 613; 42894; 42895;
    42897; 42897; 42899; 42899; 42900; 42901; 42903; 42903; 42905; 42905; 42907; 42907; 42909; 42909;
    42911; 42911; 42913; 42913; 42915; 42915; 42917; 42917; 42919; 42919; 42921; 42921; 614; 604;
    609; 620; 618; 42927; 670; 647; 669; 43859; 42933; 42933; 42935; 42935; 42937; 42937; 42939;
    42939; 42941; 42941; 42943; 42943; 42944; 42945; 42947; 42947; 42900; 642; 7566; 42952; 42952;
    42954; 42954; 42955; 42956; 42957; 42958; 42959; 42960; 42961; 42962; 42963; 42964; 42965; 42966;
    42967; 42968; 42969; 42970; 42971; 42972; 42973; 42974; 42975; 42976; 42977; 42978; 42979; 42980;
    42981; 42982; 42983; 42984; 42985; 42986; 42987; 42988; 42989; 42990; 42991; 42992; 42993; 42994;
    42995; 42996; 42998; 42998; 42999
  ].

(* libfsapfs_name.c 2458-2539 *)
Definition fold_ab70 : list Z :=
  [
    5024; 5025; 5026; 5027; 5028; 5029; 5030; 5031; 5032; 5033; 5034; 5035; 5036; 5037; 5038; 5039;
    5040; 5041; 5042; 5043; 5044; 5045; 5046; 5047; 5048; 5049; 5050; 5051; 5052; 5053; 5054; 5055;
    5056; 5057; 5058; 5059; 5060; 5061; 5062; 5063; 5064; 5065; 5066; 5067; 5068; 5069; 5070; 5071;
    5072; 5073; 5074; 5075; 5076; 5077; 5078; 5079; 5080; 5081; 5082; 5083; 5084; 5085; 5086; 5087;
    5088; 5089; 5090; 5091; 5092; 5093; 5094; 5095; 5096; 5097; 5098; 5099; 5100; 5101; 5102; 5103
  ].

(* libfsapfs_name.c 2541-2574 *)
Definition fold_ff20 : list Z :=
  [
    65312; 65345; 65346; 65347; 65348; 65349; 65350; 65351; 65352; 65353; 65354; 65355; 65356; 65357;
    65358; 65359; 65360; 65361; 65362; 65363; 65364; 65365; 65366; 65367; 65368; 65369; 65370; 65339;
    65340; 65341; 65342; 65343
  ].

(* libfsapfs_name.c 2576-2617 *)
Definition fold_10400 : list Z :=
  [
    66600; 66601; 66602; 66603; 66604; 66605; 66606; 66607; 66608; 66609; 66610; 66611; 66612; 66613;
    66614; 66615; 66616; 66617; 66618; 66619; 66620; 66621; 66622; 66623; 66624; 66625; 66626; 66627;
    66628; 66629; 66630; 66631; 66632; 66633; 66634; 66635; 66636; 66637; 66638; 66639
  ].

(* libfsapfs_name.c 2619-2660 *)
Definition fold_104b0 : list Z :=
  [
    66776; 66777; 66778; 66779; 66780; 66781; 66782; 66783; 66784; 66785; 66786; 66787; 66788; 66789;
    66790; 66791; 66792; 66793; 66794; 66795; 66796; 66797; 66798; 66799; 66800; 66801; 66802; 66803;
    66804; 66805; 66806; 66807; 66808; 66809; 66810; 66811; 66772; 66773; 66774; 66775
  ].

(* libfsapfs_name.c 2662-2719 *)
Definition fold_10c80 : list Z :=
  [
    68800; 68801; 68802; 68803; 68804; 68805; 68806; 68807; 68808; 68809; 68810; 68811; 68812; 68813;
    68814; 68815; 68816; 68817; 68818; 68819; 68820; 68821; 68822; 68823; 68824; 68825; 68826; 68827;
    68828; 68829; 68830; 68831; 68832; 68833; 68834; 68835; 68836; 68837; 68838; 68839; 68840; 68841;
    68842; 68843; 68844; 68845; 68846; 68847; 68848; 68849; 68850; 68787; 68788; 68789; 68790; 68791
  ].

(* libfsapfs_name.c 2721-2754 *)
Definition fold_118a0 : list Z :=
  [
    71872; 71873; 71874; 71875; 71876; 71877; 71878; 71879; 71880; 71881; 71882; 71883; 71884; 71885;
    71886; 71887; 71888; 71889; 71890; 71891; 71892; 71893; 71894; 71895; 71896; 71897; 71898; 71899;
    71900; 71901; 71902; 71903
  ].

(* libfsapfs_name.c 2756-2789 *)
Definition fold_16e40 : list Z :=
  [
    93792; 93793; 93794; 93795; 93796; 93797; 93798; 93799; 93800; 93801; 93802; 93803; 93804; 93805;
    93806; 93807; 93808; 93809; 93810; 93811; 93812; 93813; 93814; 93815; 93816; 93817; 93818; 93819;
    93820; 93821; 93822; 93823
  ].

(* libfsapfs_name.c 2791-2832 *)
Definition fold_1e900 : list Z :=
  [
    125218; 125219; 125220; 125221; 125222; 125223; 125224; 125225; 125226; 125227; 125228; 125229;
    125230; 125231; 125232; 125233; 125234; 125235; 125236; 125237; 125238; 125239; 125240; 125241;
    125242; 125243; 125244; 125245; 125246; 125247; 125248; 125249; 125250; 125251; 125218; 125219;
    125220; 125221; 125222; 125223
  ].

(* libfsapfs_name.h 193-288: libfsapfs_name_get_case_folding_mapping *)
Definition fold_tables : list (Z * Z * list Z) :=
  [
    (64, 591, fold_40); (832, 1367, fold_340); (4256, 4303, fold_10a0); (5112, 5119, fold_13f8);
    (7296, 7359, fold_1c80); (7680, 8191, fold_1e00); (8480, 8583, fold_2120);
    (9392, 9423, fold_24b0); (11264, 11511, fold_2c00); (42560, 42655, fold_a640);
    (42784, 42999, fold_a720); (43888, 43967, fold_ab70); (65312, 65343, fold_ff20);
    (66560, 66599, fold_10400); (66736, 66775, fold_104b0); (68736, 68791, fold_10c80);
    (71840, 71871, fold_118a0); (93760, 93791, fold_16e40); (125184, 125223, fold_1e900)
  ].

(* libfsapfs_name.c 2834-3027 *)
Definition nfd_c0 : list (list Z) :=
  [
    [65;768]; [65;769]; [65;770]; [65;771]; [65;776]; [65;778]; [198]; [67;807]; [69;768]; [69;769];
    [69;770]; [69;776]; [73;768]; [73;769]; [73;770]; [73;776]; [208]; [78;771]; [79;768]; [79;769];
    [79;770]; [79;771]; [79;776]; [215]; [216]; [85;768]; [85;769]; [85;770]; [85;776]; [89;769];
    [222]; [223]; [97;768]; [97;769]; [97;770]; [97;771]; [97;776]; [97;778]; [230]; [99;807];
    [101;768]; [101;769]; [101;770]; [101;776]; [105;768]; [105;769]; [105;770]; [105;776]; [240];
    [110;771]; [111;768]; [111;769]; [111;770]; [111;771]; [111;776]; [247]; [248]; [117;768];
    [117;769]; [117;770]; [117;776]; [121;769]; [254]; [121;776]; [65;772]; [97;772]; [65;774];
    [97;774]; [65;808]; [97;808]; [67;769]; [99;769]; [67;770]; [99;770]; [67;775]; [99;775];
    [67;780]; [99;780]; [68;780]; [100;780]; [272]; [273]; [69;772]; [101;772]; [69;774]; [101;774];
    [69;775]; [101;775]; [69;808]; [101;808]; [69;780]; [101;780]; [71;770]; [103;770]; [71;774];
    [103;774]; [71;775]; [103;775]; [71;807]; [103;807]; [72;770]; [104;770]; [294]; [295]; [73;771];
    [105;771]; [73;772]; [105;772]; [73;774]; [105;774]; [73;808]; [105;808]; [73;775]; [305]; [306];
    [307]; [74;770]; [106;770]; [75;807]; [107;807]; [312]; [76;769]; [108;769]; [76;807]; [108;807];
    [76;780]; [108;780]; [319]; [320]; [321]; [322]; [78;769]; [110;769]; [78;807]; [110;807];
    [78;780]; [110;780]; [329]; [330]; [331]; [79;772]; [111;772]; [79;774]; [111;774]; [79;779];
    [111;779]; [338]; [339]; [82;769]; [114;769]; [82;807]; [114;807]; [82;780]; [114;780]; [83;769];
    [115;769]; [83;770]; [115;770]; [83;807]; [115;807]; [83;780]; [115;780]; [84;807]; [116;807];
    [84;780]; [116;780]; [358]; [359]; [85;771]; [117;771]; [85;772]; [117;772]; [85;774]; [117;774];
    [85;778]; [117;778]; [85;779]; [117;779]; [85;808]; [117;808]; [87;770]; [119;770]; [89;770];
    [121;770]; [89;776]; [90;769]; [122;769]; [90;775]; [122;775]; [90;780]; [122;780]; [383]
  ].

(* libfsapfs_name.c 3029-3182 *)
Definition nfd_1a0 : list (list Z) :=
  [
    [79;795]; [111;795]; [418]; [419]; [420]; [421]; [422]; [423]; [424]; [425]; [426]; [427]; [428];
    [429]; [430]; [85;795]; [117;795]; [433]; [434]; [435]; [436]; [437]; [438]; [439]; [440]; [441];
    [442]; [443]; [444]; [445]; [446]; [447]; [448]; [449]; [450]; [451]; [452]; [453]; [454]; [455];
    [456]; [457]; [458]; [459]; [460]; [65;780]; [97;780]; [73;780]; [105;780]; [79;780]; [111;780];
    [85;780]; [117;780]; [85;776;772]; [117;776;772]; [85;776;769]; [117;776;769]; [85;776;780];
    [117;776;780]; [85;776;768]; [117;776;768]; [477]; [65;776;772]; [97;776;772]; [65;775;772];
    [97;775;772]; [198;772]; [230;772]; [484]; [485]; [71;780]; [103;780]; [75;780]; [107;780];
    [79;808]; [111;808]; [79;808;772]; [111;808;772]; [439;780]; [658;780]; [106;780]; [497]; [498];
    [499]; [71;769]; [103;769]; [502]; [503]; [78;768]; [110;768]; [65;778;769]; [97;778;769];
    [198;769]; [230;769]; [216;769]; [248;769]; [65;783]; [97;783]; [65;785]; [97;785]; [69;783];
    [101;783]; [69;785]; [101;785]; [73;783]; [105;783]; [73;785]; [105;785]; [79;783]; [111;783];
    [79;785]; [111;785]; [82;783]; [114;783]; [82;785]; [114;785]; [85;783]; [117;783]; [85;785];
    [117;785]; [83;806]; [115;806]; [84;806]; [116;806]; [540]; [541]; [72;780]; [104;780]; [544];
    [545]; [546]; [547]; [548]; [549]; [65;775]; [97;775]; [69;807]; [101;807]; [79;776;772];
    [111;776;772]; [79;771;772]; [111;771;772]; [79;775]; [111;775]; [79;775;772]; [111;775;772];
    [89;772]; [121;772]; [564]; [565]; [566]; [567]
  ].

(* libfsapfs_name.c 3184-3337 *)
Definition nfd_340 : list (list Z) :=
  [
    [768]; [769]; [834]; [787]; [776;769]; [837]; [838]; [839]; [840]; [841]; [842]; [843]; [844];
    [845]; [846]; [847]; [848]; [849]; [850]; [851]; [852]; [853]; [854]; [855]; [856]; [857]; [858];
    [859]; [860]; [861]; [862]; [863]; [864]; [865]; [866]; [867]; [868]; [869]; [870]; [871]; [872];
    [873]; [874]; [875]; [876]; [877]; [878]; [879]; [880]; [881]; [882]; [883]; [697]; [885]; [886];
    [887]; [888]; [889]; [890]; [891]; [892]; [893]; [59]; [895]; [896]; [897]; [898]; [899]; [900];
    [168;769]; [913;769]; [183]; [917;769]; [919;769]; [921;769]; [907]; [927;769]; [909]; [933;769];
    [937;769]; [953;776;769]; [913]; [914]; [915]; [916]; [917]; [918]; [919]; [920]; [921]; [922];
    [923]; [924]; [925]; [926]; [927]; [928]; [929]; [930]; [931]; [932]; [933]; [934]; [935]; [936];
    [937]; [921;776]; [933;776]; [945;769]; [949;769]; [951;769]; [953;769]; [965;776;769]; [945];
    [946]; [947]; [948]; [949]; [950]; [951]; [952]; [953]; [954]; [955]; [956]; [957]; [958]; [959];
    [960]; [961]; [962]; [963]; [964]; [965]; [966]; [967]; [968]; [969]; [953;776]; [965;776];
    [959;769]; [965;769]; [969;769]; [975]; [976]; [977]; [978]; [978;769]; [978;776]; [981]; [982];
    [983]
  ].

(* libfsapfs_name.c 3339-3596 *)
Definition nfd_400 : list (list Z) :=
  [
    [1045;768]; [1045;776]; [1026]; [1043;769]; [1028]; [1029]; [1030]; [1030;776]; [1032]; [1033];
    [1034]; [1035]; [1050;769]; [1048;768]; [1059;774]; [1039]; [1040]; [1041]; [1042]; [1043];
    [1044]; [1045]; [1046]; [1047]; [1048]; [1048;774]; [1050]; [1051]; [1052]; [1053]; [1054];
    [1055]; [1056]; [1057]; [1058]; [1059]; [1060]; [1061]; [1062]; [1063]; [1064]; [1065]; [1066];
    [1067]; [1068]; [1069]; [1070]; [1071]; [1072]; [1073]; [1074]; [1075]; [1076]; [1077]; [1078];
    [1079]; [1080]; [1080;774]; [1082]; [1083]; [1084]; [1085]; [1086]; [1087]; [1088]; [1089];
    [1090]; [1091]; [1092]; [1093]; [1094]; [1095]; [1096]; [1097]; [1098]; [1099]; [1100]; [1101];
    [1102]; [1103]; [1077;768]; [1077;776]; [1106]; [1075;769]; [1108]; [1109]; [1110]; [1110;776];
    [1112]; [1113]; [1114]; [1115]; [1082;769]; [1080;768]; [1091;774]; [1119]; [1120]; [1121];
    [1122]; [1123]; [1124]; [1125]; [1126]; [1127]; [1128]; [1129]; [1130]; [1131]; [1132]; [1133];
    [1134]; [1135]; [1136]; [1137]; [1138]; [1139]; [1140]; [1141]; [1140;783]; [1141;783]; [1144];
    [1145]; [1146]; [1147]; [1148]; [1149]; [1150]; [1151]; [1152]; [1153]; [1154]; [1155]; [1156];
    [1157]; [1158]; [1159]; [1160]; [1161]; [1162]; [1163]; [1164]; [1165]; [1166]; [1167]; [1168];
    [1169]; [1170]; [1171]; [1172]; [1173]; [1174]; [1175]; [1176]; [1177]; [1178]; [1179]; [1180];
    [1181]; [1182]; [1183]; [1184]; [1185]; [1186]; [1187]; [1188]; [1189]; [1190]; [1191]; [1192];
    [1193]; [1194]; [1195]; [1196]; [1197]; [1198]; [1199]; [1200]; [1201]; [1202]; [1203]; [1204];
    [1205]; [1206]; [1207]; [1208]; [1209]; [1210]; [1211]; [1212]; [1213]; [1214]; [1215]; [1216];
    [1046;774]; [1078;774]; [1219]; [1220]; [1221]; [1222]; [1223]; [1224]; [1225]; [1226]; [1227];
    [1228]; [1229]; [1230]; [1231]; [1040;774]; [1072;774]; [1040;776]; [1072;776]; [1236]; [1237];
    [1045;774]; [1077;774]; [1240]; [1241]; [1240;776]; [1241;776]; [1046;776]; [1078;776];
    [1047;776]; [1079;776]; [1248]; [1249]; [1048;772]; [1080;772]; [1048;776]; [1080;776];
    [1054;776]; [1086;776]; [1256]; [1257]; [1256;776]; [1257;776]; [1069;776]; [1101;776];
    [1059;772]; [1091;772]; [1059;776]; [1091;776]; [1059;779]; [1091;779]; [1063;776]; [1095;776];
    [1270]; [1271]; [1067;776]; [1099;776]; [1274]; [1275]; [1276]; [1277]; [1278]; [1279]
  ].

(* libfsapfs_name.c 3598-3783 *)
Definition nfd_620 : list (list Z) :=
  [
    [1568]; [1569]; [1575;1619]; [1575;1620]; [1608;1620]; [1575;1621]; [1610;1620]; [1575]; [1576];
    [1577]; [1578]; [1579]; [1580]; [1581]; [1582]; [1583]; [1584]; [1585]; [1586]; [1587]; [1588];
    [1589]; [1590]; [1591]; [1592]; [1593]; [1594]; [1595]; [1596]; [1597]; [1598]; [1599]; [1600];
    [1601]; [1602]; [1603]; [1604]; [1605]; [1606]; [1607]; [1608]; [1609]; [1610]; [1611]; [1612];
    [1613]; [1614]; [1615]; [1616]; [1617]; [1618]; [1619]; [1620]; [1621]; [1622]; [1623]; [1624];
    [1625]; [1626]; [1627]; [1628]; [1629]; [1630]; [1631]; [1632]; [1633]; [1634]; [1635]; [1636];
    [1637]; [1638]; [1639]; [1640]; [1641]; [1642]; [1643]; [1644]; [1645]; [1646]; [1647]; [1648];
    [1649]; [1650]; [1651]; [1652]; [1653]; [1654]; [1655]; [1656]; [1657]; [1658]; [1659]; [1660];
    [1661]; [1662]; [1663]; [1664]; [1665]; [1666]; [1667]; [1668]; [1669]; [1670]; [1671]; [1672];
    [1673]; [1674]; [1675]; [1676]; [1677]; [1678]; [1679]; [1680]; [1681]; [1682]; [1683]; [1684];
    [1685]; [1686]; [1687]; [1688]; [1689]; [1690]; [1691]; [1692]; [1693]; [1694]; [1695]; [1696];
    [1697]; [1698]; [1699]; [1700]; [1701]; [1702]; [1703]; [1704]; [1705]; [1706]; [1707]; [1708];
    [1709]; [1710]; [1711]; [1712]; [1713]; [1714]; [1715]; [1716]; [1717]; [1718]; [1719]; [1720];
    [1721]; [1722]; [1723]; [1724]; [1725]; [1726]; [1727]; [1749;1620]; [1729]; [1729;1620]; [1731];
    [1732]; [1733]; [1734]; [1735]; [1736]; [1737]; [1738]; [1739]; [1740]; [1741]; [1742]; [1743];
    [1744]; [1745]; [1746]; [1746;1620]; [1748]; [1749]; [1750]; [1751]
  ].

(* libfsapfs_name.c 3785-3970 *)
Definition nfd_928 : list (list Z) :=
  [
    [2344]; [2344;2364]; [2346]; [2347]; [2348]; [2349]; [2350]; [2351]; [2352]; [2352;2364]; [2354];
    [2355]; [2355;2364]; [2357]; [2358]; [2359]; [2360]; [2361]; [2362]; [2363]; [2364]; [2365];
    [2366]; [2367]; [2368]; [2369]; [2370]; [2371]; [2372]; [2373]; [2374]; [2375]; [2376]; [2377];
    [2378]; [2379]; [2380]; [2381]; [2382]; [2383]; [2384]; [2385]; [2386]; [2387]; [2388]; [2389];
    [2390]; [2391]; [2325;2364]; [2326;2364]; [2327;2364]; [2332;2364]; [2337;2364]; [2338;2364];
    [2347;2364]; [2351;2364]; [2400]; [2401]; [2402]; [2403]; [2404]; [2405]; [2406]; [2407]; [2408];
    [2409]; [2410]; [2411]; [2412]; [2413]; [2414]; [2415]; [2416]; [2417]; [2418]; [2419]; [2420];
    [2421]; [2422]; [2423]; [2424]; [2425]; [2426]; [2427]; [2428]; [2429]; [2430]; [2431]; [2432];
    [2433]; [2434]; [2435]; [2436]; [2437]; [2438]; [2439]; [2440]; [2441]; [2442]; [2443]; [2444];
    [2445]; [2446]; [2447]; [2448]; [2449]; [2450]; [2451]; [2452]; [2453]; [2454]; [2455]; [2456];
    [2457]; [2458]; [2459]; [2460]; [2461]; [2462]; [2463]; [2464]; [2465]; [2466]; [2467]; [2468];
    [2469]; [2470]; [2471]; [2472]; [2473]; [2474]; [2475]; [2476]; [2477]; [2478]; [2479]; [2480];
    [2481]; [2482]; [2483]; [2484]; [2485]; [2486]; [2487]; [2488]; [2489]; [2490]; [2491]; [2492];
    [2493]; [2494]; [2495]; [2496]; [2497]; [2498]; [2499]; [2500]; [2501]; [2502]; [2503]; [2504];
    [2505]; [2506]; [2503;2494]; [2503;2519]; [2509]; [2510]; [2511]; [2512]; [2513]; [2514]; [2515];
    [2516]; [2517]; [2518]; [2519]; [2520]; [2521]; [2522]; [2523]; [2465;2492]; [2466;2492]; [2526];
    [2479;2492]
  ].

(* libfsapfs_name.c 3972-4021 *)
Definition nfd_a30 : list (list Z) :=
  [
    [2608]; [2609]; [2610]; [2610;2620]; [2612]; [2613]; [2616;2620]; [2615]; [2616]; [2617]; [2618];
    [2619]; [2620]; [2621]; [2622]; [2623]; [2624]; [2625]; [2626]; [2627]; [2628]; [2629]; [2630];
    [2631]; [2632]; [2633]; [2634]; [2635]; [2636]; [2637]; [2638]; [2639]; [2640]; [2641]; [2642];
    [2643]; [2644]; [2645]; [2646]; [2647]; [2648]; [2582;2620]; [2583;2620]; [2588;2620]; [2652];
    [2653]; [2603;2620]; [2655]
  ].

(* libfsapfs_name.c 4023-4160 *)
Definition nfd_b48 : list (list Z) :=
  [
    [2887;2902]; [2889]; [2890]; [2887;2878]; [2887;2903]; [2893]; [2894]; [2895]; [2896]; [2897];
    [2898]; [2899]; [2900]; [2901]; [2902]; [2903]; [2904]; [2905]; [2906]; [2907]; [2849;2876];
    [2850;2876]; [2910]; [2911]; [2912]; [2913]; [2914]; [2915]; [2916]; [2917]; [2918]; [2919];
    [2920]; [2921]; [2922]; [2923]; [2924]; [2925]; [2926]; [2927]; [2928]; [2929]; [2930]; [2931];
    [2932]; [2933]; [2934]; [2935]; [2936]; [2937]; [2938]; [2939]; [2940]; [2941]; [2942]; [2943];
    [2944]; [2945]; [2946]; [2947]; [2948]; [2949]; [2950]; [2951]; [2952]; [2953]; [2954]; [2955];
    [2956]; [2957]; [2958]; [2959]; [2960]; [2961]; [2962]; [2963]; [2962;3031]; [2965]; [2966];
    [2967]; [2968]; [2969]; [2970]; [2971]; [2972]; [2973]; [2974]; [2975]; [2976]; [2977]; [2978];
    [2979]; [2980]; [2981]; [2982]; [2983]; [2984]; [2985]; [2986]; [2987]; [2988]; [2989]; [2990];
    [2991]; [2992]; [2993]; [2994]; [2995]; [2996]; [2997]; [2998]; [2999]; [3000]; [3001]; [3002];
    [3003]; [3004]; [3005]; [3006]; [3007]; [3008]; [3009]; [3010]; [3011]; [3012]; [3013]; [3014];
    [3015]; [3016]; [3017]; [3014;3006]; [3015;3006]; [3014;3031]; [3021]; [3022]; [3023]
  ].

(* libfsapfs_name.c 4162-4299 *)
Definition nfd_c48 : list (list Z) :=
  [
    [3142;3158]; [3145]; [3146]; [3147]; [3148]; [3149]; [3150]; [3151]; [3152]; [3153]; [3154];
    [3155]; [3156]; [3157]; [3158]; [3159]; [3160]; [3161]; [3162]; [3163]; [3164]; [3165]; [3166];
    [3167]; [3168]; [3169]; [3170]; [3171]; [3172]; [3173]; [3174]; [3175]; [3176]; [3177]; [3178];
    [3179]; [3180]; [3181]; [3182]; [3183]; [3184]; [3185]; [3186]; [3187]; [3188]; [3189]; [3190];
    [3191]; [3192]; [3193]; [3194]; [3195]; [3196]; [3197]; [3198]; [3199]; [3200]; [3201]; [3202];
    [3203]; [3204]; [3205]; [3206]; [3207]; [3208]; [3209]; [3210]; [3211]; [3212]; [3213]; [3214];
    [3215]; [3216]; [3217]; [3218]; [3219]; [3220]; [3221]; [3222]; [3223]; [3224]; [3225]; [3226];
    [3227]; [3228]; [3229]; [3230]; [3231]; [3232]; [3233]; [3234]; [3235]; [3236]; [3237]; [3238];
    [3239]; [3240]; [3241]; [3242]; [3243]; [3244]; [3245]; [3246]; [3247]; [3248]; [3249]; [3250];
    [3251]; [3252]; [3253]; [3254]; [3255]; [3256]; [3257]; [3258]; [3259]; [3260]; [3261]; [3262];
    [3263]; [3263;3285]; [3265]; [3266]; [3267]; [3268]; [3269]; [3270]; [3270;3285]; [3270;3286];
    [3273]; [3270;3266]; [3270;3266;3285]; [3276]; [3277]; [3278]; [3279]
  ].

(* libfsapfs_name.c 4301-4454 *)
Definition nfd_d48 : list (list Z) :=
  [
    [3400]; [3401]; [3398;3390]; [3399;3390]; [3398;3415]; [3405]; [3406]; [3407]; [3408]; [3409];
    [3410]; [3411]; [3412]; [3413]; [3414]; [3415]; [3416]; [3417]; [3418]; [3419]; [3420]; [3421];
    [3422]; [3423]; [3424]; [3425]; [3426]; [3427]; [3428]; [3429]; [3430]; [3431]; [3432]; [3433];
    [3434]; [3435]; [3436]; [3437]; [3438]; [3439]; [3440]; [3441]; [3442]; [3443]; [3444]; [3445];
    [3446]; [3447]; [3448]; [3449]; [3450]; [3451]; [3452]; [3453]; [3454]; [3455]; [3456]; [3457];
    [3458]; [3459]; [3460]; [3461]; [3462]; [3463]; [3464]; [3465]; [3466]; [3467]; [3468]; [3469];
    [3470]; [3471]; [3472]; [3473]; [3474]; [3475]; [3476]; [3477]; [3478]; [3479]; [3480]; [3481];
    [3482]; [3483]; [3484]; [3485]; [3486]; [3487]; [3488]; [3489]; [3490]; [3491]; [3492]; [3493];
    [3494]; [3495]; [3496]; [3497]; [3498]; [3499]; [3500]; [3501]; [3502]; [3503]; [3504]; [3505];
    [3506]; [3507]; [3508]; [3509]; [3510]; [3511]; [3512]; [3513]; [3514]; [3515]; [3516]; [3517];
    [3518]; [3519]; [3520]; [3521]; [3522]; [3523]; [3524]; [3525]; [3526]; [3527]; [3528]; [3529];
    [3530]; [3531]; [3532]; [3533]; [3534]; [3535]; [3536]; [3537]; [3538]; [3539]; [3540]; [3541];
    [3542]; [3543]; [3544]; [3545]; [3545;3530]; [3547]; [3545;3535]; [3545;3535;3530]; [3545;3551];
    [3551]
  ].

(* libfsapfs_name.c 4456-4689 *)
Definition nfd_f40 : list (list Z) :=
  [
    [3904]; [3905]; [3906]; [3906;4023]; [3908]; [3909]; [3910]; [3911]; [3912]; [3913]; [3914];
    [3915]; [3916]; [3916;4023]; [3918]; [3919]; [3920]; [3921]; [3921;4023]; [3923]; [3924]; [3925];
    [3926]; [3926;4023]; [3928]; [3929]; [3930]; [3931]; [3931;4023]; [3933]; [3934]; [3935]; [3936];
    [3937]; [3938]; [3939]; [3940]; [3941]; [3942]; [3943]; [3944]; [3904;4021]; [3946]; [3947];
    [3948]; [3949]; [3950]; [3951]; [3952]; [3953]; [3954]; [3953;3954]; [3956]; [3953;3956];
    [4018;3968]; [3959]; [4019;3968]; [3961]; [3962]; [3963]; [3964]; [3965]; [3966]; [3967]; [3968];
    [3953;3968]; [3970]; [3971]; [3972]; [3973]; [3974]; [3975]; [3976]; [3977]; [3978]; [3979];
    [3980]; [3981]; [3982]; [3983]; [3984]; [3985]; [3986]; [3986;4023]; [3988]; [3989]; [3990];
    [3991]; [3992]; [3993]; [3994]; [3995]; [3996]; [3996;4023]; [3998]; [3999]; [4000]; [4001];
    [4001;4023]; [4003]; [4004]; [4005]; [4006]; [4006;4023]; [4008]; [4009]; [4010]; [4011];
    [4011;4023]; [4013]; [4014]; [4015]; [4016]; [4017]; [4018]; [4019]; [4020]; [4021]; [4022];
    [4023]; [4024]; [3984;4021]; [4026]; [4027]; [4028]; [4029]; [4030]; [4031]; [4032]; [4033];
    [4034]; [4035]; [4036]; [4037]; [4038]; [4039]; [4040]; [4041]; [4042]; [4043]; [4044]; [4045];
    [4046]; [4047]; [4048]; [4049]; [4050]; [4051]; [4052]; [4053]; [4054]; [4055]; [4056]; [4057];
    [4058]; [4059]; [4060]; [4061]; [4062]; [4063]; [4064]; [4065]; [4066]; [4067]; [4068]; [4069];
    [4070]; [4071]; [4072]; [4073]; [4074]; [4075]; [4076]; [4077]; [4078]; [4079]; [4080]; [4081];
    [4082]; [4083]; [4084]; [4085]; [4086]; [4087]; [4088]; [4089]; [4090]; [4091]; [4092]; [4093];
    [4094]; [4095]; [4096]; [4097]; [4098]; [4099]; [4100]; [4101]; [4102]; [4103]; [4104]; [4105];
    [4106]; [4107]; [4108]; [4109]; [4110]; [4111]; [4112]; [4113]; [4114]; [4115]; [4116]; [4117];
    [4118]; [4119]; [4120]; [4121]; [4122]; [4123]; [4124]; [4125]; [4126]; [4127]; [4128]; [4129];
    [4130]; [4131]; [4132]; [4133]; [4133;4142]; [4135]
  ].

(* libfsapfs_name.c 4691-4764 *)
Definition nfd_1b00 : list (list Z) :=
  [
    [6912]; [6913]; [6914]; [6915]; [6916]; [6917]; [6917;6965]; [6919]; [6919;6965]; [6921];
    [6921;6965]; [6923]; [6923;6965]; [6925]; [6925;6965]; [6927]; [6928]; [6929]; [6929;6965];
    [6931]; [6932]; [6933]; [6934]; [6935]; [6936]; [6937]; [6938]; [6939]; [6940]; [6941]; [6942];
    [6943]; [6944]; [6945]; [6946]; [6947]; [6948]; [6949]; [6950]; [6951]; [6952]; [6953]; [6954];
    [6955]; [6956]; [6957]; [6958]; [6959]; [6960]; [6961]; [6962]; [6963]; [6964]; [6965]; [6966];
    [6967]; [6968]; [6969]; [6970]; [6970;6965]; [6972]; [6972;6965]; [6974]; [6975]; [6974;6965];
    [6975;6965]; [6978]; [6978;6965]; [6980]; [6981]; [6982]; [6983]
  ].

(* libfsapfs_name.c 4766-5287 *)
Definition nfd_1e00 : list (list Z) :=
  [
    [65;805]; [97;805]; [66;775]; [98;775]; [66;803]; [98;803]; [66;817]; [98;817]; [67;807;769];
    [99;807;769]; [68;775]; [100;775]; [68;803]; [100;803]; [68;817]; [100;817]; [68;807]; [100;807];
    [68;813]; [100;813]; [69;772;768]; [101;772;768]; [69;772;769]; [101;772;769]; [69;813];
    [101;813]; [69;816]; [101;816]; [69;807;774]; [101;807;774]; [70;775]; [102;775]; [71;772];
    [103;772]; [72;775]; [104;775]; [72;803]; [104;803]; [72;776]; [104;776]; [72;807]; [104;807];
    [72;814]; [104;814]; [73;816]; [105;816]; [73;776;769]; [105;776;769]; [75;769]; [107;769];
    [75;803]; [107;803]; [75;817]; [107;817]; [76;803]; [108;803]; [76;803;772]; [108;803;772];
    [76;817]; [108;817]; [76;813]; [108;813]; [77;769]; [109;769]; [77;775]; [109;775]; [77;803];
    [109;803]; [78;775]; [110;775]; [78;803]; [110;803]; [78;817]; [110;817]; [78;813]; [110;813];
    [79;771;769]; [111;771;769]; [79;771;776]; [111;771;776]; [79;772;768]; [111;772;768];
    [79;772;769]; [111;772;769]; [80;769]; [112;769]; [80;775]; [112;775]; [82;775]; [114;775];
    [82;803]; [114;803]; [82;803;772]; [114;803;772]; [82;817]; [114;817]; [83;775]; [115;775];
    [83;803]; [115;803]; [83;769;775]; [115;769;775]; [83;780;775]; [115;780;775]; [83;803;775];
    [115;803;775]; [84;775]; [116;775]; [84;803]; [116;803]; [84;817]; [116;817]; [84;813];
    [116;813]; [85;804]; [117;804]; [85;816]; [117;816]; [85;813]; [117;813]; [85;771;769];
    [117;771;769]; [85;772;776]; [117;772;776]; [86;771]; [118;771]; [86;803]; [118;803]; [87;768];
    [119;768]; [87;769]; [119;769]; [87;776]; [119;776]; [87;775]; [119;775]; [87;803]; [119;803];
    [88;775]; [120;775]; [88;776]; [120;776]; [89;775]; [121;775]; [90;770]; [122;770]; [90;803];
    [122;803]; [90;817]; [122;817]; [104;817]; [116;776]; [119;778]; [121;778]; [7834]; [383;775];
    [7836]; [7837]; [7838]; [7839]; [65;803]; [97;803]; [65;777]; [97;777]; [65;770;769];
    [97;770;769]; [65;770;768]; [97;770;768]; [65;770;777]; [97;770;777]; [65;770;771]; [97;770;771];
    [65;803;770]; [97;803;770]; [65;774;769]; [97;774;769]; [65;774;768]; [97;774;768]; [65;774;777];
    [97;774;777]; [65;774;771]; [97;774;771]; [65;803;774]; [97;803;774]; [69;803]; [101;803];
    [69;777]; [101;777]; [69;771]; [101;771]; [69;770;769]; [101;770;769]; [69;770;768];
    [101;770;768]; [69;770;777]; [101;770;777]; [69;770;771]; [101;770;771]; [69;803;770];
    [101;803;770]; [73;777]; [105;777]; [73;803]; [105;803]; [79;803]; [111;803]; [79;777];
    [111;777]; [79;770;769]; [111;770;769]; [79;770;768]; [111;770;768]; [79;770;777]; [111;770;777];
    [79;770;771]; [111;770;771]; [79;803;770]; [111;803;770]; [79;795;769]; [111;795;769];
    [79;795;768]; [111;795;768]; [79;795;777]; [111;795;777]; [79;795;771]; [111;795;771];
    [79;795;803]; [111;795;803]; [85;803]; [117;803]; [85;777]; [117;777]; [85;795;769];
    [117;795;769]; [85;795;768]; [117;795;768]; [85;795;777]; [117;795;777]; [85;795;771];
    [117;795;771]; [85;795;803]; [117;795;803]; [89;768]; [121;768]; [89;803]; [121;803]; [89;777];
    [121;777]; [89;771]; [121;771]; [7930]; [7931]; [7932]; [7933]; [7934]; [7935]; [945;787];
    [945;788]; [945;787;768]; [945;788;768]; [945;787;769]; [945;788;769]; [945;787;834];
    [945;788;834]; [913;787]; [913;788]; [913;787;768]; [913;788;768]; [913;787;769]; [913;788;769];
    [913;787;834]; [913;788;834]; [949;787]; [949;788]; [949;787;768]; [949;788;768]; [949;787;769];
    [949;788;769]; [7958]; [7959]; [917;787]; [917;788]; [917;787;768]; [917;788;768]; [917;787;769];
    [917;788;769]; [7966]; [7967]; [951;787]; [951;788]; [951;787;768]; [951;788;768]; [951;787;769];
    [951;788;769]; [951;787;834]; [951;788;834]; [919;787]; [919;788]; [919;787;768]; [919;788;768];
    [919;787;769]; [919;788;769]; [919;787;834]; [919;788;834]; [953;787]; [953;788]; [953;787;768];
    [953;788;768]; [953;787;769]; [953;788;769]; [953;787;834]; [953;788;834]; [921;787]; [921;788];
    [921;787;768]; [921;788;768]; [921;787;769]; [921;788;769]; [921;787;834]; [921;788;834];
    [959;787]; [959;788]; [959;787;768]; [959;788;768]; [959;787;769]; [959;788;769]; [8006]; [8007];
    [927;787]; [927;788]; [927;787;768]; [927;788;768]; [927;787;769]; [927;788;769]; [8014]; [8015];
    [965;787]; [965;788]; [965;787;768]; [965;788;768]; [965;787;769]; [965;788;769]; [965;787;834];
    [965;788;834]; [8024]; [933;788]; [8026]; [933;788;768]; [8028]; [933;788;769]; [8030];
    [933;788;834]; [969;787]; [969;788]; [969;787;768]; [969;788;768]; [969;787;769]; [969;788;769];
    [969;787;834]; [969;788;834]; [937;787]; [937;788]; [937;787;768]; [937;788;768]; [937;787;769];
    [937;788;769]; [937;787;834]; [937;788;834]; [945;768]; [945;769]; [949;768]; [949;769];
    [951;768]; [951;769]; [953;768]; [953;769]; [959;768]; [959;769]; [965;768]; [965;769];
    [969;768]; [969;769]; [8062]; [8063]; [945;787;837]; [945;788;837]; [945;787;768;837];
    [945;788;768;837]; [945;787;769;837]; [945;788;769;837]; [945;787;834;837]; [945;788;834;837];
    [913;787;837]; [913;788;837]; [913;787;768;837]; [913;788;768;837]; [913;787;769;837];
    [913;788;769;837]; [913;787;834;837]; [913;788;834;837]; [951;787;837]; [951;788;837];
    [951;787;768;837]; [951;788;768;837]; [951;787;769;837]; [951;788;769;837]; [951;787;834;837];
    [951;788;834;837]; [919;787;837]; [919;788;837]; [919;787;768;837]; [919;788;768;837];
    [919;787;769;837]; [919;788;769;837]; [919;787;834;837]; [919;788;834;837]; [969;787;837];
    [969;788;837]; [969;787;768;837]; [969;788;768;837]; [969;787;769;837]; [969;788;769;837];
    [969;787;834;837]; [969;788;834;837]; [937;787;837]; [937;788;837]; [937;787;768;837];
    [937;788;768;837]; [937;787;769;837]; [937;788;769;837]; [937;787;834;837]; [937;788;834;837];
    [945;774]; [945;772]; [945;768;837]; [945;837]; [945;769;837]; [8117]; [945;834]; [945;834;837];
    [913;774]; [913;772]; [913;768]; [913;769]; [913;837]; [8125]; [953]; [8127]; [8128]; [168;834];
    [951;768;837]; [951;837]; [951;769;837]; [8133]; [951;834]; [951;834;837]; [917;768]; [917;769];
    [919;768]; [919;769]; [919;837]; [8127;768]; [8127;769]; [8127;834]; [953;774]; [953;772];
    [953;776;768]; [953;776;769]; [8148]; [8149]; [953;834]; [953;776;834]; [921;774]; [921;772];
    [921;768]; [921;769]; [8156]; [8190;768]; [8190;769]; [8190;834]; [965;774]; [965;772];
    [965;776;768]; [965;776;769]; [961;787]; [961;788]; [965;834]; [965;776;834]; [933;774];
    [933;772]; [933;768]; [933;769]; [929;788]; [168;768]; [168;769]; [96]; [8176]; [8177];
    [969;768;837]; [969;837]; [969;769;837]; [8181]; [969;834]; [969;834;837]; [927;768]; [927;769];
    [937;768]; [937;769]; [937;837]; [180]; [8190]; [8191]; [8194]; [8195]; [8194]; [8195]; [8196];
    [8197]; [8198]; [8199]
  ].

(* libfsapfs_name.c 5289-5466 *)
Definition nfd_2120 : list (list Z) :=
  [
    [8480]; [8481]; [8482]; [8483]; [8484]; [8485]; [937]; [8487]; [8488]; [8489]; [75]; [65;778];
    [8492]; [8493]; [8494]; [8495]; [8496]; [8497]; [8498]; [8499]; [8500]; [8501]; [8502]; [8503];
    [8504]; [8505]; [8506]; [8507]; [8508]; [8509]; [8510]; [8511]; [8512]; [8513]; [8514]; [8515];
    [8516]; [8517]; [8518]; [8519]; [8520]; [8521]; [8522]; [8523]; [8524]; [8525]; [8526]; [8527];
    [8528]; [8529]; [8530]; [8531]; [8532]; [8533]; [8534]; [8535]; [8536]; [8537]; [8538]; [8539];
    [8540]; [8541]; [8542]; [8543]; [8544]; [8545]; [8546]; [8547]; [8548]; [8549]; [8550]; [8551];
    [8552]; [8553]; [8554]; [8555]; [8556]; [8557]; [8558]; [8559]; [8560]; [8561]; [8562]; [8563];
    [8564]; [8565]; [8566]; [8567]; [8568]; [8569]; [8570]; [8571]; [8572]; [8573]; [8574]; [8575];
    [8576]; [8577]; [8578]; [8579]; [8580]; [8581]; [8582]; [8583]; [8584]; [8585]; [8586]; [8587];
    [8588]; [8589]; [8590]; [8591]; [8592]; [8593]; [8594]; [8595]; [8596]; [8597]; [8598]; [8599];
    [8600]; [8601]; [8592;824]; [8594;824]; [8604]; [8605]; [8606]; [8607]; [8608]; [8609]; [8610];
    [8611]; [8612]; [8613]; [8614]; [8615]; [8616]; [8617]; [8618]; [8619]; [8620]; [8621];
    [8596;824]; [8623]; [8624]; [8625]; [8626]; [8627]; [8628]; [8629]; [8630]; [8631]; [8632];
    [8633]; [8634]; [8635]; [8636]; [8637]; [8638]; [8639]; [8640]; [8641]; [8642]; [8643]; [8644];
    [8645]; [8646]; [8647]; [8648]; [8649]; [8650]; [8651]; [8652]; [8656;824]; [8660;824];
    [8658;824]
  ].

(* libfsapfs_name.c 5468-5773 *)
Definition nfd_2200 : list (list Z) :=
  [
    [8704]; [8705]; [8706]; [8707]; [8707;824]; [8709]; [8710]; [8711]; [8712]; [8712;824]; [8714];
    [8715]; [8715;824]; [8717]; [8718]; [8719]; [8720]; [8721]; [8722]; [8723]; [8724]; [8725];
    [8726]; [8727]; [8728]; [8729]; [8730]; [8731]; [8732]; [8733]; [8734]; [8735]; [8736]; [8737];
    [8738]; [8739]; [8739;824]; [8741]; [8741;824]; [8743]; [8744]; [8745]; [8746]; [8747]; [8748];
    [8749]; [8750]; [8751]; [8752]; [8753]; [8754]; [8755]; [8756]; [8757]; [8758]; [8759]; [8760];
    [8761]; [8762]; [8763]; [8764]; [8765]; [8766]; [8767]; [8768]; [8764;824]; [8770]; [8771];
    [8771;824]; [8773]; [8774]; [8773;824]; [8776]; [8776;824]; [8778]; [8779]; [8780]; [8781];
    [8782]; [8783]; [8784]; [8785]; [8786]; [8787]; [8788]; [8789]; [8790]; [8791]; [8792]; [8793];
    [8794]; [8795]; [8796]; [8797]; [8798]; [8799]; [61;824]; [8801]; [8801;824]; [8803]; [8804];
    [8805]; [8806]; [8807]; [8808]; [8809]; [8810]; [8811]; [8812]; [8781;824]; [60;824]; [62;824];
    [8804;824]; [8805;824]; [8818]; [8819]; [8818;824]; [8819;824]; [8822]; [8823]; [8822;824];
    [8823;824]; [8826]; [8827]; [8828]; [8829]; [8830]; [8831]; [8826;824]; [8827;824]; [8834];
    [8835]; [8834;824]; [8835;824]; [8838]; [8839]; [8838;824]; [8839;824]; [8842]; [8843]; [8844];
    [8845]; [8846]; [8847]; [8848]; [8849]; [8850]; [8851]; [8852]; [8853]; [8854]; [8855]; [8856];
    [8857]; [8858]; [8859]; [8860]; [8861]; [8862]; [8863]; [8864]; [8865]; [8866]; [8867]; [8868];
    [8869]; [8870]; [8871]; [8872]; [8873]; [8874]; [8875]; [8866;824]; [8872;824]; [8873;824];
    [8875;824]; [8880]; [8881]; [8882]; [8883]; [8884]; [8885]; [8886]; [8887]; [8888]; [8889];
    [8890]; [8891]; [8892]; [8893]; [8894]; [8895]; [8896]; [8897]; [8898]; [8899]; [8900]; [8901];
    [8902]; [8903]; [8904]; [8905]; [8906]; [8907]; [8908]; [8909]; [8910]; [8911]; [8912]; [8913];
    [8914]; [8915]; [8916]; [8917]; [8918]; [8919]; [8920]; [8921]; [8922]; [8923]; [8924]; [8925];
    [8926]; [8927]; [8828;824]; [8829;824]; [8849;824]; [8850;824]; [8932]; [8933]; [8934]; [8935];
    [8936]; [8937]; [8882;824]; [8883;824]; [8884;824]; [8885;824]; [8942]; [8943]; [8944]; [8945];
    [8946]; [8947]; [8948]; [8949]; [8950]; [8951]; [8952]; [8953]; [8954]; [8955]; [8956]; [8957];
    [8958]; [8959]; [8960]; [8961]; [8962]; [8963]; [8964]; [8965]; [8966]; [8967]; [8968]; [8969];
    [8970]; [8971]; [8972]; [8973]; [8974]; [8975]; [8976]; [8977]; [8978]; [8979]; [8980]; [8981];
    [8982]; [8983]; [8984]; [8985]; [8986]; [8987]; [8988]; [8989]; [8990]; [8991]; [8992]; [8993];
    [8994]; [8995]; [8996]; [8997]; [8998]; [8999]; [9000]; [12296]; [12297]; [9003]; [9004]; [9005];
    [9006]; [9007]
  ].

(* libfsapfs_name.c 5775-5784 *)
Definition nfd_2ad8 : list (list Z) :=
  [
    [10968]; [10969]; [10970]; [10971]; [10973;824]; [10973]; [10974]; [10975]
  ].

(* libfsapfs_name.c 5786-5971 *)
Definition nfd_3048 : list (list Z) :=
  [
    [12360]; [12361]; [12362]; [12363]; [12363;12441]; [12365]; [12365;12441]; [12367];
    [12367;12441]; [12369]; [12369;12441]; [12371]; [12371;12441]; [12373]; [12373;12441]; [12375];
    [12375;12441]; [12377]; [12377;12441]; [12379]; [12379;12441]; [12381]; [12381;12441]; [12383];
    [12383;12441]; [12385]; [12385;12441]; [12387]; [12388]; [12388;12441]; [12390]; [12390;12441];
    [12392]; [12392;12441]; [12394]; [12395]; [12396]; [12397]; [12398]; [12399]; [12399;12441];
    [12399;12442]; [12402]; [12402;12441]; [12402;12442]; [12405]; [12405;12441]; [12405;12442];
    [12408]; [12408;12441]; [12408;12442]; [12411]; [12411;12441]; [12411;12442]; [12414]; [12415];
    [12416]; [12417]; [12418]; [12419]; [12420]; [12421]; [12422]; [12423]; [12424]; [12425];
    [12426]; [12427]; [12428]; [12429]; [12430]; [12431]; [12432]; [12433]; [12434]; [12435];
    [12358;12441]; [12437]; [12438]; [12439]; [12440]; [12441]; [12442]; [12443]; [12444]; [12445];
    [12445;12441]; [12447]; [12448]; [12449]; [12450]; [12451]; [12452]; [12453]; [12454]; [12455];
    [12456]; [12457]; [12458]; [12459]; [12459;12441]; [12461]; [12461;12441]; [12463];
    [12463;12441]; [12465]; [12465;12441]; [12467]; [12467;12441]; [12469]; [12469;12441]; [12471];
    [12471;12441]; [12473]; [12473;12441]; [12475]; [12475;12441]; [12477]; [12477;12441]; [12479];
    [12479;12441]; [12481]; [12481;12441]; [12483]; [12484]; [12484;12441]; [12486]; [12486;12441];
    [12488]; [12488;12441]; [12490]; [12491]; [12492]; [12493]; [12494]; [12495]; [12495;12441];
    [12495;12442]; [12498]; [12498;12441]; [12498;12442]; [12501]; [12501;12441]; [12501;12442];
    [12504]; [12504;12441]; [12504;12442]; [12507]; [12507;12441]; [12507;12442]; [12510]; [12511];
    [12512]; [12513]; [12514]; [12515]; [12516]; [12517]; [12518]; [12519]; [12520]; [12521];
    [12522]; [12523]; [12524]; [12525]; [12526]; [12527]; [12528]; [12529]; [12530]; [12531];
    [12454;12441]; [12533]; [12534]; [12527;12441]; [12528;12441]; [12529;12441]; [12530;12441];
    [12539]; [12540]; [12541]; [12541;12441]; [12543]
  ].

(* libfsapfs_name.c 5973-6454 *)
Definition nfd_f900 : list (list Z) :=
  [
    [35912]; [26356]; [36554]; [36040]; [28369]; [20018]; [21477]; [40860]; [40860]; [22865];
    [37329]; [21895]; [22856]; [25078]; [30313]; [32645]; [34367]; [34746]; [35064]; [37007];
    [27138]; [27931]; [28889]; [29662]; [33853]; [37226]; [39409]; [20098]; [21365]; [27396];
    [29211]; [34349]; [40478]; [23888]; [28651]; [34253]; [35172]; [25289]; [33240]; [34847];
    [24266]; [26391]; [28010]; [29436]; [37070]; [20358]; [20919]; [21214]; [25796]; [27347];
    [29200]; [30439]; [32769]; [34310]; [34396]; [36335]; [38706]; [39791]; [40442]; [30860];
    [31103]; [32160]; [33737]; [37636]; [40575]; [35542]; [22751]; [24324]; [31840]; [32894];
    [29282]; [30922]; [36034]; [38647]; [22744]; [23650]; [27155]; [28122]; [28431]; [32047];
    [32311]; [38475]; [21202]; [32907]; [20956]; [20940]; [31260]; [32190]; [33777]; [38517];
    [35712]; [25295]; [27138]; [35582]; [20025]; [23527]; [24594]; [29575]; [30064]; [21271];
    [30971]; [20415]; [24489]; [19981]; [27852]; [25976]; [32034]; [21443]; [22622]; [30465];
    [33865]; [35498]; [27578]; [36784]; [27784]; [25342]; [33509]; [25504]; [30053]; [20142];
    [20841]; [20937]; [26753]; [31975]; [33391]; [35538]; [37327]; [21237]; [21570]; [22899];
    [24300]; [26053]; [28670]; [31018]; [38317]; [39530]; [40599]; [40654]; [21147]; [26310];
    [27511]; [36706]; [24180]; [24976]; [25088]; [25754]; [28451]; [29001]; [29833]; [31178];
    [32244]; [32879]; [36646]; [34030]; [36899]; [37706]; [21015]; [21155]; [21693]; [28872];
    [35010]; [35498]; [24265]; [24565]; [25467]; [27566]; [31806]; [29557]; [20196]; [22265];
    [23527]; [23994]; [24604]; [29618]; [29801]; [32666]; [32838]; [37428]; [38646]; [38728];
    [38936]; [20363]; [31150]; [37300]; [38584]; [24801]; [20102]; [20698]; [23534]; [23615];
    [26009]; [27138]; [29134]; [30274]; [34044]; [36988]; [40845]; [26248]; [38446]; [21129];
    [26491]; [26611]; [27969]; [28316]; [29705]; [30041]; [30827]; [32016]; [39006]; [20845];
    [25134]; [38520]; [20523]; [23833]; [28138]; [36650]; [24459]; [24900]; [26647]; [29575];
    [38534]; [21033]; [21519]; [23653]; [26131]; [26446]; [26792]; [27877]; [29702]; [30178];
    [32633]; [35023]; [35041]; [37324]; [38626]; [21311]; [28346]; [21533]; [29136]; [29848];
    [34298]; [38563]; [40023]; [40607]; [26519]; [28107]; [33256]; [31435]; [31520]; [31890];
    [29376]; [28825]; [35672]; [20160]; [33590]; [21050]; [20999]; [24230]; [25299]; [31958];
    [23429]; [27934]; [26292]; [36667]; [34892]; [38477]; [35211]; [24275]; [20800]; [21952];
    [64014]; [64015]; [22618]; [64017]; [26228]; [64019]; [64020]; [20958]; [29482]; [30410];
    [31036]; [31070]; [31077]; [31119]; [38742]; [31934]; [32701]; [64031]; [34322]; [64033];
    [35576]; [64035]; [64036]; [36920]; [37117]; [64039]; [64040]; [64041]; [39151]; [39164];
    [39208]; [40372]; [37086]; [38583]; [20398]; [20711]; [20813]; [21193]; [21220]; [21329];
    [21917]; [22022]; [22120]; [22592]; [22696]; [23652]; [23662]; [24724]; [24936]; [24974];
    [25074]; [25935]; [26082]; [26257]; [26757]; [28023]; [28186]; [28450]; [29038]; [29227];
    [29730]; [30865]; [31038]; [31049]; [31048]; [31056]; [31062]; [31069]; [31117]; [31118];
    [31296]; [31361]; [31680]; [32244]; [32265]; [32321]; [32626]; [32773]; [33261]; [33401];
    [33401]; [33879]; [35088]; [35222]; [35585]; [35641]; [36051]; [36104]; [36790]; [36920];
    [38627]; [38911]; [38971]; [24693]; [148206]; [33304]; [64110]; [64111]; [20006]; [20917];
    [20840]; [20352]; [20805]; [20864]; [21191]; [21242]; [21917]; [21845]; [21913]; [21986];
    [22618]; [22707]; [22852]; [22868]; [23138]; [23336]; [24274]; [24281]; [24425]; [24493];
    [24792]; [24910]; [24840]; [24974]; [24928]; [25074]; [25140]; [25540]; [25628]; [25682];
    [25942]; [26228]; [26391]; [26395]; [26454]; [27513]; [27578]; [27969]; [28379]; [28363];
    [28450]; [28702]; [29038]; [30631]; [29237]; [29359]; [29482]; [29809]; [29958]; [30011];
    [30237]; [30239]; [30410]; [30427]; [30452]; [30538]; [30528]; [30924]; [31409]; [31680];
    [31867]; [32091]; [32244]; [32574]; [32773]; [33618]; [33775]; [34681]; [35137]; [35206];
    [35222]; [35519]; [35576]; [35531]; [35585]; [35582]; [35565]; [35641]; [35722]; [36104];
    [36664]; [36978]; [37273]; [37494]; [38524]; [38627]; [38742]; [38875]; [38911]; [38923];
    [38971]; [39698]; [40860]; [141386]; [141380]; [144341]; [15261]; [16408]; [16441]; [152137];
    [154832]; [163539]; [40771]; [40846]; [64218]; [64219]; [64220]; [64221]; [64222]; [64223]
  ].

(* libfsapfs_name.c 6456-6465 *)
Definition nfd_ac00 : list (list Z) :=
  [
    [4352;4449]; [44033]; [44034]; [44035]; [44036]; [44037]; [44038]; [44039]
  ].

(* libfsapfs_name.c 6467-6476 *)
Definition nfd_d7a0 : list (list Z) :=
  [
    [55200]; [55201]; [55202]; [4370;4469;4546]; [55204]; [55205]; [55206]; [55207]
  ].

(* libfsapfs_name.c 6478-6535 *)
Definition nfd_fb18 : list (list Z) :=
  [
    [64280]; [64281]; [64282]; [64283]; [64284]; [1497;1460]; [64286]; [1522;1463]; [64288]; [64289];
    [64290]; [64291]; [64292]; [64293]; [64294]; [64295]; [64296]; [64297]; [1513;1473]; [1513;1474];
    [1513;1468;1473]; [1513;1468;1474]; [1488;1463]; [1488;1464]; [1488;1468]; [1489;1468];
    [1490;1468]; [1491;1468]; [1492;1468]; [1493;1468]; [1494;1468]; [64311]; [1496;1468];
    [1497;1468]; [1498;1468]; [1499;1468]; [1500;1468]; [64317]; [1502;1468]; [64319]; [1504;1468];
    [1505;1468]; [64322]; [1507;1468]; [1508;1468]; [64325]; [1510;1468]; [1511;1468]; [1512;1468];
    [1513;1468]; [1514;1468]; [1493;1465]; [1489;1471]; [1499;1471]; [1508;1471]; [64335]
  ].

(* libfsapfs_name.c 6537-6562 *)
Definition nfd_11098 : list (list Z) :=
  [
    [69784]; [69785]; [69785;69818]; [69787]; [69787;69818]; [69789]; [69790]; [69791]; [69792];
    [69793]; [69794]; [69795]; [69796]; [69797]; [69798]; [69799]; [69800]; [69801]; [69802];
    [69797;69818]; [69804]; [69805]; [69806]; [69807]
  ].

(* libfsapfs_name.c 6564-6573 *)
Definition nfd_11128 : list (list Z) :=
  [
    [69928]; [69929]; [69930]; [69931]; [69932]; [69933]; [69937;69927]; [69938;69927]
  ].

(* libfsapfs_name.c 6575-6584 *)
Definition nfd_11348 : list (list Z) :=
  [
    [70472]; [70473]; [70474]; [70471;70462]; [70471;70487]; [70477]; [70478]; [70479]
  ].

(* libfsapfs_name.c 6586-6595 *)
Definition nfd_114b8 : list (list Z) :=
  [
    [70840]; [70841]; [70842]; [70841;70842]; [70841;70832]; [70845]; [70841;70845]; [70847]
  ].

(* libfsapfs_name.c 6597-6606 *)
Definition nfd_115b8 : list (list Z) :=
  [
    [71096]; [71097]; [71096;71087]; [71097;71087]; [71100]; [71101]; [71102]; [71103]
  ].

(* libfsapfs_name.c 6608-6625 *)
Definition nfd_1d158 : list (list Z) :=
  [
    [119128]; [119129]; [119130]; [119131]; [119132]; [119133]; [119127;119141]; [119128;119141];
    [119128;119141;119150]; [119128;119141;119151]; [119128;119141;119152]; [119128;119141;119153];
    [119128;119141;119154]; [119141]; [119142]; [119143]
  ].

(* libfsapfs_name.c 6627-6644 *)
Definition nfd_1d1b8 : list (list Z) :=
  [
    [119224]; [119225]; [119226]; [119225;119141]; [119226;119141]; [119225;119141;119150];
    [119226;119141;119150]; [119225;119141;119151]; [119226;119141;119151]; [119233]; [119234];
    [119235]; [119236]; [119237]; [119238]; [119239]
  ].

(* libfsapfs_name.c 6646-7191 *)
Definition nfd_2f800 : list (list Z) :=
  [
    [20029]; [20024]; [20033]; [131362]; [20320]; [20398]; [20411]; [20482]; [20602]; [20633];
    [20711]; [20687]; [13470]; [132666]; [20813]; [20820]; [20836]; [20855]; [132380]; [13497];
    [20839]; [20877]; [132427]; [20887]; [20900]; [20172]; [20908]; [20917]; [168415]; [20981];
    [20995]; [13535]; [21051]; [21062]; [21106]; [21111]; [13589]; [21191]; [21193]; [21220];
    [21242]; [21253]; [21254]; [21271]; [21321]; [21329]; [21338]; [21363]; [21373]; [21375];
    [21375]; [21375]; [133676]; [28784]; [21450]; [21471]; [133987]; [21483]; [21489]; [21510];
    [21662]; [21560]; [21576]; [21608]; [21666]; [21750]; [21776]; [21843]; [21859]; [21892];
    [21892]; [21913]; [21931]; [21939]; [21954]; [22294]; [22022]; [22295]; [22097]; [22132];
    [20999]; [22766]; [22478]; [22516]; [22541]; [22411]; [22578]; [22577]; [22700]; [136420];
    [22770]; [22775]; [22790]; [22810]; [22818]; [22882]; [136872]; [136938]; [23020]; [23067];
    [23079]; [23000]; [23142]; [14062]; [14076]; [23304]; [23358]; [23358]; [137672]; [23491];
    [23512]; [23527]; [23539]; [138008]; [23551]; [23558]; [24403]; [23586]; [14209]; [23648];
    [23662]; [23744]; [23693]; [138724]; [23875]; [138726]; [23918]; [23915]; [23932]; [24033];
    [24034]; [14383]; [24061]; [24104]; [24125]; [24169]; [14434]; [139651]; [14460]; [24240];
    [24243]; [24246]; [24266]; [172946]; [24318]; [140081]; [140081]; [33281]; [24354]; [24354];
    [14535]; [144056]; [156122]; [24418]; [24427]; [14563]; [24474]; [24525]; [24535]; [24569];
    [24705]; [14650]; [14620]; [24724]; [141012]; [24775]; [24904]; [24908]; [24910]; [24908];
    [24954]; [24974]; [25010]; [24996]; [25007]; [25054]; [25074]; [25078]; [25104]; [25115];
    [25181]; [25265]; [25300]; [25424]; [142092]; [25405]; [25340]; [25448]; [25475]; [25572];
    [142321]; [25634]; [25541]; [25513]; [14894]; [25705]; [25726]; [25757]; [25719]; [14956];
    [25935]; [25964]; [143370]; [26083]; [26360]; [26185]; [15129]; [26257]; [15112]; [15076];
    [20882]; [20885]; [26368]; [26268]; [32941]; [17369]; [26391]; [26395]; [26401]; [26462];
    [26451]; [144323]; [15177]; [26618]; [26501]; [26706]; [26757]; [144493]; [26766]; [26655];
    [26900]; [15261]; [26946]; [27043]; [27114]; [27304]; [145059]; [27355]; [15384]; [27425];
    [145575]; [27476]; [15438]; [27506]; [27551]; [27578]; [27579]; [146061]; [138507]; [146170];
    [27726]; [146620]; [27839]; [27853]; [27751]; [27926]; [27966]; [28023]; [27969]; [28009];
    [28024]; [28037]; [146718]; [27956]; [28207]; [28270]; [15667]; [28363]; [28359]; [147153];
    [28153]; [28526]; [147294]; [147342]; [28614]; [28729]; [28702]; [28699]; [15766]; [28746];
    [28797]; [28791]; [28845]; [132389]; [28997]; [148067]; [29084]; [148395]; [29224]; [29237];
    [29264]; [149000]; [29312]; [29333]; [149301]; [149524]; [29562]; [29579]; [16044]; [29605];
    [16056]; [16056]; [29767]; [29788]; [29809]; [29829]; [29898]; [16155]; [29988]; [150582];
    [30014]; [150674]; [30064]; [139679]; [30224]; [151457]; [151480]; [151620]; [16380]; [16392];
    [30452]; [151795]; [151794]; [151833]; [151859]; [30494]; [30495]; [30495]; [30538]; [16441];
    [30603]; [16454]; [16534]; [152605]; [30798]; [30860]; [30924]; [16611]; [153126]; [31062];
    [153242]; [153285]; [31119]; [31211]; [16687]; [31296]; [31306]; [31311]; [153980]; [154279];
    [154279]; [31470]; [16898]; [154539]; [31686]; [31689]; [16935]; [154752]; [31954]; [17056];
    [31976]; [31971]; [32000]; [155526]; [32099]; [17153]; [32199]; [32258]; [32325]; [17204];
    [156200]; [156231]; [17241]; [156377]; [32634]; [156478]; [32661]; [32762]; [32773]; [156890];
    [156963]; [32864]; [157096]; [32880]; [144223]; [17365]; [32946]; [33027]; [17419]; [33086];
    [23221]; [157607]; [157621]; [144275]; [144284]; [33281]; [33284]; [36766]; [17515]; [33425];
    [33419]; [33437]; [21171]; [33457]; [33459]; [33469]; [33510]; [158524]; [33509]; [33565];
    [33635]; [33709]; [33571]; [33725]; [33767]; [33879]; [33619]; [33738]; [33740]; [33756];
    [158774]; [159083]; [158933]; [17707]; [34033]; [34035]; [34070]; [160714]; [34148]; [159532];
    [17757]; [17761]; [159665]; [159954]; [17771]; [34384]; [34396]; [34407]; [34409]; [34473];
    [34440]; [34574]; [34530]; [34681]; [34600]; [34667]; [34694]; [17879]; [34785]; [34817];
    [17913]; [34912]; [34915]; [161383]; [35031]; [35038]; [17973]; [35066]; [13499]; [161966];
    [162150]; [18110]; [18119]; [35488]; [35565]; [35722]; [35925]; [162984]; [36011]; [36033];
    [36123]; [36215]; [163631]; [133124]; [36299]; [36284]; [36336]; [133342]; [36564]; [36664];
    [165330]; [165357]; [37012]; [37105]; [37137]; [165678]; [37147]; [37432]; [37591]; [37592];
    [37500]; [37881]; [37909]; [166906]; [38283]; [18837]; [38327]; [167287]; [18918]; [38595];
    [23986]; [38691]; [168261]; [168474]; [19054]; [19062]; [38880]; [168970]; [19122]; [169110];
    [38923]; [38923]; [38953]; [169398]; [39138]; [19251]; [39209]; [39335]; [39362]; [39422];
    [19406]; [170800]; [39698]; [40000]; [40189]; [19662]; [19693]; [40295]; [172238]; [19704];
    [172293]; [172558]; [172689]; [40635]; [19798]; [40697]; [40702]; [40709]; [40719]; [40726];
    [40763]; [173568]; [195102]; [195103]
  ].

(* libfsapfs_name.h 290-438: libfsapfs_name_get_decomposition_mapping *)
Definition nfd_tables : list (Z * Z * list (list Z)) :=
  [
    (192, 383, nfd_c0); (416, 567, nfd_1a0); (832, 983, nfd_340); (1024, 1279, nfd_400);
    (1568, 1751, nfd_620); (2344, 2527, nfd_928); (2608, 2655, nfd_a30); (2888, 3023, nfd_b48);
    (3144, 3279, nfd_c48); (3400, 3551, nfd_d48); (3904, 4135, nfd_f40); (6912, 6983, nfd_1b00);
    (7680, 8199, nfd_1e00); (8480, 8655, nfd_2120); (8704, 9007, nfd_2200); (10968, 10975, nfd_2ad8);
    (12360, 12543, nfd_3048); (63744, 64223, nfd_f900); (44032, 44039, nfd_ac00);
    (55200, 55207, nfd_d7a0); (64280, 64335, nfd_fb18); (69784, 69807, nfd_11098);
    (69928, 69935, nfd_11128); (70472, 70479, nfd_11348); (70840, 70847, nfd_114b8);
    (71096, 71103, nfd_115b8); (119128, 119143, nfd_1d158); (119224, 119239, nfd_1d1b8);
    (194560, 195103, nfd_2f800)
  ].

(* libfsapfs_name_hash.c 38-87 *)
Definition special_1f80 : list (list Z) :=
  [
    [945;787;953]; [945;788;953]; [945;787;768;953]; [945;788;768;953]; [945;787;769;953];
    [945;788;769;953]; [945;787;834;953]; [945;788;834;953]; [945;787;953]; [945;788;953];
    [945;787;768;953]; [945;788;768;953]; [945;787;769;953]; [945;788;769;953]; [945;787;834;953];
    [945;788;834;953]; [951;787;953]; [951;788;953]; [951;787;768;953]; [951;788;768;953];
    [951;787;769;953]; [951;788;769;953]; [951;787;834;953]; [951;788;834;953]; [951;787;953];
    [951;788;953]; [951;787;768;953]; [951;788;768;953]; [951;787;769;953]; [951;788;769;953];
    [951;787;834;953]; [951;788;834;953]; [969;787;953]; [969;788;953]; [969;787;768;953];
    [969;788;768;953]; [969;787;769;953]; [969;788;769;953]; [969;787;834;953]; [969;788;834;953];
    [969;787;953]; [969;788;953]; [969;787;768;953]; [969;788;768;953]; [969;787;769;953];
    [969;788;769;953]; [969;787;834;953]; [969;788;834;953]
  ].

(* libfsapfs_name_hash.c 32-36, 89-122 and the switch statement 203-351: in the order of the cases *)
Definition special_single : list (Z * list Z) :=
  [
    (223, [115;115]); (304, [105;775]); (329, [700;110]); (1415, [1381;1410]); (7834, [97;702]);
    (8114, [945;768;953]); (8115, [945;953]); (8116, [945;769;953]); (8118, [945;834]);
    (8119, [945;834;953]); (8124, [945;953]); (8130, [951;768;953]); (8131, [951;953]);
    (8132, [951;769;953]); (8134, [951;834]); (8135, [951;834;953]); (8140, [951;953]);
    (8178, [969;768;953]); (8179, [969;953]); (8180, [969;769;953]); (8182, [969;834]);
    (8183, [969;834;953]); (8188, [969;953]); (64256, [102;102]); (64257, [102;105]);
    (64258, [102;108]); (64259, [102;102;105]); (64260, [102;102;108]); (64261, [115;116]);
    (64262, [115;116]); (64275, [1396;1398]); (64276, [1396;1381]); (64277, [1396;1387]);
    (64278, [1406;1398]); (64279, [1396;1389])
  ].
