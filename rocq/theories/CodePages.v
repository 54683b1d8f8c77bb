(** The code pages of corec/corec/helpers/charconvert/charconvert_utf8.c 11-185, generated from the source:
    the code points of the bytes 128 to 255, and the index that sorts them. *)
From Verif Require Import Base.

(** charconvert_utf8.c 11-20 *)
Definition codepage_1250 : list Z :=
  [8364; 129; 8218; 131; 8222; 8230; 8224; 8225; 136; 8240; 352; 8249; 346; 356; 381; 377; 144; 8216; 8217; 8220; 8221; 8226; 8211; 8212; 152; 8482; 353; 8250; 347; 357; 382; 378;
   160; 711; 728; 321; 164; 260; 166; 167; 168; 169; 350; 171; 172; 173; 174; 379; 176; 177; 731; 322; 180; 181; 182; 183; 184; 261; 351; 187; 317; 733; 318; 380;
   340; 193; 194; 258; 196; 313; 262; 199; 268; 201; 280; 203; 282; 205; 206; 270; 272; 323; 327; 211; 212; 336; 214; 215; 344; 366; 218; 368; 220; 221; 354; 223;
   341; 225; 226; 259; 228; 314; 263; 231; 269; 233; 281; 235; 283; 237; 238; 271; 273; 324; 328; 243; 244; 337; 246; 247; 345; 367; 250; 369; 252; 253; 355; 729].

(** charconvert_utf8.c 22-31 *)
Definition codepage_1250_r : list Z :=
  [1; 3; 8; 16; 24; 32; 36; 38; 39; 40; 41; 43; 44; 45; 46; 48; 49; 52; 53; 54; 55; 56; 59; 65; 66; 68; 71; 73; 75; 77; 78; 83;
   84; 86; 87; 90; 92; 93; 95; 97; 98; 100; 103; 105; 107; 109; 110; 115; 116; 118; 119; 122; 124; 125; 67; 99; 37; 57; 70; 102; 72; 104; 79; 111;
   80; 112; 74; 106; 76; 108; 69; 101; 60; 62; 35; 51; 81; 113; 82; 114; 85; 117; 64; 96; 88; 120; 12; 28; 42; 58; 10; 26; 94; 126; 13; 29;
   89; 121; 91; 123; 15; 31; 47; 63; 14; 30; 33; 34; 127; 50; 61; 22; 23; 17; 18; 2; 19; 20; 4; 6; 7; 21; 5; 9; 11; 27; 0; 25].

(** charconvert_utf8.c 33-42 *)
Definition codepage_1251 : list Z :=
  [1026; 1027; 8218; 1107; 8222; 8230; 8224; 8225; 8364; 8240; 1033; 8249; 1034; 1036; 1035; 1039; 1106; 8216; 8217; 8220; 8221; 8226; 8211; 8212; 152; 8482; 1113; 8250; 1114; 1116; 1115; 1119;
   160; 1038; 1118; 1032; 164; 1168; 166; 167; 1025; 169; 1028; 171; 172; 173; 174; 1031; 176; 177; 1030; 1110; 1169; 181; 182; 183; 1105; 8470; 1108; 187; 1112; 1029; 1109; 1111;
   1040; 1041; 1042; 1043; 1044; 1045; 1046; 1047; 1048; 1049; 1050; 1051; 1052; 1053; 1054; 1055; 1056; 1057; 1058; 1059; 1060; 1061; 1062; 1063; 1064; 1065; 1066; 1067; 1068; 1069; 1070; 1071;
   1072; 1073; 1074; 1075; 1076; 1077; 1078; 1079; 1080; 1081; 1082; 1083; 1084; 1085; 1086; 1087; 1088; 1089; 1090; 1091; 1092; 1093; 1094; 1095; 1096; 1097; 1098; 1099; 1100; 1101; 1102; 1103].

(** charconvert_utf8.c 44-53 *)
Definition codepage_1251_r : list Z :=
  [24; 32; 36; 38; 39; 41; 43; 44; 45; 46; 48; 49; 53; 54; 55; 59; 40; 0; 1; 42; 61; 50; 47; 35; 10; 12; 14; 13; 33; 15; 64; 65;
   66; 67; 68; 69; 70; 71; 72; 73; 74; 75; 76; 77; 78; 79; 80; 81; 82; 83; 84; 85; 86; 87; 88; 89; 90; 91; 92; 93; 94; 95; 96; 97;
   98; 99; 100; 101; 102; 103; 104; 105; 106; 107; 108; 109; 110; 111; 112; 113; 114; 115; 116; 117; 118; 119; 120; 121; 122; 123; 124; 125; 126; 127; 56; 16;
   3; 58; 62; 51; 63; 60; 26; 28; 30; 29; 34; 31; 37; 52; 22; 23; 17; 18; 2; 19; 20; 4; 6; 7; 21; 5; 9; 11; 27; 8; 57; 25].

(** charconvert_utf8.c 55-64 *)
Definition codepage_1252 : list Z :=
  [8364; 129; 8218; 402; 8222; 8230; 8224; 8225; 710; 8240; 352; 8249; 338; 141; 381; 143; 144; 8216; 8217; 8220; 8221; 8226; 8211; 8212; 732; 8482; 353; 8250; 339; 157; 382; 376;
   160; 161; 162; 163; 164; 165; 166; 167; 168; 169; 170; 171; 172; 173; 174; 175; 176; 177; 178; 179; 180; 181; 182; 183; 184; 185; 186; 187; 188; 189; 190; 191;
   192; 193; 194; 195; 196; 197; 198; 199; 200; 201; 202; 203; 204; 205; 206; 207; 208; 209; 210; 211; 212; 213; 214; 215; 216; 217; 218; 219; 220; 221; 222; 223;
   224; 225; 226; 227; 228; 229; 230; 231; 232; 233; 234; 235; 236; 237; 238; 239; 240; 241; 242; 243; 244; 245; 246; 247; 248; 249; 250; 251; 252; 253; 254; 255].

(** charconvert_utf8.c 66-75 *)
Definition codepage_1252_r : list Z :=
  [1; 13; 15; 16; 29; 32; 33; 34; 35; 36; 37; 38; 39; 40; 41; 42; 43; 44; 45; 46; 47; 48; 49; 50; 51; 52; 53; 54; 55; 56; 57; 58;
   59; 60; 61; 62; 63; 64; 65; 66; 67; 68; 69; 70; 71; 72; 73; 74; 75; 76; 77; 78; 79; 80; 81; 82; 83; 84; 85; 86; 87; 88; 89; 90;
   91; 92; 93; 94; 95; 96; 97; 98; 99; 100; 101; 102; 103; 104; 105; 106; 107; 108; 109; 110; 111; 112; 113; 114; 115; 116; 117; 118; 119; 120; 121; 122;
   123; 124; 125; 126; 127; 12; 28; 10; 26; 31; 14; 30; 3; 8; 24; 22; 23; 17; 18; 2; 19; 20; 4; 6; 7; 21; 5; 9; 11; 27; 0; 25].

(** charconvert_utf8.c 77-86 *)
Definition codepage_1253 : list Z :=
  [8364; 129; 8218; 402; 8222; 8230; 8224; 8225; 136; 8240; 138; 8249; 140; 141; 142; 143; 144; 8216; 8217; 8220; 8221; 8226; 8211; 8212; 152; 8482; 154; 8250; 156; 157; 158; 159;
   160; 901; 902; 163; 164; 165; 166; 167; 168; 169; 63737; 171; 172; 173; 174; 8213; 176; 177; 178; 179; 900; 181; 182; 183; 904; 905; 906; 187; 908; 189; 910; 911;
   912; 913; 914; 915; 916; 917; 918; 919; 920; 921; 922; 923; 924; 925; 926; 927; 928; 929; 63738; 931; 932; 933; 934; 935; 936; 937; 938; 939; 940; 941; 942; 943;
   944; 945; 946; 947; 948; 949; 950; 951; 952; 953; 954; 955; 956; 957; 958; 959; 960; 961; 962; 963; 964; 965; 966; 967; 968; 969; 970; 971; 972; 973; 974; 63739].

(** charconvert_utf8.c 88-97 *)
Definition codepage_1253_r : list Z :=
  [1; 8; 10; 12; 13; 14; 15; 16; 24; 26; 28; 29; 30; 31; 32; 35; 36; 37; 38; 39; 40; 41; 43; 44; 45; 46; 48; 49; 50; 51; 53; 54;
   55; 59; 61; 3; 52; 33; 34; 56; 57; 58; 60; 62; 63; 64; 65; 66; 67; 68; 69; 70; 71; 72; 73; 74; 75; 76; 77; 78; 79; 80; 81; 83;
   84; 85; 86; 87; 88; 89; 90; 91; 92; 93; 94; 95; 96; 97; 98; 99; 100; 101; 102; 103; 104; 105; 106; 107; 108; 109; 110; 111; 112; 113; 114; 115;
   116; 117; 118; 119; 120; 121; 122; 123; 124; 125; 126; 22; 23; 47; 17; 18; 2; 19; 20; 4; 6; 7; 21; 5; 9; 11; 27; 0; 25; 42; 82; 127].

(** charconvert_utf8.c 99-108 *)
Definition codepage_1254 : list Z :=
  [8364; 129; 8218; 402; 8222; 8230; 8224; 8225; 710; 8240; 352; 8249; 338; 141; 142; 143; 144; 8216; 8217; 8220; 8221; 8226; 8211; 8212; 732; 8482; 353; 8250; 339; 157; 158; 376;
   160; 161; 162; 163; 164; 165; 166; 167; 168; 169; 170; 171; 172; 173; 174; 175; 176; 177; 178; 179; 180; 181; 182; 183; 184; 185; 186; 187; 188; 189; 190; 191;
   192; 193; 194; 195; 196; 197; 198; 199; 200; 201; 202; 203; 204; 205; 206; 207; 286; 209; 210; 211; 212; 213; 214; 215; 216; 217; 218; 219; 220; 304; 350; 223;
   224; 225; 226; 227; 228; 229; 230; 231; 232; 233; 234; 235; 236; 237; 238; 239; 287; 241; 242; 243; 244; 245; 246; 247; 248; 249; 250; 251; 252; 305; 351; 255].

(** charconvert_utf8.c 110-119 *)
Definition codepage_1254_r : list Z :=
  [1; 13; 14; 15; 16; 29; 30; 32; 33; 34; 35; 36; 37; 38; 39; 40; 41; 42; 43; 44; 45; 46; 47; 48; 49; 50; 51; 52; 53; 54; 55; 56;
   57; 58; 59; 60; 61; 62; 63; 64; 65; 66; 67; 68; 69; 70; 71; 72; 73; 74; 75; 76; 77; 78; 79; 81; 82; 83; 84; 85; 86; 87; 88; 89;
   90; 91; 92; 95; 96; 97; 98; 99; 100; 101; 102; 103; 104; 105; 106; 107; 108; 109; 110; 111; 113; 114; 115; 116; 117; 118; 119; 120; 121; 122; 123; 124;
   127; 80; 112; 93; 125; 12; 28; 94; 126; 10; 26; 31; 3; 8; 24; 22; 23; 17; 18; 2; 19; 20; 4; 6; 7; 21; 5; 9; 11; 27; 0; 25].

(** charconvert_utf8.c 121-130 *)
Definition codepage_1255 : list Z :=
  [8364; 129; 8218; 402; 8222; 8230; 8224; 8225; 710; 8240; 138; 8249; 140; 141; 142; 143; 144; 8216; 8217; 8220; 8221; 8226; 8211; 8212; 732; 8482; 154; 8250; 156; 157; 158; 159;
   160; 161; 162; 163; 8362; 165; 166; 167; 168; 169; 215; 171; 172; 173; 174; 175; 176; 177; 178; 179; 180; 181; 182; 183; 184; 185; 247; 187; 188; 189; 190; 191;
   1456; 1457; 1458; 1459; 1460; 1461; 1462; 1463; 1464; 1465; 1466; 1467; 1468; 1469; 1470; 1471; 1472; 1473; 1474; 1475; 1520; 1521; 1522; 1523; 1524; 63629; 63630; 63631; 63632; 63633; 63634; 63635;
   1488; 1489; 1490; 1491; 1492; 1493; 1494; 1495; 1496; 1497; 1498; 1499; 1500; 1501; 1502; 1503; 1504; 1505; 1506; 1507; 1508; 1509; 1510; 1511; 1512; 1513; 1514; 63636; 63637; 8206; 8207; 63638].

(** charconvert_utf8.c 132-141 *)
Definition codepage_1255_r : list Z :=
  [1; 10; 12; 13; 14; 15; 16; 26; 28; 29; 30; 31; 32; 33; 34; 35; 37; 38; 39; 40; 41; 43; 44; 45; 46; 47; 48; 49; 50; 51; 52; 53;
   54; 55; 56; 57; 59; 60; 61; 62; 63; 42; 58; 3; 8; 24; 64; 65; 66; 67; 68; 69; 70; 71; 72; 73; 74; 75; 76; 77; 78; 79; 80; 81;
   82; 83; 96; 97; 98; 99; 100; 101; 102; 103; 104; 105; 106; 107; 108; 109; 110; 111; 112; 113; 114; 115; 116; 117; 118; 119; 120; 121; 122; 84; 85; 86;
   87; 88; 125; 126; 22; 23; 17; 18; 2; 19; 20; 4; 6; 7; 21; 5; 9; 11; 27; 36; 0; 25; 89; 90; 91; 92; 93; 94; 95; 123; 124; 127].

(** charconvert_utf8.c 143-152 *)
Definition codepage_1256 : list Z :=
  [8364; 1662; 8218; 402; 8222; 8230; 8224; 8225; 710; 8240; 1657; 8249; 338; 1670; 1688; 1672; 1711; 8216; 8217; 8220; 8221; 8226; 8211; 8212; 1705; 8482; 1681; 8250; 339; 8204; 8205; 1722;
   160; 1548; 162; 163; 164; 165; 166; 167; 168; 169; 1726; 171; 172; 173; 174; 175; 176; 177; 178; 179; 180; 181; 182; 183; 184; 185; 1563; 187; 188; 189; 190; 1567;
   1729; 1569; 1570; 1571; 1572; 1573; 1574; 1575; 1576; 1577; 1578; 1579; 1580; 1581; 1582; 1583; 1584; 1585; 1586; 1587; 1588; 1589; 1590; 215; 1591; 1592; 1593; 1594; 1600; 1601; 1602; 1603;
   224; 1604; 226; 1605; 1606; 1607; 1608; 231; 232; 233; 234; 235; 1609; 1610; 238; 239; 1611; 1612; 1613; 1614; 244; 1615; 1616; 247; 1617; 249; 1618; 251; 252; 8206; 8207; 1746].

(** charconvert_utf8.c 154-163 *)
Definition codepage_1256_r : list Z :=
  [32; 34; 35; 36; 37; 38; 39; 40; 41; 43; 44; 45; 46; 47; 48; 49; 50; 51; 52; 53; 54; 55; 56; 57; 59; 60; 61; 62; 87; 96; 98; 103;
   104; 105; 106; 107; 110; 111; 116; 119; 121; 123; 124; 12; 28; 3; 8; 33; 58; 63; 65; 66; 67; 68; 69; 70; 71; 72; 73; 74; 75; 76; 77; 78;
   79; 80; 81; 82; 83; 84; 85; 86; 88; 89; 90; 91; 92; 93; 94; 95; 97; 99; 100; 101; 102; 108; 109; 112; 113; 114; 115; 117; 118; 120; 122; 10;
   1; 13; 15; 26; 14; 24; 16; 31; 42; 64; 127; 29; 30; 125; 126; 22; 23; 17; 18; 2; 19; 20; 4; 6; 7; 21; 5; 9; 11; 27; 0; 25].

(** charconvert_utf8.c 165-174 *)
Definition codepage_1257 : list Z :=
  [8364; 129; 8218; 131; 8222; 8230; 8224; 8225; 136; 8240; 138; 8249; 140; 168; 711; 184; 144; 8216; 8217; 8220; 8221; 8226; 8211; 8212; 152; 8482; 154; 8250; 156; 175; 731; 159;
   160; 63740; 162; 163; 164; 63741; 166; 167; 216; 169; 342; 171; 172; 173; 174; 198; 176; 177; 178; 179; 180; 181; 182; 183; 248; 185; 343; 187; 188; 189; 190; 230;
   260; 302; 256; 262; 196; 197; 280; 274; 268; 201; 377; 278; 290; 310; 298; 315; 352; 323; 325; 211; 332; 213; 214; 215; 370; 321; 346; 362; 220; 379; 381; 223;
   261; 303; 257; 263; 228; 229; 281; 275; 269; 233; 378; 279; 291; 311; 299; 316; 353; 324; 326; 243; 333; 245; 246; 247; 371; 322; 347; 363; 252; 380; 382; 729].

(** charconvert_utf8.c 176-185 *)
Definition codepage_1257_r : list Z :=
  [1; 3; 8; 10; 12; 16; 24; 26; 28; 31; 32; 34; 35; 36; 38; 39; 13; 41; 43; 44; 45; 46; 29; 48; 49; 50; 51; 52; 53; 54; 55; 15;
   57; 59; 60; 61; 62; 68; 69; 47; 73; 83; 85; 86; 87; 40; 92; 95; 100; 101; 63; 105; 115; 117; 118; 119; 56; 124; 66; 98; 64; 96; 67; 99;
   72; 104; 71; 103; 75; 107; 70; 102; 76; 108; 78; 110; 65; 97; 77; 109; 79; 111; 89; 121; 81; 113; 82; 114; 84; 116; 42; 58; 90; 122; 80; 112;
   91; 123; 88; 120; 74; 106; 93; 125; 94; 126; 14; 127; 30; 22; 23; 17; 18; 2; 19; 20; 4; 6; 7; 21; 5; 9; 11; 27; 0; 25; 33; 37].
