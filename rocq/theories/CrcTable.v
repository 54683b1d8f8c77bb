(** The CRC tables of libebml2/ebmlcrc.c 18-125, transcribed as data (hexadecimal -> decimal). *)
From Verif Require Import Base.

(** m_tab, little-endian build, ebmlcrc.c 73-124. *)
Definition m_tab_le : list Z := [
   0; 1996959894; 3993919788; 2567524794; 124634137; 1886057615;
   3915621685; 2657392035; 249268274; 2044508324; 3772115230; 2547177864;
   162941995; 2125561021; 3887607047; 2428444049; 498536548; 1789927666;
   4089016648; 2227061214; 450548861; 1843258603; 4107580753; 2211677639;
   325883990; 1684777152; 4251122042; 2321926636; 335633487; 1661365465;
   4195302755; 2366115317; 997073096; 1281953886; 3579855332; 2724688242;
   1006888145; 1258607687; 3524101629; 2768942443; 901097722; 1119000684;
   3686517206; 2898065728; 853044451; 1172266101; 3705015759; 2882616665;
   651767980; 1373503546; 3369554304; 3218104598; 565507253; 1454621731;
   3485111705; 3099436303; 671266974; 1594198024; 3322730930; 2970347812;
   795835527; 1483230225; 3244367275; 3060149565; 1994146192; 31158534;
   2563907772; 4023717930; 1907459465; 112637215; 2680153253; 3904427059;
   2013776290; 251722036; 2517215374; 3775830040; 2137656763; 141376813;
   2439277719; 3865271297; 1802195444; 476864866; 2238001368; 4066508878;
   1812370925; 453092731; 2181625025; 4111451223; 1706088902; 314042704;
   2344532202; 4240017532; 1658658271; 366619977; 2362670323; 4224994405;
   1303535960; 984961486; 2747007092; 3569037538; 1256170817; 1037604311;
   2765210733; 3554079995; 1131014506; 879679996; 2909243462; 3663771856;
   1141124467; 855842277; 2852801631; 3708648649; 1342533948; 654459306;
   3188396048; 3373015174; 1466479909; 544179635; 3110523913; 3462522015;
   1591671054; 702138776; 2966460450; 3352799412; 1504918807; 783551873;
   3082640443; 3233442989; 3988292384; 2596254646; 62317068; 1957810842;
   3939845945; 2647816111; 81470997; 1943803523; 3814918930; 2489596804;
   225274430; 2053790376; 3826175755; 2466906013; 167816743; 2097651377;
   4027552580; 2265490386; 503444072; 1762050814; 4150417245; 2154129355;
   426522225; 1852507879; 4275313526; 2312317920; 282753626; 1742555852;
   4189708143; 2394877945; 397917763; 1622183637; 3604390888; 2714866558;
   953729732; 1340076626; 3518719985; 2797360999; 1068828381; 1219638859;
   3624741850; 2936675148; 906185462; 1090812512; 3747672003; 2825379669;
   829329135; 1181335161; 3412177804; 3160834842; 628085408; 1382605366;
   3423369109; 3138078467; 570562233; 1426400815; 3317316542; 2998733608;
   733239954; 1555261956; 3268935591; 3050360625; 752459403; 1541320221;
   2607071920; 3965973030; 1969922972; 40735498; 2617837225; 3943577151;
   1913087877; 83908371; 2512341634; 3803740692; 2075208622; 213261112;
   2463272603; 3855990285; 2094854071; 198958881; 2262029012; 4057260610;
   1759359992; 534414190; 2176718541; 4139329115; 1873836001; 414664567;
   2282248934; 4279200368; 1711684554; 285281116; 2405801727; 4167216745;
   1634467795; 376229701; 2685067896; 3608007406; 1308918612; 956543938;
   2808555105; 3495958263; 1231636301; 1047427035; 2932959818; 3654703836;
   1088359270; 936918000; 2847714899; 3736837829; 1202900863; 817233897;
   3183342108; 3401237130; 1404277552; 615818150; 3134207493; 3453421203;
   1423857449; 601450431; 3009837614; 3294710456; 1567103746; 711928724;
   3020668471; 3272380065; 1510334235; 755167117 ].

(** m_tab, IS_BIG_ENDIAN build, ebmlcrc.c 20-71. *)
Definition m_tab_be : list Z := [
   0; 2519730039; 744558318; 3125873049; 432303367; 2415159920;
   900031465; 2744476830; 847829774; 2763578489; 518641120; 2295976599;
   726447625; 3179065726; 120436967; 2434645904; 1678817053; 4062228586;
   1215412723; 3728850564; 2111101466; 3957644653; 1370871028; 3347436419;
   1452829715; 3232263012; 2063164157; 3972621706; 1331429652; 3647735395;
   1664946170; 4111272077; 3357568571; 1578133836; 3829489877; 1920034722;
   3521381180; 1205077067; 4253355474; 1807026853; 4205360437; 1821946434;
   3603545051; 1090108588; 3815561266; 1969020741; 3473790684; 1497223595;
   2888882470; 973135441; 2152847304; 375509183; 3052712993; 600093526;
   2576726735; 262520248; 2662859304; 143131999; 3000569030; 619252657;
   2273079087; 290220120; 2870829505; 1026385590; 2420235382; 108124929;
   3156267672; 705746415; 2307240305; 532002310; 2783231903; 869578984;
   2731083640; 888733711; 2393377174; 412618465; 3138218623; 759000328;
   2540463249; 22832102; 4098976619; 1650551836; 3627050373; 1308648178;
   3985966700; 2074411291; 3253995650; 1472466933; 3336155237; 1357494034;
   3937975947; 2089335292; 3743276386; 1227741717; 4085044108; 1699534075;
   1482797645; 3461461306; 1946205347; 3794844628; 1101389642; 3616921661;
   1841615268; 4227126995; 1793681731; 4242107956; 1183344557; 3501744346;
   1932330052; 3843883827; 1598818986; 3380350429; 1014039888; 2856387111;
   269487038; 2250247369; 632645719; 3011866400; 164914873; 2682544590;
   251256414; 2563365161; 580440240; 3030964167; 389919577; 2165158958;
   995933623; 2909584064; 545503469; 3065233306; 216184323; 2597499252;
   961009130; 2943865501; 354867972; 2199313523; 302736355; 2218484884;
   1047162125; 2824497786; 198119140; 2650737043; 665714698; 2979923837;
   1150488560; 3533899911; 1760690462; 4274128489; 1566008055; 3412551040;
   1899392025; 3875957614; 1981535486; 3760968585; 1518000656; 3427458407;
   1876933113; 4193238670; 1136572183; 3582898272; 3903051478; 2123616673;
   3301103672; 1391648591; 4050107345; 1733803174; 3708204351; 1261875784;
   3660254680; 1276840623; 4132045622; 1618609217; 3287245023; 1440704424;
   4019088945; 2042521926; 2360566219; 444819132; 2698145573; 920807506;
   2507607244; 54987707; 3105227298; 791020885; 3191585477; 671858098;
   2455417899; 74101596; 2818561986; 835702965; 2342443308; 497999451;
   2965529755; 653419500; 2627955317; 177433858; 2835745180; 1060507371;
   2238121842; 324468741; 2185936789; 343587042; 2922099067; 941340172;
   2609828498; 230610405; 3085950076; 568318731; 3570586502; 1122161905;
   4172537192; 1854134815; 3440819841; 1529264630; 3782717551; 2001188632;
   3864660104; 1885999103; 3392865894; 1544225041; 4288570767; 1773036280;
   3556731745; 1171221526; 2028079776; 4006743511; 1417872462; 3266511673;
   1629906855; 4145438928; 1296525641; 3682037310; 1248514478; 3696940761;
   1712054080; 4030453815; 1403960489; 3315514334; 2144318023; 3925849392;
   485670333; 2328017610; 814986067; 2795746340; 87478458; 2466699213;
   693624404; 3211254051; 779773619; 3091882436; 35350621; 2485874474;
   935201716; 2710441155; 467600730; 2381251117 ].
