(** Seeds for every first roll of a slot and every nature; written by tools/gen_nature_seeds.py. *)
From Coq Require Import NArith List.
Import ListNotations.
Open Scope N_scope.
(** Which rand chooses the slot, which one is odd and which one chooses the nature. *)
Definition nature_modes : list (nat * nat * nat) := [(0, 1, 2)%nat; (0, 2, 3)%nat; (0, 3, 4)%nat; (1, 0, 3)%nat; (1, 0, 4)%nat].
Definition slot_rolls : list N := [0; 19; 39; 49; 59; 69; 79; 84; 89; 93; 94; 97; 98].
Definition nature_seeds : list (list (list N)) :=
  [[[2612; 37571; 10479; 987; 3630; 81781; 2130; 1438; 82232; 3148; 85; 2728; 117642; 1228; 536; 14506; 1679; 1951; 1259; 91032; 54; 5224; 2161; 777; 3599];
    [416; 121; 3215; 98569; 1139; 3961; 9131; 5104; 2041; 7506; 6122; 5827; 2492; 8229; 18467; 867; 6037; 20574; 4925; 1590; 7327; 122536; 5943; 5135; 63159];
    [2131; 747; 3274; 2582; 37541; 1082; 390; 662; 107638; 2100; 1408; 27272; 180; 2823; 4953; 83104; 631; 211; 14476; 13271; 4743; 3484; 61508; 2551; 1859];
    [493; 23263; 10436; 1636; 944; 70295; 11; 1846; 1667; 462; 734; 42; 48699; 1185; 3315; 12387; 139490; 2087; 1395; 24732; 283; 2413; 2118; 94829; 3556];
    [1918; 7360; 91271; 8798; 270; 11200; 126681; 721; 6186; 23545; 7896; 1226; 7088; 113885; 2641; 5284; 22076; 6427; 449; 29; 66286; 1467; 1172; 12102; 113318];
    [6142; 257; 5722; 78011; 7160; 4097; 20889; 5240; 1905; 7642; 65099; 101; 2628; 8365; 4338; 436; 6173; 64197; 4789; 1454; 21456; 99607; 5691; 4999; 65666];
    [63733; 2133; 1441; 15978; 3151; 2459; 2164; 51388; 3602; 539; 17447; 86798; 990; 6455; 29792; 2700; 1713; 4535; 99889; 3423; 88; 16880; 15496; 6696; 3633];
    [711; 5881; 66727; 18941; 1613; 921; 102137; 2064; 2336; 68196; 439; 2787; 19; 103606; 1162; 470; 20597; 7770; 4707; 7350; 67629; 260; 2515; 10895; 6868];
    [4638; 94411; 3138; 75; 63292; 1513; 526; 14791; 130272; 2236; 1544; 15514; 44; 316; 5089; 74168; 767; 642; 3169; 106756; 1785; 977; 38579; 2687; 1995];
    [5502; 1988; 4515; 53739; 6225; 68; 8176; 97949; 3341; 3613; 43765; 5051; 1421; 6886; 122367; 5774; 2439; 19231; 3582; 519; 3162; 77706; 4305; 970; 6707];
    [5230; 1600; 7065; 114041; 5953; 2618; 19410; 158523; 426; 6163; 54820; 4663; 1149; 18508; 5681; 4989; 4694; 53918; 6132; 247; 19977; 4779; 3520; 3792; 55387];
    [3785; 722; 58179; 1865; 1173; 21867; 9040; 240; 5410; 34212; 7120; 271; 23336; 104309; 1414; 4508; 47303; 8589; 61; 10424; 125905; 512; 5977; 11147; 161315];
    [450; 34842; 8317; 2160; 1352; 70547; 8768; 2495; 1803; 117579; 691; 178; 11326; 10121; 1593; 901; 58358; 2044; 7509; 22046; 9219; 419; 8232; 34391; 9942]];
   [[7144; 5675; 5706; 4983; 3179; 2822; 987; 746; 54; 10689; 9997; 8528; 8559; 7836; 5760; 4291; 2853; 2371; 2130; 1438; 0; 11381; 23150; 9305; 7867];
    [175; 206; 10872; 10149; 8680; 7988; 8019; 5796; 5827; 3751; 2282; 1559; 90; 867; 11533; 10841; 9341; 8796; 7296; 6604; 5104; 4412; 2943; 2974; 2251];
    [5194; 4953; 3484; 2792; 957; 716; 12369; 10659; 9190; 8498; 8529; 7806; 6337; 4533; 3810; 2341; 2100; 631; 180; 11351; 9882; 9547; 7837; 7114; 5645];
    [1636; 1154; 13048; 11213; 9503; 8065; 7583; 6860; 6650; 5181; 4489; 28456; 2654; 944; 462; 10887; 10436; 10195; 9744; 8034; 6199; 5476; 4007; 2569; 2328];
    [10423; 9700; 7865; 6427; 6186; 4235; 3994; 3302; 2851; 1382; 1141; 11441; 9731; 9249; 7539; 8316; 6847; 6155; 16937; 4320; 2610; 1172; 449; 480; 29];
    [6740; 6017; 4307; 2838; 2387; 2146; 1454; 16; 11754; 9562; 8093; 7852; 7160; 5691; 5240; 4999; 3195; 3079; 1003; 1034; 311; 10705; 9236; 8544; 8575];
    [14804; 1200; 2008; 539; 10933; 10482; 10241; 8406; 6968; 6245; 4535; 4084; 3843; 1892; 1682; 13451; 11710; 10272; 9549; 8080; 7388; 7419; 6696; 4861; 3423];
    [1131; 439; 229; 10864; 22276; 8703; 6868; 6145; 5189; 4466; 2997; 2305; 2336; 113; 11641; 10172; 9721; 8734; 8011; 7319; 5850; 17262; 5158; 3082; 1613];
    [11246; 9777; 9295; 8603; 20497; 6527; 5089; 4366; 2897; 2928; 2205; 736; 44; 24042; 10103; 8393; 7911; 6442; 5750; 5781; 5058; 3589; 1513; 1544; 75];
    [9739; 9288; 21423; 7212; 5743; 4305; 3582; 3613; 2890; 1180; 729; 24727; 10757; 9047; 8596; 6886; 6435; 6194; 4390; 4033; 2198; 1747; 760; 37; 10431];
    [9677; 8985; 7516; 6824; 18959; 4748; 3279; 1841; 1118; 667; 426; 11838; 10369; 8534; 7096; 6855; 6132; 4663; 3971; 4002; 3520; 1475; 6; 10400; 11146];
    [8620; 7897; 6428; 4718; 4267; 4298; 3575; 2106; 13518; 61; 9973; 9732; 9281; 7571; 7120; 7151; 5075; 4959; 2883; 1414; 1445; 722; 30; 10424; 22077];
    [8201; 19613; 6156; 5433; 3964; 2526; 1803; 1352; 1111; 11411; 11054; 9219; 7509; 7540; 6817; 5348; 4656; 4687; 2852; 2160; 419; 11085; 11831; 10362; 9670]];
   [[4773; 2371; 6965; 4563; 295; 2161; 5760; 5706; 1951; 3389; 7416; 3148; 746; 1259; 2697; 4804; 5675; 54; 1920; 85; 4112; 1710; 7657; 2822; 2907];
    [1831; 5345; 2943; 5376; 2974; 10841; 2733; 331; 416; 2282; 8229; 2041; 206; 2072; 3184; 3269; 867; 1380; 6814; 2492; 90; 175; 6122; 7988; 4233];
    [3725; 3810; 1408; 3841; 4953; 3600; 1198; 6578; 662; 4261; 421; 12074; 6453; 4051; 1082; 3515; 7114; 3274; 872; 957; 903; 988; 2100; 747; 211];
    [6891; 6409; 2569; 734; 252; 6199; 2444; 1395; 42; 5989; 3587; 1185; 703; 6650; 8516; 2895; 493; 6440; 4038; 3556; 283; 11369; 5748; 3346; 944];
    [2190; 1141; 5735; 3333; 2851; 8798; 449; 5043; 2641; 239; 6186; 7624; 2431; 29; 1467; 5494; 1226; 9039; 690; 5284; 2882; 480; 8347; 5945; 13245];
    [4789; 521; 12174; 4066; 70; 2177; 3615; 7642; 5240; 15027; 1485; 436; 5030; 2628; 12415; 226; 311; 2418; 1936; 7883; 5481; 15268; 1726; 2597; 762];
    [7870; 4115; 1713; 1231; 7178; 2910; 3423; 1021; 2459; 4566; 2218; 1682; 1767; 6276; 3874; 1472; 7419; 5071; 5017; 4535; 2133; 6727; 1892; 57; 2008];
    [3805; 1403; 7350; 1162; 8462; 711; 4225; 1823; 4256; 10203; 4015; 1613; 7560; 3564; 4676; 2841; 13056; 952; 4466; 2064; 6417; 7529; 260; 1854; 1372];
    [767; 852; 4366; 12661; 557; 642; 6022; 3620; 3705; 9652; 1303; 1062; 3495; 526; 6473; 2205; 2718; 316; 1754; 3861; 1513; 9326; 977; 7491; 3169];
    [5051; 1211; 8596; 7243; 4841; 2439; 37; 5984; 4631; 1662; 1747; 7694; 5292; 1452; 1537; 488; 4515; 2680; 2198; 8145; 4305; 4390; 1988; 7368; 5533];
    [698; 2136; 6163; 247; 1359; 6; 6824; 3551; 1149; 667; 3100; 4212; 2859; 457; 1895; 4002; 1600; 1118; 7065; 9498; 3310; 908; 6855; 4453; 3971];
    [61; 3575; 1173; 3124; 6638; 2883; 6669; 481; 6428; 4026; 5977; 2137; 2222; 9522; 3334; 932; 6879; 4477; 4990; 722; 240; 271; 2432; 30; 1896];
    [2495; 2580; 178; 691; 7991; 1803; 1834; 1352; 5433; 3031; 3544; 1142; 4656; 2254; 2339; 2285; 2370; 7750; 3995; 1593; 5107; 5192; 5138; 1383; 10603]];
   [[743; 3080; 5162; 96; 12192; 5044; 7381; 2315; 4397; 5554; 1622; 3704; 2825; 975; 1923; 11012; 7126; 9208; 351; 3217; 5299; 9718; 488; 6734; 5809];
    [440; 1597; 5807; 4882; 950; 5114; 5898; 303; 3169; 2244; 558; 9320; 3679; 4627; 695; 1898; 3980; 48; 1205; 2153; 4071; 8281; 1342; 2290; 6454];
    [1846; 8092; 17227; 3281; 4438; 297; 1454; 13596; 4575; 807; 3673; 5755; 9040; 944; 5108; 42; 1199; 3536; 5618; 552; 2634; 1709; 7837; 1062; 2771];
    [642; 1845; 3927; 4711; 8875; 10287; 296; 5221; 155; 2237; 6656; 7813; 1590; 2747; 943; 18; 2100; 4966; 1198; 1982; 4319; 5476; 1335; 410; 4574];
    [10423; 3275; 7694; 9776; 2628; 3785; 7949; 1935; 3138; 6004; 154; 9243; 11325; 7439; 6514; 1448; 5612; 1680; 801; 4965; 6122; 108; 1056; 5102; 409];
    [4176; 6258; 7042; 1401; 4431; 499; 1702; 11716; 4568; 1009; 1793; 3875; 7160; 1146; 2094; 244; 2581; 3529; 5447; 6395; 754; 3620; 107; 6905; 891];
    [890; 2047; 3756; 4913; 8198; 2184; 4266; 3341; 1282; 357; 4776; 7642; 1792; 867; 5861; 1145; 220; 3086; 5168; 8453; 2439; 5469; 1537; 612; 2694];
    [15216; 3352; 2427; 368; 1525; 11585; 4646; 878; 1662; 3744; 2819; 1015; 90; 4254; 15471; 1270; 3607; 4391; 623; 1780; 2564; 6983; 760; 1917; 6081];
    [611; 1395; 5814; 7896; 748; 1905; 6069; 2183; 1258; 4124; 356; 9491; 19505; 5559; 493; 1650; 3732; 1928; 1003; 3085; 101; 7108; 1513; 3222; 4379];
    [2289; 5155; 17297; 8440; 2426; 8672; 1524; 599; 5018; 877; 2034; 3191; 13251; 1387; 462; 3328; 1269; 344; 2681; 5711; 1779; 3861; 2936; 1132; 207];
    [991; 3073; 3857; 8021; 1128; 3210; 9456; 226; 11443; 5802; 1661; 736; 6609; 1014; 89; 2955; 7119; 2053; 4390; 3465; 1406; 481; 2563; 13780; 1916];
    [7758; 983; 11043; 12200; 336; 1493; 3202; 2277; 473; 1630; 3712; 14929; 728; 3065; 5931; 81; 1238; 4104; 8314; 218; 1375; 4660; 6742; 2810; 1885];
    [5676; 610; 1767; 11827; 7895; 1120; 1904; 3986; 5143; 1257; 3339; 2414; 355; 1512; 3849; 4633; 865; 2022; 2806; 8150; 1002; 77; 100; 9189; 3594]];
   [[15058; 975; 29674; 6178; 4397; 16885; 743; 3080; 14156; 5946; 351; 11427; 2570; 5832; 7773; 488; 15960; 5044; 96; 13231; 2315; 4652; 10502; 1923; 32403];
    [4372; 16860; 440; 3980; 14131; 48; 2385; 11402; 4882; 19589; 1597; 2153; 13876; 5019; 558; 11147; 2290; 35107; 7493; 695; 32378; 4764; 303; 22573; 3169];
    [3281; 9131; 8484; 552; 11906; 2771; 7445; 10311; 42; 4716; 7304; 297; 21920; 3928; 6265; 10056; 1199; 3536; 6402; 1454; 807; 3673; 6010; 28280; 944];
    [7303; 11094; 1590; 3927; 8365; 642; 1198; 4711; 4064; 28671; 1982; 1335; 15673; 6538; 18; 14078; 3809; 7558; 10424; 155; 7813; 7695; 410; 22958; 4966];
    [409; 14191; 108; 7949; 11462; 2883; 5220; 8733; 154; 22424; 5357; 1543; 19695; 2628; 4965; 18100; 1680; 2236; 14446; 5102; 20574; 1448; 3785; 17845; 6929];
    [6003; 8869; 1146; 1702; 5215; 4568; 107; 3620; 4176; 27371; 891; 244; 31927; 5447; 499; 22122; 2718; 6258; 9124; 1401; 3529; 6395; 8085; 1009; 3875];
    [612; 12891; 3756; 36851; 17447; 2439; 4776; 7642; 2047; 22905; 1929; 4266; 27461; 2184; 1537; 15875; 867; 220; 13146; 3086; 35694; 10417; 357; 15620; 8822];
    [2564; 1917; 27449; 9457; 1525; 21736; 4391; 1780; 19007; 1662; 6336; 9202; 1270; 3607; 6473; 7676; 878; 760; 3097; 8947; 90; 368; 6218; 5571; 623];
    [1928; 16913; 1905; 1258; 14184; 4124; 29656; 1395; 748; 26927; 5951; 356; 20567; 3222; 611; 11409; 493; 4242; 8680; 101; 1513; 4379; 5304; 16658; 1650];
    [462; 17689; 344; 5018; 14960; 599; 2289; 5155; 5711; 20418; 2426; 1779; 24974; 8185; 1387; 21320; 4253; 35936; 2171; 1524; 26131; 6727; 207; 23402; 3998];
    [7511; 991; 31471; 1798; 3210; 28742; 1128; 481; 15744; 5684; 89; 13224; 2955; 7629; 10495; 226; 15698; 4782; 7119; 12969; 2053; 4390; 10240; 2308; 1661];
    [1238; 24433; 5029; 1493; 18720; 1375; 25773; 15991; 983; 21194; 6186; 6742; 18465; 3457; 4660; 14811; 728; 81; 5931; 5284; 336; 218; 2555; 17540; 473];
    [8287; 77; 25609; 5558; 2022; 13745; 1904; 4241; 16520; 100; 3849; 7362; 1767; 1120; 4633; 3986; 26534; 9189; 610; 12611; 5813; 865; 11016; 2806; 5421]]].
(** The same with a first rand that gives an encounter whatever the rate of Rock Smash, but 0. *)
Definition rock_modes : list (nat * nat * nat) := [(1, 2, 3)%nat; (1, 3, 4)%nat; (1, 4, 5)%nat; (2, 1, 4)%nat; (2, 1, 5)%nat].
Definition rock_rolls : list N := [0; 59; 89; 94; 98].
Definition rock_seeds : list (list (list N)) :=
  [[[1013644; 358953; 164387; 435686; 577593; 412883; 554790; 540844; 527846; 223939; 495238; 144454; 187190; 468294; 610201; 709737; 55046; 32243; 313347; 9440; 2267573; 276598; 2534731; 1036447; 2502123];
    [381026; 522933; 54316; 196223; 192082; 173420; 155333; 89794; 132530; 682021; 659218; 655077; 386; 328367; 262828; 248882; 226079; 1008731; 714629; 700683; 37135; 136671; 14332; 113868; 281490];
    [174037; 169896; 147093; 289000; 911083; 266197; 2078516; 1148385; 229448; 206645; 466750; 448088; 443947; 425285; 411339; 388536; 384395; 14949; 797601; 256392; 603035; 233589; 851531; 210786; 187983];
    [1370667; 802514; 1062619; 1039816; 1325061; 1017013; 1288312; 1430219; 1265509; 41276; 1099368; 1380472; 1076565; 1621915; 1343723; 5232242; 779711; 1211579; 907672; 742962; 884869; 1156168; 862066; 839263; 825317];
    [186825; 164022; 305929; 405465; 2052709; 325980; 303177; 9075; 627017; 2253262; 754978; 2230459; 732175; 77484; 54681; 154217; 31878; 131414; 1493413; 108611; 85808; 517676; 213769; 209628; 190966]];
   [[1526386; 709737; 1017785; 279350; 144454; 317488; 196995; 50905; 223939; 187190; 495238; 2176894; 458489; 64851; 28102; 336150; 55046; 472435; 769289; 821948; 5299; 313347; 276598; 1563135; 3102884];
    [700683; 318239; 281490; 1145016; 1531278; 714629; 304293; 226079; 1167819; 1554081; 659218; 2198967; 622469; 930517; 113868; 500130; 463381; 1416315; 1713169; 136671; 169279; 477327; 440578; 86924; 3266864];
    [210786; 560299; 206645; 169896; 233589; 466750; 639784; 504888; 911083; 94434; 1016241; 443947; 365733; 470891; 715246; 1578772; 388536; 1148385; 311803; 729192; 692443; 756136; 1092974; 183842; 1047368];
    [531215; 775570; 839263; 417733; 1188776; 372127; 1235653; 399071; 45417; 8668; 316716; 279967; 666229; 1426078; 1774110; 1099368; 120879; 527074; 257164; 554018; 940280; 134825; 98076; 504271; 1347864];
    [759119; 649820; 1139759; 303177; 709372; 672623; 594409; 699567; 164022; 269180; 190966; 2257403; 462265; 2626849; 31878; 984812; 168163; 401324; 1631179; 54681; 1240776; 9075; 345913; 1258863; 695426]];
   [[50905; 554790; 55046; 826089; 2402587; 5956114; 11448117; 16477125; 28392743; 219798; 686934; 491097; 64851; 1218338; 32243; 1348636; 848892; 6092399; 10962319; 13243255; 20801695; 196995; 279350; 468294; 513900];
    [25753240; 1585208; 873717; 113868; 1145016; 136671; 1961665; 990069; 794232; 7558826; 19633532; 16185163; 24503452; 632274; 1904865; 54316; 155333; 907714; 196223; 386; 1012872; 4028102; 9353964; 14845967; 25286104];
    [30240267; 1648129; 1047368; 183842; 266197; 733333; 151234; 1264737; 5021154; 256392; 15802270; 16655668; 26709543; 557429; 94434; 828728; 503499; 169896; 756136; 14949; 5340811; 4498607; 9824469; 9368527; 22715824];
    [120879; 203234; 5695237; 4686892; 17792746; 15048815; 22662666; 775570; 312575; 994210; 234361; 157628; 376268; 180431; 1453022; 451730; 5480738; 13799027; 27360823; 1754059; 41276; 1721451; 45417; 98076; 316716];
    [6522421; 8885712; 11392341; 1876805; 627017; 405465; 1436613; 168163; 250518; 54681; 402713; 325980; 544620; 10846991; 18757696; 20960418; 30855205; 85808; 186825; 1199311; 108611; 31878; 462265; 1493413; 1575768]];
   [[830230; 724279; 332395; 765899; 2827100; 791228; 92932; 750858; 510145; 551765; 25119; 2443070; 1985605; 401962; 1810473; 1852093; 202869; 157263; 374015; 2130558; 1155165; 1637959; 1772721; 30355; 923372];
    [458510; 1021540; 1504334; 2460616; 219047; 485089; 379138; 204006; 632274; 767036; 4913; 2071350; 699223; 463746; 71862; 31492; 1826651; 2391435; 3265727; 1290200; 1658123; 209242; 1091107; 110864; 2312063];
    [210786; 35654; 11693; 1474730; 1902998; 1234017; 1275637; 1270401; 643040; 777802; 602670; 1554102; 104835; 669619; 881135; 428906; 253774; 295394; 290158; 184207; 1647244; 143837; 39640; 174402; 2011181];
    [48287; 1456798; 2681; 1276430; 1915631; 649069; 1266625; 3278536; 1242664; 1670932; 1197058; 434935; 177813; 606081; 1480759; 2437041; 461514; 829437; 220801; 262421; 222051; 216815; 721254; 247380; 675648];
    [126501; 554769; 1037563; 2440838; 404966; 18318; 364596; 340635; 2407072; 160267; 1705294; 2268324; 150462; 1558973; 186846; 931612; 2017806; 122515; 2054190; 1879058; 1421593; 1246461; 624336; 619100; 578730]];
   [[941031; 1010598; 791228; 159881; 30355; 830230; 332395; 1046982; 25119; 3071799; 1397246; 765899; 1289063; 616096; 337631; 1209691; 1532008; 1155165; 157263; 551765; 374015; 2241359; 1044364; 546529; 92932];
    [1305241; 31492; 807406; 524091; 204006; 1372190; 1440003; 1220633; 767036; 836603; 593272; 139675; 209242; 632274; 1480373; 4913; 1006499; 699223; 245626; 2270443; 71862; 219047; 1132727; 110864; 1612517];
    [470526; 816804; 3161706; 643040; 11693; 1902998; 39640; 1206070; 1275637; 256392; 424920; 104835; 174402; 1619297; 143837; 991936; 1061503; 1484535; 210786; 2078130; 881135; 2748479; 184207; 253774; 3765106];
    [1348615; 222051; 177813; 5977570; 48287; 216815; 1441757; 220801; 1735263; 461514; 783831; 606081; 476555; 2681; 2501372; 1670932; 1197058; 1242664; 889782; 391947; 262421; 84671; 856016; 1279048; 434935];
    [377019; 122515; 126501; 2017806; 1640963; 1167089; 1491160; 859813; 539728; 186846; 232452; 578730; 1426829; 1773107; 3074803; 823429; 967996; 2859301; 18318; 340635; 2231940; 581348; 1182130; 160267; 931612]]].
