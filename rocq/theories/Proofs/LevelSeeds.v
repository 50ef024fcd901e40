(** Seeds for every first roll of a slot and every number below 256; written by tools/gen_level_seeds.py. *)
From Coq Require Import NArith List.
Import ListNotations.
Open Scope N_scope.
Definition level_seeds : list (list N) :=
  [[1169987404; 1283545938; 1130235428; 2966209326; 351929755; 2115650835; 3306884928; 4148216622; 2917230553; 3030789087; 4138989825; 1035256622; 4099237849; 4212796383; 759160781; 2217263918; 986277849; 1827609543; 1941168077; 3049368815; 3890700509; 3009616839; 3123175373; 4231376111; 777740509; 4191624135; 1732630737; 1341000699; 3915528294; 2073306339; 2914638033; 1683651964; 802568294; 566224429; 4096645329; 2865659260; 1984575590; 3820549488; 2856432463; 4047666556; 594030954; 707589488; 1548921182; 584804157; 1776038250; 967207398; 2730928478; 1499942409; 2958045546; 2149214694; 3912935774; 2681949705; 2139987897; 3331221990; 3094878125; 3863957001; 410321399; 218261990; 4276885421; 401094602; 1592328695; 1050366887; 1163925421; 2005257115; 2774335991; 2232374183; 1996030318; 3187264411; 4028596105; 3719999422; 266363820; 74304411; 915636105; 1334812582; 1448371116; 2289702810; 2097643401; 2516819878; 2630378412; 3471710106; 2929748298; 3698827174; 2889996322; 358750106; 3844886550; 658119992; 4072003618; 1540757402; 731926550; 1840127288; 959043618; 2795017516; 1913933846; 3022134584; 2785790719; 3977024812; 2746038743; 3126466321; 1628611208; 864064812; 3928046039; 474410437; 2810618504; 3651950198; 815086039; 1656417733; 425431664; 2611307961; 3719508699; 2838425029; 3679756723; 3793315257; 2562329188; 1447880393; 566796723; 680355257; 3744336484; 290700882; 1748804019; 3584777917; 631376484; 1472708178; 3925453519; 471817917; 3535799144; 2654715474; 2418371609; 1653825213; 422839144; 1264170838; 3600378905; 413612347; 1604846440; 2446178134; 1215192065; 1328750599; 2436951337; 3628185430; 2397199361; 2510757895; 3352089589; 515225430; 3579206657; 125571055; 239129589; 1347330327; 466246657; 1307578351; 1421136885; 2262468579; 1720506771; 2489585647; 2675396999; 3444475875; 2902514067; 3743845761; 3857404295; 331515875; 4084521363; 630885761; 744444295; 1585775989; 1277179306; 1812893057; 1926451591; 2767783285; 3186959762; 3300518296; 4141849990; 3949790581; 73999762; 915331456; 1028889990; 486928182; 1256007058; 2097338752; 2210897286; 1668935478; 2510267172; 3279346048; 1392839637; 2850942774; 3692274468; 238638866; 352197400; 1343860864; 579314468; 1420646162; 1534204696; 303218627; 2556393339; 2602653458; 2716211992; 1485225923; 2326557617; 3784660754; 1209130082; 2667233219; 3508564913; 2277578844; 2391137378; 3499338116; 395604913; 1236936607; 3573144674; 119509072; 1227709810; 2418943903; 1187957834; 1301516368; 3793010608; 3600951199; 2369965130; 2483523664; 680050608; 3355380537; 3551972426; 1092979028; 1862057904; 242420537; 1083752231; 2274986324; 3116318018; 1424427833; 1998890483; 3456993620; 3358018; 3067339245; 3180897779; 4289098517; 1185365314; 4249346541; 67937779; 909269473; 2017470211; 1136386541; 1977718235; 2091276769; 3199477507; 3313036041; 3159725531; 3273284065; 86517507; 3572653951; 46765531; 1882739429; 3563427154; 459693951; 1301025645; 3064746725; 1833760656; 1641701247; 2483032941; 4246754021; 3437923169; 3857099646];
   [1731112700; 2572444394; 2686002928; 2144041120; 2985372814; 3754451690; 3940263042; 2976146017; 4167380110; 713744508; 827303042; 1246479519; 1054420110; 1895751804; 2009310338; 2428486815; 1886525007; 3077759100; 3191317634; 3610494111; 156858509; 3182090837; 3028780327; 3142338861; 1338865805; 1675008927; 910462531; 1751794225; 2520873101; 2857016223; 1742567428; 2933801521; 3775133215; 4039023519; 2657705680; 4115808817; 662173215; 3726154442; 1617063443; 2608726907; 1844180511; 613194442; 2799070739; 1568084670; 2676285408; 1795201738; 3981078035; 2750091966; 3591423660; 3971851238; 3818540728; 3932099262; 478463660; 3542444887; 705580728; 2541554626; 1660470956; 429484887; 460010066; 1384375115; 2492575853; 1611492183; 2452823877; 2566382411; 3674583149; 220947547; 3634831173; 3748389707; 561623149; 1402954843; 521871173; 2357845071; 4038532796; 2584962139; 3426293833; 3539852367; 2308866298; 1766904490; 313333833; 426892367; 3490873594; 37237992; 1495341129; 1258997264; 377913594; 1219245288; 677283480; 2174135516; 3282336254; 2401252584; 4237226482; 3356142812; 169376254; 1010707948; 1124266482; 243182812; 1351383550; 2192715244; 2306273778; 1075287709; 533325901; 3374722540; 2565891688; 2257295005; 3098626699; 2906567290; 3747898984; 2516912915; 4280633995; 826998393; 634938984; 3698920211; 1167673995; 2009005689; 1467043881; 585960211; 2421934109; 3191012985; 2649051177; 2762609711; 3603941405; 78052985; 3831058473; 3594714608; 490981405; 3554962632; 2323976563; 214885564; 3545735835; 442002632; 1283334326; 1396892860; 2238224554; 1274107529; 2465341622; 3306673316; 3420231850; 3839408327; 3647348918; 193713316; 307271850; 1148603544; 3401778256; 1375720612; 1489279146; 2330610840; 2749787317; 2863345851; 3704677545; 3512618136; 3931794613; 3122963761; 591717545; 49755737; 818834613; 10003761; 1773724841; 1231763033; 2073094727; 1192011057; 955667192; 2413770329; 3255102023; 4096433717; 4209992251; 3245875226; 142142023; 983473717; 1097032251; 4161013478; 3619051670; 2165481013; 2279039547; 1048053478; 1889385172; 3347488309; 3111144444; 2230060774; 3071392468; 2529430660; 4293151740; 839516138; 4253399764; 1794406366; 3824996490; 2021523434; 2862855128; 2976413662; 1745427593; 3203530730; 4044862424; 4158420958; 2927434889; 313155318; 931902424; 3995883651; 4109442185; 655806583; 2336494308; 882923651; 646579786; 1837813879; 606827810; 987255388; 1561718038; 2097431789; 2210990323; 2630166800; 2743725334; 3279439085; 3392997619; 3812174096; 3925732630; 166479085; 280037619; 699214096; 1540545790; 1348486381; 1112142516; 4176123743; 2722553086; 2836111620; 2294149812; 3135481506; 3904560382; 4090371734; 3126254709; 22521506; 863853200; 977411734; 1396588211; 1204528802; 2045860496; 2159419030; 2578595507; 3419927201; 3227867792; 2991523927; 3760602803; 306967201; 420525735; 4173531223; 719895621; 1488974497; 680143645; 1060571223; 1901902917; 2670981793; 1862150941; 1892676120; 3083910213; 3925241907; 3044158237; 585164839; 3916015110; 812281907];
   [1942335597; 1061251927; 1902583621; 2016142155; 3124342893; 3965674587; 3084590917; 625597519; 2306285244; 852714587; 1694046281; 1807604815; 576618746; 2034721883; 2876053577; 2989612111; 1758626042; 1216664234; 4058060873; 3821717008; 2940633338; 3781965032; 3240003224; 441887964; 1550088702; 669005032; 127043224; 1623895260; 2732095998; 1851012328; 3686986226; 2805902556; 3914103294; 460467692; 574026226; 3638007453; 3445948044; 1642474988; 1756033522; 525047453; 1366379147; 2824482284; 2015651432; 1707054749; 2548386443; 2006424635; 3197658728; 1966672659; 3730393739; 276758137; 84698728; 3148679955; 617433739; 1458765433; 916803625; 35719955; 1871693853; 2640772729; 2098810921; 1862467056; 3053701149; 1822715080; 4158923147; 2777605308; 4235708445; 3004722376; 3846054070; 3959612604; 2995495579; 4186729672; 733094070; 846652604; 1687984298; 723867273; 1915101366; 2756433060; 2869991594; 3711323288; 2019433103; 3938440356; 4051998890; 598363288; 1017539765; 825480356; 589136491; 1780370584; 2199547061; 2313105595; 3154437289; 2612475481; 3381554357; 2572723505; 41477289; 3794482777; 340847175; 3754730801; 1223484585; 681522777; 1522854471; 641770801; 2477744699; 1513627674; 2704861767; 3546193461; 3659751995; 2428765926; 3886869063; 433233461; 546791995; 3610773222; 3068811414; 1615240757; 1378896892; 497813222; 1339144916; 797183108; 2560904188; 3402235882; 2521152212; 1979190404; 3742911484; 289275882; 3703159508; 1244166110; 2924853835; 1471283178; 2312614872; 2426173406; 1195187337; 1003127928; 3494622168; 3608180702; 2377194633; 3218526327; 381662168; 3445643395; 3559201929; 105566327; 3169547554; 332683395; 96339530; 1287573623; 478742771; 2731917483; 1011477782; 1547191533; 1660750067; 2079926544; 2193485078; 2729198829; 2842757363; 3261933840; 4103265534; 3911206125; 3674862260; 148973840; 990305534; 1103864068; 561902260; 1403233954; 2172312830; 1935968965; 1743909556; 2585241250; 1354255181; 3540131478; 3959307955; 3767248546; 313612944; 427171478; 846347955; 3871580283; 1495620240; 1609178774; 2028355251; 2869686945; 2677627536; 2441283671; 3210362547; 4051694241; 4165252775; 3623290967; 169655365; 938734241; 129903389; 160428568; 1351662661; 2192994355; 1311910685; 1075566820; 2533669957; 3375001651; 2493917981; 34924583; 3365774854; 262041651; 3326022878; 1216931879; 4280913106; 366373388; 213062878; 2398939175; 1167953106; 2009284800; 2389712378; 3231044072; 2349960402; 3191292096; 1960306027; 118084072; 959415766; 78332096; 3142313323; 1300091368; 4097203551; 2982754756; 29353323; 870685017; 984243551; 4164762052; 2933775983; 2052692313; 2166250847; 3007582541; 4115783279; 3234699609; 775706211; 4189589837; 1002823279; 1116381813; 1957713507; 1076629837; 2184830575; 1948486710; 3139720803; 1908734734; 1366772926; 3130494006; 3971825700; 3090742030; 3932073724; 2662338756; 591996656; 50034848; 819113724; 1660445418; 1774003952; 1232042144; 2001121020; 2842452714; 2956011248; 2414049440; 3255381134; 4024460010; 3788116145; 3596056736];
   [75414597; 916746291; 35662621; 4094286052; 1257421893; 2098753587; 1217669917; 3053643815; 2089526790; 3280760883; 2049774814; 4235651111; 3004665042; 3385092620; 3231782110; 1122691111; 4186672338; 733036736; 1113464314; 1954796008; 1073712338; 1915044032; 684057963; 3136803304; 3978134998; 3097051328; 1866065259; 1896590438; 2820955487; 1706506692; 3048072555; 3889404249; 4002962783; 549327181; 1657527919; 776444249; 890002783; 1731334477; 2839535215; 1958451545; 3794425443; 2913341773; 4021542511; 4135101045; 681465443; 4095349069; 3203484862; 672238646; 1863472739; 632486670; 1473818364; 1854245942; 2695577636; 1814493966; 2655825660; 1386090692; 3610715888; 3068754080; 3837832956; 384197354; 497755888; 4250761376; 724872956; 1566204650; 1679763184; 1137801376; 1979133070; 2748211946; 2934023298; 1969906273; 3161140366; 4002472060; 4116030594; 240239775; 48180366; 889512060; 1003070594; 1422247071; 880285263; 2071519356; 2185077890; 2604254367; 3445586061; 2175851093; 2022540583; 2136099117; 332626061; 668769183; 4199190083; 745554481; 1514633357; 1850776479; 736327684; 1927561777; 2768893471; 3032783775; 1651465936; 3109569073; 3950900767; 2719914698; 610823699; 1602487163; 837940767; 3901921994; 1792830995; 561844926; 1670045664; 788961994; 2974838291; 1743852222; 2585183916; 2965611494; 2812300984; 2925859518; 3767191212; 2536205143; 3994308280; 1535314882; 654231212; 3718212439; 3748737618; 378135371; 1486336109; 605252439; 1446584133; 1560142667; 2668343405; 3509675099; 2628591429; 2742149963; 3850350701; 396715099; 3810598725; 1351605327; 3032293052; 1578722395; 2420054089; 2533612623; 1302626554; 760664746; 3602061385; 3715619919; 2484633850; 3325965544; 489101385; 252757520; 3666641146; 213005544; 3966011032; 1167895772; 2276096510; 1395012840; 3230986738; 2349903068; 3458103806; 4468204; 118026738; 3531910364; 345143806; 1186475500; 1300034034; 69047965; 3822053453; 2368482796; 1559651944; 1251055261; 2092386955; 1900327546; 2741659240; 1510673171; 3274394251; 4115725945; 3923666536; 2692680467; 161434251; 1002765945; 460804137; 3874687763; 1415694365; 2184773241; 1642811433; 1756369967; 2597701661; 3366780537; 2824818729; 2588474864; 3779708957; 2548722888; 1317736819; 3503613116; 2539496091; 3730730184; 277094582; 390653116; 1231984810; 267867785; 1459101878; 2300433572; 2413992106; 2833168583; 2641109174; 3482440868; 3595999402; 142363800; 2395538512; 369480868; 483039402; 1324371096; 1743547573; 1857106107; 2698437801; 2506378392; 2925554869; 2116724017; 3880445097; 3338483289; 4107562165; 3298731313; 767485097; 225523289; 1066854983; 185771313; 4244394744; 1407530585; 2248862279; 3090193973; 3203752507; 2239635482; 3430869575; 4272201269; 90792507; 3154773734; 2612811926; 1159241269; 1272799803; 41813734; 883145428; 2341248565; 2104904700; 1223821030; 2065152724; 1523190916; 3286911996; 4128243690; 3247160020; 788166622; 2818756746; 1015283690; 1856615384; 1970173918; 739187849; 2197290986; 3038622680; 3152181214; 1921195145; 3601882870];
   [2503460893; 1272474824; 41488755; 2227365052; 1263248027; 2454482120; 3295813814; 3409372348; 4250704042; 3286587017; 182853814; 1024185508; 1137744042; 1556920519; 1364861110; 2206192804; 2319751338; 3161083032; 1119290448; 3388200100; 3501758634; 48123032; 467299509; 580858043; 1422189737; 1230130328; 1649306805; 840475953; 2604197033; 2062235225; 2831314101; 2022483249; 3786204329; 3244242521; 4085574215; 3204490545; 2968146680; 131282521; 972614215; 1813945909; 1927504443; 963387418; 2154621511; 2995953205; 3109511739; 1878525670; 1336563862; 4177960501; 4291519035; 3060532966; 3901864660; 3359902852; 828656636; 4242540262; 788904660; 246942852; 2010663932; 2851995626; 1970911956; 3806885854; 1542508682; 4034002922; 580367320; 693925854; 3757907081; 921042922; 1762374616; 1875933150; 644947081; 2325634806; 2944381912; 1713395843; 1826954377; 2668286071; 54006500; 2895403139; 2659059274; 3850293367; 2619307298; 1349572330; 3574197526; 4109911277; 4223469811; 347678992; 461237526; 996951277; 1110509811; 1529686288; 1643244822; 2178958573; 2292517107; 2711693584; 3553025278; 3666583812; 3124622004; 1893635935; 440065278; 553623812; 11662004; 852993698; 1622072574; 1807883926; 843766901; 2035000994; 2876332688; 2989891222; 3409067699; 3217008290; 4058339984; 4171898518; 296107699; 1137439393; 945379984; 709036119; 1478114995; 2319446689; 2433005223; 1891043415; 2732375109; 3501453985; 2692623133; 3073050711; 3914382405; 3033298735; 3874630429; 3905155608; 801422405; 1642754099; 761670429; 2597644327; 1633527302; 2824761395; 1593775326; 3779651623; 2548665554; 4006768691; 2775782622; 666691623; 3730672850; 2499686781; 3957789918; 1498796520; 617712850; 1459044544; 1839472122; 2680803816; 3522135510; 2641051840; 1410065771; 3862811112; 409175510; 3823059136; 2592073067; 3433404761; 3546963295; 2432514500; 3774080363; 320444761; 434003295; 1275334989; 2383535727; 1502452057; 1616010591; 2457342285; 3565543023; 3679101557; 225465955; 3639349581; 452583023; 216239158; 1407473251; 176487182; 3929492670; 1398246454; 2589480547; 1358494478; 2199826172; 2580253750; 3421585444; 2540501774; 3381833468; 4223165162; 41756400; 3794761888; 268873468; 1110205162; 1223763696; 681801888; 1523133582; 2292212458; 2405770992; 1863809184; 2705140878; 3474219754; 3660031106; 2695914081; 3887148174; 433512572; 547071106; 966247583; 774188174; 1615519868; 1729078402; 2148254879; 2989586573; 2797527164; 1566541095; 3330262175; 4171593869; 2551956502; 2748548391; 289554993; 1058633869; 1394776991; 630230595; 1471562289; 590478619; 2576784287; 3418115981; 2653569585; 3494901279; 191597447; 154824211; 3485674482; 381941279; 3445922506; 1336831507; 105845438; 1563948575; 332962506; 2518838803; 1287852734; 56866665; 1514969802; 2356301496; 2469860030; 3311191724; 1269399140; 3538308792; 1079315394; 198231724; 3262212951; 1419990996; 4217103179; 1380239020; 149252951; 990584645; 1104143179; 2212343917; 1331260247; 2172591941; 2286150475; 3394351213; 4235682907; 3354599237; 895605839];
   [4242482928; 3700521120; 246885518; 1015964394; 1129522928; 587561120; 1428892814; 2197971690; 2383783042; 1419666017; 2610900110; 3452231804; 3565790338; 3984966815; 3443005007; 339271804; 452830338; 872006815; 1713338509; 1521279100; 290293031; 2054014111; 2895345805; 1275708438; 1472300327; 3308274225; 4077353101; 118528927; 3648949827; 195314225; 1036645919; 1300536223; 2141867917; 1377321521; 2218653215; 987667146; 3173543443; 2209426418; 3400660511; 2169674442; 60583443; 3124564670; 287700511; 3351681738; 1242590739; 11604670; 3075585897; 238721738; 1080053432; 1193611966; 2034943660; 4288118372; 2262060728; 4098034626; 3216950956; 1985964887; 143742932; 2940855115; 103990956; 3167972183; 4009303877; 4122862411; 936095853; 55012183; 896343877; 1009902411; 2118103149; 2959434843; 2078351173; 3914325071; 1300045500; 4141442139; 687806537; 801365071; 3865346298; 1028482139; 1869813833; 1983372367; 752386298; 210424490; 3051821129; 2815477264; 1934393594; 2775725288; 2233763480; 3730615516; 543848958; 3957732584; 3415770776; 617655516; 1725856254; 844772584; 2680746482; 1799662812; 2907863550; 3749195244; 3862753778; 2981670108; 2439708300; 636235244; 749793778; 3813775005; 360139403; 1818242540; 1009411688; 700815005; 1542146699; 1000184891; 2191418984; 960432915; 2724153995; 3565485689; 3373426280; 2142440211; 3906161291; 452525689; 4205531177; 3324447507; 865454109; 1634532985; 1092571177; 856227312; 2047461405; 816475336; 3152683403; 3994015097; 3229468701; 1998482632; 2839814326; 2953372860; 1989255835; 3180489928; 4021821622; 4135380156; 681744554; 4012594825; 908861622; 1750193316; 1863751850; 2705083544; 1013193359; 2932200612; 3045759146; 3887090840; 11300021; 4114207908; 3877864043; 774130840; 1193307317; 1306865851; 2148197545; 1956138136; 2375314613; 1566483761; 3330204841; 2788243033; 3629574727; 2748491057; 217244841; 3970250329; 516614727; 3930498353; 1471504955; 507387930; 1698622023; 2539953717; 2653512251; 1422526182; 2880629319; 3721961013; 3835519547; 2604533478; 2062571670; 609001013; 372657148; 3786540774; 332905172; 4085910660; 1554664444; 2395996138; 1514912468; 972950660; 2736671740; 3578003434; 2696919764; 237926366; 1918614091; 465043434; 1306375128; 1419933662; 188947593; 4291855480; 2488382424; 2601940958; 1370954889; 2212286583; 3670389720; 2439403651; 2552962185; 3394293879; 2163307810; 3621410947; 3385067082; 281333879; 3767470323; 1725677739; 5238038; 540951789; 654510323; 1073686800; 1187245334; 1722959085; 1836517619; 2255694096; 3097025790; 2904966381; 2668622516; 3437701392; 4279033086; 97624324; 3850629812; 396994210; 1166073086; 1279631620; 737669812; 1579001506; 348015437; 2533891734; 2953068211; 2761008802; 3602340496; 3715899030; 4135075507; 2865340539; 489380496; 602939030; 1022115507; 1863447201; 1671387792; 1435043927; 2204122803; 3045454497; 3159013031; 2617051223; 3458382917; 4227461793; 3418630941; 3449156120; 345422917; 1186754611; 305670941; 336196120; 1527430213; 2368761907; 1487678237; 3323652135];
   [642366027; 3483762666; 30127064; 143685598; 3207666825; 3015607416; 1212134360; 1325692894; 94706825; 936038519; 2394141656; 1163155587; 1276714121; 2118045815; 887059746; 2345162883; 2108819018; 3300053111; 2491222259; 449429675; 3023957270; 3559671021; 3673229555; 4092406032; 4205964566; 446711021; 560269555; 979446032; 1820777726; 1628718317; 1392374452; 2161453328; 3002785022; 3116343556; 2574381748; 3415713442; 4184792318; 3948448453; 3756389044; 302753442; 3366734669; 1257643670; 1676820147; 1484760738; 2326092432; 2439650966; 2858827443; 1239190076; 3508099728; 3621658262; 4040834739; 587199137; 395139728; 158795863; 3572679489; 1769206433; 1882764967; 1340803159; 2182134853; 2951213729; 2142382877; 2172908056; 3364142149; 4205473843; 3324390173; 3088046308; 251182149; 1092513843; 211430173; 2047404071; 1083287046; 2274521139; 1043535070; 3229411367; 1998425298; 2378852876; 2225542366; 116451367; 3180432594; 4021764288; 107224570; 948556264; 67472594; 908804288; 3972785515; 2130563560; 2971895254; 2090811584; 859825515; 3312570856; 1814715743; 700266948; 2041832811; 2883164505; 2996723039; 3838054733; 651288175; 4065171801; 4178730335; 725094733; 1833295471; 952211801; 2788185699; 1907102029; 3015302767; 3128861301; 3970192995; 3089109325; 2197245118; 3960966198; 857232995; 3921214222; 3379252414; 848006198; 1689337892; 808254222; 1649585916; 379850948; 2604476144; 2062514336; 2831593212; 3672924906; 3786483440; 3244521632; 4013600508; 559964906; 673523440; 131561632; 972893326; 1741972202; 1505628337; 1313568928; 2154900622; 2996232316; 3109790850; 3528967327; 3336907918; 4178239612; 4291798146; 416007327; 4169012815; 1065279612; 1178838146; 1598014623; 2439346317; 1169611349; 1016300839; 1129859373; 3621353613; 3957496735; 3192950339; 4034282033; 508393613; 844536735; 4025055236; 921322033; 1762653727; 2026544031; 645226192; 2103329329; 2944661023; 1713674954; 3899551251; 596247419; 4126668319; 2895682250; 786591251; 3850572478; 663805920; 4077689546; 1968598547; 737612478; 1578944172; 1959371750; 1806061240; 1919619774; 2760951468; 1529965399; 2988068536; 529075138; 3942958764; 2711972695; 2742497874; 3666862923; 480096365; 3893979991; 440344389; 553902923; 1662103661; 2503435355; 1622351685; 1735910219; 2844110957; 3685442651; 2804358981; 345365583; 2026053308; 572482651; 1413814345; 1527372879; 296386810; 4049392298; 2595821641; 2709380175; 1478394106; 2319725800; 3777828937; 3541485072; 2660401402; 3501733096; 2959771288; 161656028; 1269856766; 388773096; 4141778584; 1343663324; 2451864062; 3293195756; 3406754290; 2525670620; 3633871358; 180235756; 293794290; 3357775517; 2815813709; 1362243052; 553412200; 244815517; 1086147211; 894087802; 1735419496; 504433427; 2268154507; 3109486201; 2917426792; 1686440723; 3450161803; 4291493497; 3749531689; 2868448019; 409454621; 1178533497; 636571689; 750130223; 1591461917; 2360540793; 1818578985; 1582235120; 2773469213; 1542483144; 311497075; 2497373372; 1533256347; 2724490440; 3565822134; 3679380668];
   [1114341257; 1533517734; 1647076268; 2488407962; 2296348553; 2715525030; 1906694178; 3670415258; 3128453450; 2247369780; 3088701474; 557455258; 4043591702; 856825144; 4270708770; 1811715372; 930631702; 2038832440; 2152390974; 2993722668; 2112638998; 3220839736; 645309064; 4175729964; 2944743895; 1713757826; 1827316360; 712867565; 4126751191; 673115589; 3009323656; 1628005817; 2736206555; 1855122885; 2696454579; 2810013113; 1579027044; 3037130181; 3878461875; 3992020409; 2761034340; 1646585545; 765501875; 2601475773; 3943041636; 489406034; 2942151375; 3783483069; 2552497000; 1671413330; 1701938509; 670523069; 3734504296; 2853420626; 2617076761; 3725277499; 621544296; 1462875990; 3799084057; 345448455; 1453649193; 2644883286; 1413897217; 1527455751; 2368787445; 3826890582; 2595904513; 3437236207; 3550794741; 364028183; 3777911809; 324276207; 437834741; 1279166435; 737204627; 1506283503; 1619842037; 2461173731; 1919211923; 3682933003; 2874102151; 3643181027; 3101219219; 3942550913; 4056109447; 602473845; 293877162; 829590913; 943149447; 1784481141; 2203657618; 2011598209; 1775254344; 2966488437; 3385664914; 4226996608; 45587846; 3798593334; 272704914; 1114036608; 1227595142; 685633334; 1526965028; 2296043904; 2409602438; 1867640630; 2708972324; 3478051200; 3663862552; 3844719501; 3890979620; 437344018; 550902552; 3614883779; 3995311357; 1619351314; 1732909848; 501923779; 1343255473; 2801358610; 2565014745; 1683931075; 2525262769; 483470185; 1407835234; 2516035972; 3707270065; 253634463; 2589842530; 3431174224; 594310065; 1435641759; 204655690; 318214224; 2809708464; 2617649055; 1386662986; 1500221520; 3991715760; 2372078393; 2568670282; 109676884; 878755760; 3554085689; 450352486; 1291684180; 410600510; 441125689; 1282457383; 2473691476; 3315023170; 3918035336; 2197595635; 3305796373; 202063170; 3266044397; 3379602931; 4220934625; 1384070466; 153084397; 994416091; 1107974625; 2216175363; 1335091693; 2176423387; 2289981921; 3398182659; 2589351807; 3358430683; 899437285; 2930027409; 3771359103; 317723501; 2081444581; 850458512; 658399103; 1499730797; 3263451877; 2454621025; 412828441; 2681738093; 2795296627; 3636628321; 4055804798; 3863745389; 715727730; 523668321; 942844798; 1056403332; 1897735026; 3578422751; 2124852094; 1316021242; 3079742322; 465462751; 1306794445; 2498028538; 4261749618; 569794488; 3872095243; 3680035834; 3443691969; 3862868446; 759135243; 217173435; 330731969; 1172063663; 1941142539; 1399180731; 1162836866; 2354070959; 3195402653; 2886805970; 3728137664; 3536078255; 82442653; 3146423880; 615177664; 73215856; 1264449949; 33463880; 1797184960; 2638516654; 2096554846; 1215471176; 2056802870; 3820523950; 3011693098; 4119893836; 3238810166; 4080141860; 4193700394; 1006933836; 125850166; 967181860; 1080740394; 2188941132; 2302499666; 2149189156; 3985163054; 1370883483; 3134604563; 30871360; 872203054; 3936184281; 4049742815; 862976257; 2054210350; 823224281; 936782815; 1778114509; 3236217646; 2005231577; 2846563271; 2960121805; 4068322543];
   [3459063621; 3572622155; 385855597; 1227187291; 346103621; 459662155; 1567862893; 2409194587; 1528110917; 3364084815; 749805244; 3591201883; 137566281; 251124815; 3315106042; 2773144234; 1319573577; 1433132111; 202146042; 1043477736; 2501580873; 2265237008; 1384153338; 2225485032; 1683523224; 3180375260; 4288575998; 3407492328; 948498930; 67415260; 1175615998; 2016947692; 2130506226; 1249422556; 2357623294; 3198954988; 3312513522; 2081527453; 1539565645; 85994988; 3572131432; 3263534749; 4104866443; 3912807034; 459171432; 3523152659; 991906443; 1833238137; 1641178728; 410192659; 2173913739; 3015245433; 2473283625; 1592199955; 3428173853; 4197252729; 3655290921; 3768849455; 315213853; 3729097479; 542330921; 305987056; 1497221149; 266235080; 3330216307; 1221125308; 257008283; 1448242376; 2289574070; 2403132604; 3244464298; 2280347273; 3471581366; 17945764; 131504298; 550680775; 358621366; 1199953060; 1313511594; 2154843288; 113050704; 2381960356; 2495518890; 3336850584; 3756027061; 3869585595; 415949993; 223890584; 643067061; 4129203505; 1597957289; 1055995481; 1825074357; 1016243505; 2779964585; 2238002777; 3079334471; 2198250801; 1961906936; 3420010073; 4261341767; 807706165; 921264699; 4252114970; 1148381767; 1989713461; 2103271995; 872285926; 330324118; 3171720757; 3285279291; 2054293222; 2895624916; 2353663108; 4117384188; 3236300518; 4077632212; 3535670404; 1004424188; 1845755882; 964672212; 2800646110; 536268938; 3027763178; 3869094872; 3982653406; 2751667337; 4209770474; 756134872; 869693406; 3933674633; 1319395062; 1938142168; 707156099; 820714633; 1662046327; 3342734052; 1889163395; 1652819530; 2844053623; 1613067554; 1993495132; 2567957782; 3103671533; 3217230067; 3636406544; 3749965078; 4285678829; 104270067; 523446544; 637005078; 1172718829; 1286277363; 1705453840; 2546785534; 2660344068; 2118382260; 887396191; 3728792830; 3842351364; 3300389556; 4141721250; 615832830; 801644182; 4132494453; 1028761250; 1870092944; 1983651478; 2402827955; 2210768546; 3052100240; 3165658774; 3584835251; 131199649; 4234107536; 3997763671; 471875251; 1313206945; 1426765479; 884803671; 1726135365; 2495214241; 1686383389; 2066810967; 2908142661; 2027058991; 2868390685; 2898915864; 4090149957; 636514355; 4050397981; 1591404583; 627287558; 1818521651; 587535582; 2773411879; 1542425810; 3000528947; 1769542878; 3955419175; 2724433106; 1493447037; 2951550174; 842459175; 3906440402; 452804800; 833232378; 1674564072; 2515895766; 1634812096; 403826027; 2856571368; 3697903062; 2816819392; 1585833323; 2427165017; 2540723551; 1426274756; 2767840619; 3609172313; 3722730847; 269095245; 1377295983; 496212313; 609770847; 1451102541; 2559303279; 2672861813; 3514193507; 2633109837; 3741310575; 3504966710; 401233507; 3465214734; 2923252926; 392006710; 1583240803; 352254734; 1193586428; 1574014006; 2415345700; 1534262030; 2375593724; 755956357; 3330483952; 2788522144; 3557601020; 103965418; 217523952; 3970529440; 516893838; 1285972714; 1399531248; 857569440; 1698901134; 2467980010];
   [1809191652; 355620995; 119277130; 1310511223; 501680371; 3104757482; 1034415382; 1570129133; 1683687667; 2102864144; 2216422678; 2752136429; 2865694963; 3284871440; 3398429974; 3934143725; 4047702259; 171911440; 1013243134; 1126801668; 584839860; 1426171554; 2195250430; 2308808964; 1766847156; 2608178850; 3377257726; 3563069078; 2598952053; 3790186146; 336550544; 450109078; 869285555; 677226146; 1518557840; 1632116374; 2051292851; 2892624545; 2700565136; 2464221271; 3233300147; 4074631841; 4188190375; 3646228567; 192592965; 961671841; 152840989; 533268567; 1374600261; 493516591; 1334848285; 1365373464; 2556607557; 3397939251; 2516855581; 57862183; 3388712454; 284979251; 3348960478; 1239869479; 8883410; 1466986547; 236000478; 2421876775; 1190890706; 4254871933; 1418007774; 3253981672; 2372898002; 3214229696; 1172437112; 141021672; 982353366; 101269696; 3165250923; 1323028968; 4120141151; 1283276992; 52290923; 893622617; 1007181151; 4187699652; 1234298219; 2075629913; 2189188447; 3030520141; 4138720879; 3257637209; 798643811; 4212527437; 1025760879; 1139319413; 1980651107; 1099567437; 2207768175; 1971424310; 3162658403; 1931672334; 1389710526; 3153431606; 49698403; 3113679630; 3955011324; 40471606; 881803300; 719630; 842051324; 1683383018; 1796941552; 1254979744; 2024058620; 2865390314; 2978948848; 2436987040; 3278318734; 4047397610; 4160956144; 3618994336; 165358734; 3229339961; 1120248962; 156131937; 1347366030; 2188697724; 2302256258; 2721432735; 2179470927; 3370705020; 3484263554; 3903440031; 449804429; 257745020; 3321726247; 790480031; 1631811725; 12174358; 208766247; 2044740145; 2813819021; 3149962143; 2385415747; 3226747441; 4068079135; 37002143; 878333837; 113787441; 955119135; 4019100362; 1910009363; 945892338; 2137126431; 906140362; 3092016659; 1861030590; 3319133727; 2088147658; 4274023955; 3043037886; 1812051817; 3270154954; 4111486648; 4225045182; 771409580; 3024584292; 998526648; 2834500546; 1953416876; 722430807; 3175176148; 1677321035; 3135424172; 1904438103; 2745769797; 2859328331; 3967529069; 3086445399; 3927777093; 4041335627; 854569069; 1695900763; 814817093; 2650790991; 36511420; 2877908059; 3719239753; 3832798287; 2601812218; 4059915355; 606279753; 719838287; 3783819514; 3241857706; 1788287049; 1551943184; 670859514; 1512191208; 970229400; 2467081436; 3575282174; 2694198504; 2152236696; 3649088732; 462322174; 3876205800; 1417212402; 536128732; 1644329470; 2485661164; 2599219698; 1368233629; 1176174220; 3667668460; 3781226994; 2550240925; 3391572619; 554708460; 4040844904; 3732248221; 278612619; 4031618107; 927884904; 3991866131; 1460619915; 2301951609; 2109892200; 878906131; 2642627211; 3483958905; 2941997097; 2060913427; 3896887325; 370998905; 4124004393; 3887660528; 783927325; 3847908552; 1889149323; 507831484; 1965934621; 734948552; 1576280246; 1689838780; 458852711; 1916955848; 2758287542; 2871846076; 3713177770; 2749060745; 3940294838; 486659236; 600217770; 1441549464; 4044626575; 1668666532; 1782225066; 2623556760];
   [3542387553; 3961564030; 4075122564; 621486962; 2302174687; 848604030; 39773178; 1803494258; 3484181983; 30546381; 1221780474; 985436609; 3588513720; 2595847179; 2403787770; 2167443905; 2586620382; 3777854475; 3235892667; 3349451201; 4190782895; 664894475; 122932667; 4181556098; 1077822895; 1919154589; 1610557906; 2451889600; 2259830191; 3101161885; 1870175816; 3633896896; 3091935088; 4283169181; 3052183112; 520936896; 1362268590; 820306782; 4234190408; 780554806; 2544275886; 1735445034; 2843645772; 1962562102; 2803893796; 2917452330; 4025653068; 3144569398; 3985901092; 4099459626; 912693068; 1026251602; 872941092; 2708914990; 94635419; 1858356499; 3049590592; 3890922286; 2659936217; 2773494751; 3881695489; 777962286; 3841943513; 3955502047; 501866445; 1610067183; 728983513; 1570315207; 1683873741; 2792074479; 3633406173; 2752322503; 2865881037; 3974081775; 520446173; 3934329799; 1475336401; 1083706363; 3658233958; 1816012003; 2657343697; 1426357628; 545273958; 308930093; 3839350993; 2608364924; 1727281254; 3563255152; 2599138127; 3790372220; 336736618; 450295152; 1291626846; 327509821; 1518743914; 709913062; 2473634142; 1242648073; 2700751210; 1891920358; 3655641438; 2424655369; 1882693561; 3073927654; 2837583789; 3606662665; 153027063; 3906032551; 4019591085; 143800266; 1335034359; 793072551; 906631085; 1747962779; 2517041655; 1975079847; 1738735982; 2929970075; 3771301769; 3462705086; 9069484; 4111977371; 658341769; 1077518246; 1191076780; 2032408474; 1840349065; 2259525542; 2373084076; 3214415770; 2672453962; 3441532838; 2632701986; 101455770; 3587592214; 400825656; 3814709282; 3928267816; 474632214; 1582832952; 701749282; 2537723180; 1656639510; 2764840248; 2528496383; 3719730476; 2488744407; 446951823; 1371316872; 606770476; 3670751703; 217116101; 2553324168; 3394655862; 557791703; 1399123397; 168137328; 2354013625; 3462214363; 2581130693; 3422462387; 3536020921; 2305034852; 1190586057; 309502387; 423060921; 3487042148; 33406546; 1491509683; 3327483581; 374082148; 1215413842; 3668159183; 214523581; 3278504808; 2397421138; 2161077273; 1396530877; 165544808; 1006876502; 3343084569; 156318011; 1347552104; 2188883798; 957897729; 1071456263; 2179657001; 3370891094; 2139905025; 2253463559; 3094795253; 4202995991; 3321912321; 4163244015; 4276802549; 823166947; 1203594525; 1050284015; 1163842549; 2005174243; 1463212435; 2232291311; 2418102663; 3187181539; 2645219731; 3486551425; 3600109959; 74221539; 3827227027; 373591425; 487149959; 1328481653; 1019884970; 1555598721; 1669157255; 2510488949; 2929665426; 3043223960; 3884555654; 3692496245; 4111672722; 658037120; 771595654; 229633846; 998712722; 1840044416; 1953602950; 1411641142; 2252972836; 3022051712; 1135545301; 2593648438; 3434980132; 4276311826; 94903064; 1086566528; 322020132; 1163351826; 1276910360; 45924291; 2299099003; 2345359122; 2458917656; 1227931587; 2069263281; 2449690859; 951835746; 2409938883; 3251270577; 4092602271; 2133843042; 3242043780; 138310577; 979642271; 3315850338; 4157182032];
   [2970191143; 511197745; 1280276621; 1616419743; 501970948; 1693205041; 2534536735; 2798427039; 1417109200; 2875212337; 3716544031; 2485557962; 376466963; 1368130427; 603584031; 3667565258; 1558474259; 327488190; 1435688928; 554605258; 2740481555; 1509495486; 2350827180; 2731254758; 2577944248; 2691502782; 3532834476; 2301848407; 3759951544; 1300958146; 419874476; 3483855703; 1641633748; 143778635; 1251979373; 370895703; 1212227397; 1325785931; 2433986669; 3275318363; 2394234693; 2507793227; 3615993965; 162358363; 3576241989; 1117248591; 2797936316; 1344365659; 2185697353; 2299255887; 1068269818; 2526372955; 3367704649; 3481263183; 2250277114; 1708315306; 254744649; 18400784; 3432284410; 4273616104; 3731654296; 933539036; 2041739774; 1160656104; 618694296; 2115546332; 3223747070; 2342663400; 4178637298; 3297553628; 110787070; 952118764; 1065677298; 4129658525; 3937599116; 2134126060; 1325295208; 1016698525; 1858030219; 3316133356; 2507302504; 1276316435; 3040037515; 2498075707; 3689309800; 2458323731; 4222044811; 768409209; 226447401; 3640331027; 3753889561; 1950416505; 1408454697; 527371027; 2363344925; 3132423801; 2590461993; 2354118128; 3545352221; 2314366152; 355606923; 3269256380; 432392221; 3496373448; 42737846; 156296380; 3220277607; 383413448; 1224745142; 1338303676; 2179635370; 2598811847; 2406752438; 3248084132; 3361642666; 4202974360; 2511084175; 135124132; 248682666; 1090014360; 1509190837; 1317131428; 1080787563; 2272021656; 2691198133; 2804756667; 3646088361; 3104126553; 3873205429; 3064374577; 533128361; 4286133849; 832498247; 4246381873; 1715135657; 1173173849; 2014505543; 1133421873; 2969395771; 2005278746; 3196512839; 4037844533; 4151403067; 2920416998; 2378455190; 924884533; 1038443067; 4102424294; 648788692; 2106891829; 1870547964; 989464294; 1830795988; 1288834180; 3052555260; 3893886954; 3012803284; 2470841476; 4234562556; 780926954; 1622258648; 1735817182; 3416504907; 1962934250; 2804265944; 2917824478; 1686838409; 3367526134; 3986273240; 4099831774; 2868845705; 3710177399; 1095897828; 3937294467; 4050853001; 597217399; 3661198626; 824334467; 587990602; 1779224695; 970393843; 3223568555; 1503128854; 2038842605; 2152401139; 2571577616; 2685136150; 3220849901; 3334408435; 3753584912; 299949310; 107889901; 4166513332; 640624912; 1481956606; 1595515140; 1053553332; 1894885026; 2663963902; 2427620037; 2235560628; 3076892322; 3918224016; 4031782550; 155991731; 4258899618; 805264016; 918822550; 1337999027; 4013328956; 1987271312; 2100829846; 2520006323; 3361338017; 3474896551; 2932934743; 2051851073; 248378017; 361936551; 4114942039; 661306437; 1430385313; 621554461; 652079640; 1843313733; 2684645427; 1803561757; 1567217892; 3025321029; 3866652723; 2985569053; 526575655; 3857425926; 753692723; 3817673950; 1708582951; 477596882; 2730771594; 704713950; 2890590247; 1659604178; 2500935872; 2881363450; 3722695144; 2841611474; 3682943168; 2451957099; 609735144; 1451066838; 569983168; 3633964395; 3664489574; 293887327; 3474405828; 521004395; 1362336089];
   [2281166882; 2394725416; 3236057110; 49290552; 162849086; 1004180780; 123097110; 1231297848; 994953983; 2186188076; 955202007; 3208376719; 4132741768; 3368195372; 2137209303; 2978540997; 1019781768; 1861113462; 3319216599; 4160548293; 2929562224; 820471225; 1928671963; 1047588293; 1888919987; 2002478521; 771492452; 3952010953; 3070927283; 3184485817; 1953499748; 2794831442; 4252934579; 1793941181; 3135507044; 3976838738; 4007363917; 2975948477; 1744962408; 863878738; 627534873; 4157955773; 2926969704; 3768301398; 1809542169; 2650873863; 4108977000; 655341398; 3719322625; 3832881159; 646114601; 1837348694; 606362625; 719921159; 1561252853; 2669453591; 1788369921; 2629701615; 2743260149; 3584591843; 3965019421; 3811708911; 3925267445; 471631843; 4224637331; 698748911; 884560263; 1653639139; 1111677331; 1953009025; 2066567559; 2485744036; 2293684627; 3135016321; 3248574855; 4089906549; 214115730; 22056321; 4080679752; 976946549; 1396123026; 1509681560; 2351013254; 2158953845; 2578130322; 3419462016; 3533020550; 2991058742; 2109975072; 306502016; 420060550; 4173066038; 719430436; 1488509312; 1674320664; 4277397775; 1901437732; 2742769426; 2856327960; 1625341891; 3083445028; 3924776722; 4038335256; 2807349187; 1576363118; 811816722; 575472857; 3989356483; 535720881; 916148459; 3713260642; 876396483; 1717728177; 2559059871; 600300642; 1708501380; 2899735473; 3741067167; 2510081098; 2623639632; 3731840370; 628107167; 3692088394; 3805646928; 2002173872; 732438904; 579128394; 692686928; 3184181168; 1564543801; 2755777894; 3597109588; 71221168; 2746551097; 3587882791; 484149588; 1325481282; 2278395847; 208053747; 1666156884; 2507488578; 1276502509; 1390061043; 2498261781; 3689495874; 2458509805; 2572068339; 3413400033; 226633475; 3640517101; 186881499; 300440033; 1408640771; 599809919; 1368888795; 1482447329; 2590648067; 1781817215; 2550896091; 91902693; 1772590418; 2963824511; 3805156205; 1273909989; 42923920; 4145831807; 692196205; 2455917285; 1647086433; 2066262910; 1874203501; 1637859636; 2829093729; 3248270206; 3361828740; 4203160434; 4011101025; 135310206; 3621446650; 1090200434; 2770888159; 3962122252; 508486650; 2272207730; 3952895455; 1882553355; 1690493946; 1454150081; 1873326558; 3064560651; 2522598843; 2636157377; 3477489071; 4246567947; 3704606139; 3818164673; 364529071; 783705548; 591646139; 355302274; 1546536367; 2387868061; 2079271378; 2920603072; 2378641264; 3569875357; 2338889288; 4102610368; 648974766; 456915357; 3520896584; 67260982; 1830982062; 1289020254; 407936584; 1249268278; 3012989358; 2204158506; 3312359244; 2431275574; 3272607268; 3386165802; 199399244; 312957778; 159647268; 273205802; 1381406540; 1145062675; 1341654564; 3177628462; 563348891; 2060200927; 3168401665; 64668462; 3128649689; 3242208223; 55441665; 1246675758; 15689689; 857021383; 970579917; 2078780655; 1197696985; 2039028679; 2152587213; 3260787951; 4102119645; 3221035975; 3334594509; 147827951; 2944940134; 1102718179; 1944049873; 2935713337; 4126947430; 4157472609]].
(** Seeds whose first rand is the roll (mod 100) and whose third is even. *)
Definition even_seeds : list N := [85; 331; 390; 11; 239; 70; 57; 19; 285; 278; 216; 240; 178].
