(** Seeds for every first roll of a slot, nature, end of the low byte of the PID and lowest bit; written by
    tools/gen_kind_seeds.py. *)
From Coq Require Import NArith List.
Import ListNotations.
Open Scope N_scope.
Definition kind_seeds : list (list (list (list N))) :=
  [[[[2431814331; 751033552; 1132810308; 1761918254]; [1977989705; 3569233600; 3462340020; 3865589701]; [1894604997; 3843054577; 1228868060; 472528923]; [1445305086; 3294796543; 2172950689; 3365061132]; [2890875642; 925438058; 63270657; 1381912550]; [155915755; 2296636659; 4237095891; 640781253]; [2669360868; 3203370420; 4153711183; 1547515014]; [3139977884; 2918713615; 1447444830; 3576814506]; [324168085; 2436195455; 1146912082; 1441946367]; [3034409237; 3371622750; 3762054840; 1715767344]; [3969836532; 439863707; 1604345932; 839351461]; [1017374303; 2538707911; 262100482; 1183082725]; [980025435; 1941819062; 955047083; 1653699741]; [4109395328; 2896581699; 3354121507; 1024591795]; [2813853821; 2020165816; 1540446391; 3931632103]; [721161793; 2458932427; 1337086573; 2130774578]; [2708285174; 1914597169; 1972346695; 4221628434]; [404548625; 113739644; 569911608; 2752851534]; [264134268; 2479227127; 2425255830; 748999766]; [298979978; 1655733527; 3578850453; 735816600]; [408220896; 2989583260; 672424064; 3446057752]; [3168671418; 1497242597; 1443271300; 3719878729]; [3413798861; 688496577; 1030297852; 3653836327]; [510733352; 1275727823; 153881969; 947569974]; [3308230214; 4101918219; 2667327082; 2018946841]];
    [[1030663905; 265669434; 3669775795; 2065714309]; [3791114427; 2651926267; 2135259021; 2764366967]; [1540300161; 3271247399; 189093732; 2351393519]; [1827001776; 2804605182; 3660567428; 1474977636]; [3930673223; 3165678752; 2820478008; 3823779643]; [1224406870; 1269785880; 1351701108; 2342185152]; [2131140631; 1806744709; 1625518968; 1123665466]; [3821904794; 1048271106; 1833968763; 2549963727]; [3484325706; 3739176916; 1758925588; 2030399227]; [3219309888; 2894913966; 2665659349; 4186992957]; [1442312420; 2876903557; 2926662735; 2844747507]; [3060818958; 2152615717; 2868610681; 4178597240]; [1266479184; 3088043012; 4205821294; 688363532]; [3682895914; 2618039915; 1299394905; 600742247]; [384933530; 1033313771; 1547883228; 3919733598]; [202276898; 1432081648; 2936424135; 429499890]; [2696386669; 1902698664; 1040531263; 2778301897]; [3241441804; 3889822045; 919389201; 2233966639]; [1459919621; 3519024708; 1756275722; 1353026041]; [1277262989; 3534598123; 583503738; 259107816]; [1301428691; 1949808932; 2982578162; 1194535111]; [4208468999; 2210812318; 1397852018; 3351128841]; [179332332; 3472467473; 1671672995; 1816612067]; [121280278; 3059494025; 2032746565; 1334093907]; [316244379; 3155917352; 1270701371; 1595097293]];
    [[3209456193; 2328515595; 2568553061; 2892948983]; [4028937361; 4118839820; 4219177060; 1128769106]; [95043635; 2222946948; 2116053368; 1866095565]; [3923368714; 1004427262; 2267513308; 2488777577]; [99018434; 2984372945; 3421209567; 1346228537]; [2469399324; 2509743497; 2255612164; 143584794]; [2131820236; 3297933039; 2218263296; 2657029907]; [238577230; 3320730897; 404588180; 3885164285]; [2584729371; 853782133; 2358124620; 2765248420]; [2118087154; 1324399149; 462231748; 137835826]; [2479160724; 3444315231; 3538679358; 124652660]; [2740164110; 3533852115; 356663101; 2523727084]; [4116189954; 2903376325; 3433110711; 3704647397]; [723129176; 2079882725; 2556694828; 1212821917]; [832370094; 3413732458; 2481300468; 2114728435]; [1537477456; 1233787837; 1004533220; 305880562]; [1811298433; 139869612; 1454447050; 3751757665]; [2995052953; 3154868816; 1157212135; 471137587]; [3732379412; 3872793769; 2171559353; 251803307]; [372839411; 2996377886; 1195583408; 1323180174]; [3905761513; 3993382798; 1095144532; 1202038112]; [2009868641; 2116762221; 1037092478; 1119007706]; [3373076894; 4084547143; 2827416703; 861979119]; [3315024840; 691486365; 931523831; 943174470]; [336564971; 2795157812; 4007971441; 1413791486]];
    [[3590257050; 1096147279; 1178062507; 80987411]; [637794821; 3556736273; 1793987287; 2442367528]; [488725130; 2010058738; 2700721048; 1813259582]; [2163814242; 1509829580; 4071919649; 3838140317]; [119252726; 3486013336; 3679649387; 1477374119]; [2054884715; 2703264956; 1714211803; 1294717487]; [934968850; 807372084; 1662614453; 3446483974]; [287505056; 415101822; 2710482448; 153285786]; [3953364406; 3833653235; 3599873903; 788545908]; [3129870806; 3778251047; 2488967674; 231632540]; [1126019038; 1019125458; 2959584690; 3658237348]; [3891296803; 2847143990; 471932740; 147536818]; [2871007164; 2434170542; 2439717662; 1082964113]; [463537023; 1820290572; 2421707253; 1907033043]; [2201005129; 3919134776; 2949353918; 3578461864]; [671315598; 530901241; 2808939561; 462421845]; [1401611067; 3025011012; 2017535847; 1369155606]; [3997481530; 3660271134; 578117467; 1822430316]; [3074364821; 272037599; 1911967200; 1263586959]; [616425693; 179589071; 1745854614; 1663939386]; [960156957; 2336182801; 3434625741; 4247649088]; [3161001334; 440289929; 3021652293; 1924640244]; [1017800525; 1384372558; 3986438108; 1832191716]; [1196888683; 281798999; 363714227; 2738925477]; [2654829755; 1278803911; 932935064; 3753272695]];
    [[1518821719; 853099172; 1063778118; 870441478]; [3917896143; 1588366431; 3276993011; 1920239462]; [789341061; 3131031534; 2441128895; 2934586680]; [1900861209; 2694549214; 245005803; 1038693808]; [2174682186; 1380994181; 2739115574; 3803971573]; [735263806; 3316626170; 1882035033; 1800119805]; [722080640; 848309562; 4281109457; 4009572771]; [2975847300; 1299591236; 1319991894; 4130974450]; [1536428920; 3702026540; 2264074523; 3057762528]; [2007045936; 2113939516; 2734691539; 1580995280]; [247039589; 2387760493; 2981186826; 2051612296]; [4088182259; 3294494254; 3644075166; 910993245]; [3231101718; 391428745; 828265367; 3030540635]; [3082032027; 636556188; 3809677630; 308398339]; [458792963; 3397006710; 1996002514; 1671606592]; [3351325172; 2586330701; 1695469766; 1258633144]; [2095822193; 3530413330; 353224316; 1109563453]; [627045293; 2032942896; 2509754999; 3965112369]; [505903231; 1640672634; 3445245341; 2746592683]; [2251704007; 2111289650; 3324103279; 2675723038]; [1785061790; 310432125; 1428210407; 1794782440]; [908645907; 2005721003; 3547757797; 1364817871]; [1580889322; 204863478; 3065239637; 3763892295]; [355258102; 732510143; 1366142804; 3642750233]; [2375902260; 304683157; 720046854; 4263502256]];
    [[3788038339; 2431347837; 2132182933; 4264913489]; [1649664773; 292911224; 236290061; 884670302]; [1035064926; 4039018547; 2946531213; 4176335963]; [581240300; 3162602664; 808094600; 3065429734]; [3312997288; 34047582; 3189826718; 2450829887]; [3423606050; 2629918045; 4151251653; 3143776488]; [1082175194; 433794953; 2653781219; 1247883616]; [3481249618; 2782596960; 1825394212; 1126741554]; [1585356746; 2798170375; 2827163320; 3525815978]; [4103326574; 3704904136; 466460169; 1921754492]; [674241861; 1508781044; 2865534593; 2993131359]; [261268413; 1042138827; 2900380303; 1338494928]; [3679819826; 3145810274; 207596527; 3009923749]; [4023551090; 1249917402; 925521480; 1232926281]; [199200810; 2475808239; 2933348047; 3960158554]; [473021787; 1599392356; 1037455175; 2413481019]; [468493955; 3998466780; 916313113; 1614965771]; [1403921250; 1132447611; 3262528301; 396446085]; [2421629348; 3892898133; 2603614760; 3251995001]; [636746285; 2674378447; 3937464493; 1356102129]; [322376658; 1234960067; 1933612725; 2262835890]; [715093039; 1821172025; 1920429559; 1813535979]; [4211545087; 4104651507; 3570641955; 32013796]; [2993025401; 1616999557; 3421572264; 2627884259]; [1426721269; 4016073981; 4028075805; 1990443643]];
    [[1424771622; 1560358736; 783868490; 562604221]; [2799331103; 2562190891; 425185169; 741692379]; [259174219; 2296806381; 3509620010; 2840536583]; [1021968060; 4104121727; 1313496918; 2378721609]; [1073459452; 279771447; 3712571342; 2191237734]; [3230053182; 2793216560; 324337807; 33528826]; [1887807732; 1732885276; 2114662032; 3828266964]; [2794541493; 1911670906; 218769160; 585341193]; [3973468770; 1035255023; 2248068652; 3266223825]; [2077575898; 4210306454; 352175780; 479772546]; [492849754; 1488164158; 3827756842; 4127276048]; [3714605128; 48745778; 1113601777; 2687857668]; [1673404492; 2302512438; 2237837880; 2566715606]; [1319202975; 767995664; 2046848578; 3502142901]; [762289607; 2924589394; 150955706; 3747270344]; [691419962; 2492280604; 594247032; 3697103885]; [965240939; 1730235410; 2848013692; 3097971495]; [824826582; 1842981755; 3463938472; 3027101850]; [432556320; 1080936561; 1682416289; 852050636]; [1429561232; 4023741187; 3916847607; 3382838055]; [4057521581; 2019889419; 2496701522; 1683741222]; [1899812673; 490199888; 1163874194; 4102087941]; [105472899; 1178319246; 4019360063; 1836420137]; [1066897834; 2085053007; 3701485009; 4235494561]; [4241949265; 4114352499; 538741047; 645634627]];
    [[1017181328; 1782175799; 3608264342; 3579271397]; [1923915089; 4181250223; 3173775058; 897167629]; [2013820665; 3304834340; 2297359175; 921333331]; [3310687105; 3339680050; 401466303; 3902745594]; [1986452064; 2742791201; 1106573665; 1279207119]; [1215751536; 1885710660; 295897656; 2806995431]; [1559482800; 84853135; 1202631417; 2723965025]; [662363731; 4287434950; 847710023; 4095163626]; [3061438155; 899201415; 1336038037; 4274251784]; [3791733624; 1534398490; 2370368564; 3445864777]; [1750532988; 3205827311; 2314966376; 3690992220]; [2193824314; 3438137163; 1922696114; 2456705666]; [297931442; 1673957286; 1782281757; 4276391528]; [3242666057; 3345386107; 990878043; 4093734896]; [3167622882; 3951889648; 3751328565; 813114818]; [2849684781; 2076699962; 2513536584; 1156846082]; [509684816; 3447898563; 270709549; 1792043157]; [96711368; 1552005691; 544530526; 1195154308]; [2787617178; 2915213944; 3963081939; 1468975285]; [891724306; 2267750150; 2959780304; 545855459]; [87503001; 1147834285; 3409694134; 4166033271]; [50154133; 2162181503; 1961620420; 2726614891]; [3862603269; 1605268135; 2206747863; 3000435868]; [2328086495; 165849755; 2085605801; 1415709724]; [3329918650; 2544220993; 189712929; 3013411440]];
    [[105150713; 3751737768; 669584101; 3525133017]; [3758192472; 3630595706; 2003433834; 3835934170]; [3558547836; 3665441416; 3675162066; 1940041298]; [2053758274; 2789025533; 2555246201; 2884123927]; [3005160031; 613974319; 1444339972; 650651967]; [1885244166; 2905089847; 3843414396; 2322080788]; [3722272334; 1802516288; 795041123; 784058587]; [2018650786; 4056282948; 1382272369; 1719485882]; [3072973485; 2160390076; 3781346793; 862405341]; [3203730239; 3997418244; 3660204731; 1613917235]; [1055938551; 1754591209; 300664730; 3140337703]; [3455012975; 516799228; 545792173; 726311222]; [2217220994; 3391620439; 1658743212; 1687736157]; [3588419595; 2794731590; 1932564189; 1138876184]; [4194923136; 2402461328; 2839297950; 245117995]; [4210496551; 136793524; 856149368; 3416808546]; [2663464714; 2535867948; 2917644704; 880012542]; [2193461617; 3240975310; 1457523138; 758870480]; [3806325145; 1586338879; 900609770; 1337446392]; [2271808371; 800539586; 2474865661; 3628561920]; [1789290211; 3310623819; 2945482677; 2508646055]; [2405214991; 674267753; 3551986218; 50706927]; [3311948752; 2642052675; 1656093346; 3225758358]; [3585769729; 2590455325; 536177481; 2328639289]; [2001043585; 1352663344; 345188179; 1800482502]];
    [[138201879; 2250229249; 960945876; 3472043651]; [429010860; 1373813366; 3651851686; 3397000476]; [2416134241; 2802041616; 1775231109; 399205265]; [2681964870; 1115762374; 4203664053; 3380617528]; [4053163471; 456848833; 1669662462; 1021282221]; [1039186672; 1832874677; 693686517; 3933149772]; [1263512410; 2734781195; 3702464264; 273379551]; [2971618879; 3427727796; 489514049; 617110815]; [2077860690; 76843129; 3292140682; 3016185239]; [687874502; 3134018444; 878114201; 750517435]; [3714889920; 2031444885; 1348731217; 2196087991]; [1671696248; 2152846564; 4093305796; 3328311325]; [1850481878; 823317069; 4128151506; 2636179535]; [246420392; 1293934085; 2885532282; 2186879624]; [1267524842; 4021520660; 4261558126; 3467870121]; [1788414275; 3018219025; 873324591; 3001227904]; [4282524046; 3488836041; 2972168795; 279085608]; [2241323410; 565067346; 2505526578; 2181130656]; [1147405185; 382410714; 178344204; 2721661076]; [3546479609; 2202096576; 3319874858; 1191971545]; [597732562; 1099523017; 76949087; 533058004]; [888541543; 3469903907; 2717279952; 4279165327]; [3701914348; 763637554; 4051129685; 27699075]; [3811092219; 186084047; 2155236813; 483807992]; [948877888; 863457233; 3497741880; 4217097724]];
    [[3705523572; 3036440145; 1465962483; 2814662637]; [3273277829; 4238063644; 136432988; 2265802664]; [271608499; 2387141296; 2183074786; 1389386781]; [615339763; 939735685; 3817454150; 3788461205]; [2549540861; 3248193519; 166039852; 3026416011]; [2252368993; 2855923257; 1454919061; 1130523139]; [523913640; 590255453; 1708033735; 3873631355]; [1467996269; 1549911497; 3187191232; 460521104]; [1502841979; 28212314; 1602465088; 4096574859]; [3532141471; 2738453466; 383945402; 1905279010]; [1968931163; 842560594; 2783019826; 3107415748]; [2242752140; 80515400; 4174921613; 1877610998]; [346859268; 2384491430; 2916426446; 3044023212]; [1710067521; 3958747321; 3621533808; 1820676283]; [3730711679; 462554890; 2994773200; 1638019651]; [1060768672; 723558276; 1822001216; 2225250897]; [2539926169; 3332246330; 3925672663; 1771426271]; [2785053612; 1518571214; 4269403927; 208215963]; [3255670628; 4049358633; 3820104016; 1665857624]; [1359777756; 825768204; 4093924993; 1499745038]; [3841069936; 3943789986; 2509198849; 376468293]; [2996806986; 3303860602; 2076890059; 2775542717]; [2198291738; 2110670453; 492163915; 4138750970]; [979772052; 758507783; 2698967015; 1864427832]; [3793144857; 3107309790; 695115247; 2713475114]];
    [[3943963064; 1240239663; 3024109184; 2325456526]; [4287694328; 4180800748; 3930842945; 429563654]; [1007074250; 3830772761; 366171118; 1483886353]; [450160882; 1190989651; 3089272772; 3455844805]; [4016013095; 255055351; 2664806666; 157882421]; [583567502; 2124236452; 3222679392; 402341761]; [3363353366; 889949898; 2830409130; 2435814783]; [2125561385; 107201518; 2573380543; 3407919726]; [248940808; 1042628813; 1733291123; 1142251922]; [3104489724; 902214456; 1283991212; 2077679217]; [382347428; 135750505; 3778164030; 2421410481]; [1087454790; 60644283; 2193374839; 3619673100]; [1780401391; 4272226871; 297481967; 3798761258]; [3957146230; 3802223774; 2396326171; 3753079720]; [3303059932; 3274066987; 257952605; 3739896554]; [17915139; 2599277503; 2657027029; 3967013588]; [558379395; 595425735; 1052965543; 259277538]; [737165025; 1949978654; 3306732203; 2677624257]; [3218457205; 2118084276; 3330897905; 1238205877]; [1289697269; 2152929986; 2017342872; 2811030877]; [2398359957; 236123217; 3409244659; 1390884792]; [921592709; 793995943; 2996271211; 4209084840]; [3212708237; 401725681; 110916700; 3649544859]; [3129677831; 144697094; 3577496989; 2172777611]; [1170694951; 2543771518; 3116494665; 296157034]];
    [[39497139; 4268422033; 1541189760; 747501755]; [3399996498; 2467564508; 1744141092; 3313806104]; [496930989; 1989571063; 3136042879; 4162853386]; [83957541; 520794163; 3381170322; 3299255094]; [1459983385; 320795225; 4099095275; 3725204114]; [1389113740; 3718643452; 3518082369; 599140917]; [4120061195; 610791556; 1326786520; 1765553131]; [2680642815; 2877073279; 860144303; 732547537]; [1658919168; 1996132681; 1203875567; 340277275]; [1600867114; 3010479899; 2402138186; 2813680743]; [1242183793; 1890564034; 999703099; 234708628]; [1495298467; 1824521632; 385103252; 1141442389]; [1230282649; 696273097; 2405747410; 1539864827]; [2675853205; 134532486; 4160203520; 3099872236]; [1236434825; 495606056; 1852359605; 446462002]; [3543060721; 1689343960; 3610530897; 2253777348]; [2404171972; 3365297496; 1010789432; 1377361465]; [109145648; 236742414; 1593495963; 4100420208]; [3313555599; 1348262562; 1493057087; 2204527336]; [3871428325; 2083385274; 751925790; 2863953160]; [3688771693; 2012515629; 2127951634; 174674811]; [3222129476; 1089398920; 740024646; 875611760]; [1026006384; 3193070367; 2510356699; 809569358]; [1932740145; 3153544122; 634455999; 342927141]; [463963245; 3087501720; 3690911437; 2446598588]]];
   [[[1222834941; 2731222145; 2599190584; 3851243151]; [2642652160; 2246950198; 3242295931; 4205655481]; [1674821115; 1556855288; 2696983349; 4040136111]; [3703594354; 264571735; 3840674597; 1923195877]; [783004747; 2024540091; 1863714075; 521889487]; [2286304407; 2161313413; 1841651059; 956911927]; [1358067030; 742758361; 4023830957; 974157651]; [2953082934; 1022102460; 1008381785; 772436193]; [1562658619; 1390016544; 3053394171; 1415923268]; [4102126116; 2046217717; 4177565075; 3422573360]; [1918336054; 2233845572; 151721321; 3237878705]; [259144994; 1115089671; 3756593707; 1011533906]; [2285315430; 3627852867; 2788762662; 2346062337]; [798988304; 2567865919; 932309901; 1726282173]; [494374799; 2044282294; 2105029201; 3330865916]; [3497058542; 3378810725; 79189162; 4284321368]; [4238623310; 4223574461; 842805208; 2051615120]; [3108689406; 3548528400; 3073236836; 39558825]; [4275044319; 1750562602; 4245956136; 3390011459]; [2774677859; 1432853271; 2304214587; 4240868592]; [1925758349; 242172460; 727709512; 2955944265]; [983737228; 4070176602; 880181463; 547423283]; [3215497030; 129339646; 190086553; 1901803179]; [3013775572; 2928411977; 358257133; 2398466903]; [1595220520; 1617271798; 1491664755; 3035147732]];
    [[524392190; 2369664010; 420836425; 4126710904]; [1161073019; 2051954679; 3625178557; 3506930740]; [2421133868; 4045508945; 457257434; 371893839]; [2291987100; 3727799614; 1834237926; 2735340143]; [305740729; 748441054; 588009228; 290691880]; [3980927861; 3453269869; 3281926630; 2692833813]; [3295647305; 4284606658; 770822729; 593424231]; [1013754619; 3966897327; 137946739; 294890185]; [2758306336; 308610860; 2937019070; 2168931529]; [3517781284; 3444972997; 3414225519; 2798916850]; [1453245616; 2338649204; 1349689851; 3286343856]; [1252852332; 3851801631; 2138905700; 2994850377]; [479714640; 1335659317; 1074544057; 3261480378]; [3432144499; 1586872679; 2444450251; 2562698068]; [2256512537; 486026958; 178969043; 887808379]; [813022138; 3483614357; 329057112; 418892202]; [1527105949; 2516065302; 3303328128; 2314368775]; [1589742810; 3152746131; 2537437462; 3064888995]; [1361805500; 2626953893; 2407753114; 1422552407]; [3486766478; 2144941890; 2800861073; 2767902044]; [734410520; 2297413841; 3437541902; 3452590751]; [1371091349; 2130566297; 506191220; 1040004202]; [1276168715; 285294477; 3861397339; 3489011760]; [354674515; 190371843; 2685765377; 2803731204]; [1214487100; 1610189062; 3026799891; 4265732432]];
    [[303133150; 2518578998; 3656792174; 924828199]; [4133998623; 827990680; 4049900133; 1450950834]; [1852105937; 62100014; 1858492317; 1133241503]; [3242182255; 1396628445; 4233119562; 3733798766]; [4031398104; 2766249711; 933791727; 2689573516]; [2291596934; 609339219; 4288997846; 4124695174]; [941812471; 2608371557; 3395634383; 2878466476]; [2727884479; 1164881158; 2028883248; 2112575810]; [3916302408; 936943848; 997690755; 2917490288]; [2205960149; 3788420745; 699832889; 4288724656]; [3748571487; 662414103; 663679208; 3116236015]; [939877048; 946229697; 4141679446; 363880057]; [4155400121; 422646072; 483392979; 85197476]; [1479720358; 2364459490; 1404959048; 4088265365]; [2616987088; 1359260990; 1406506143; 3488348404]; [84481689; 716817161; 1944802358; 3862281078]; [2046146572; 2968917615; 3539818262; 882321869]; [1760326624; 1123645795; 682578365; 3226517357]; [3302937962; 2742933328; 4250632614; 1867125448]; [4115099466; 4175846373; 3865151209; 1224681619]; [2201145795; 627258199; 1294061657; 1493805161]; [3713634504; 790614425; 2622384491; 50314762]; [678728057; 588892967; 3305465234; 1819138108]; [2418808279; 2333444684; 4178716504; 1255696425]; [4064618585; 3092919632; 4083793870; 3447113041]];
    [[3870719126; 3931466033; 10799201; 3226322274]; [3614099561; 1866930365; 2023873811; 2840840869]; [1755043997; 3263431201; 1934038721; 88484911]; [3297655335; 4259070662; 24850273; 3435078437]; [917621887; 7282952; 2744983527; 3452324161]; [2966787109; 2524086784; 1301493128; 3754049935]; [3508608373; 1904306620; 1236593385; 3079003874]; [231676875; 3092724549; 2373860115; 1310126259]; [902581838; 417044786; 1850276490; 963328745]; [4133803540; 2058040738; 3620762069; 1775490249]; [364958879; 1090209693; 971961876; 4086531987]; [1313278380; 3856679792; 27729204; 3954782416]; [2647806811; 3236899628; 2544251046; 1202426458]; [1792144124; 2165794808; 1778360380; 111801294]; [457946090; 2835434666; 604056592; 1598074151]; [3859549923; 1628171849; 1256436050; 2112380727]; [1026583855; 3005152341; 1649544009; 1573210673]; [4029267598; 3911019781; 237747534; 239012639]; [1276911640; 3794968839; 274168543; 2616783205]; [3640898462; 571767881; 426640494; 1545678385]; [940947070; 422450989; 1888641722; 2503950391]; [1950370275; 3679272494; 2836423643; 478110352]; [879265455; 491831027; 3969831265; 88476111]; [1515946284; 2034442365; 2892301927; 3397702182]; [1834980851; 933878634; 139945969; 1481770557]];
    [[2866855038; 3764432206; 2899457270; 2631955630]; [1780163789; 4173238794; 1517070575; 3716817794]; [751179909; 3483143884; 1858105089; 58531327]; [459686430; 1054858706; 1540395758; 2411757074]; [2427024844; 331804767; 495825449; 4156308791]; [3969636182; 117369211; 2612762745; 1519940706]; [4054999777; 2347800839; 665543124; 547295307]; [4288607680; 3224873824; 1571410564; 306262171]; [1344161172; 2598128624; 984514622; 3825770962]; [1240542338; 1255591187; 799819967; 3440289557]; [2428960267; 3004957258; 3509669595; 4008990391]; [3374136447; 1574562685; 3877583679; 1720673187]; [488765813; 3927788432; 3559874348; 255781290]; [2366332206; 3929335527; 2869779438; 3471304363]; [2518804157; 172664446; 3748767308; 2256360723]; [3155484986; 1309931176; 2132412975; 3673981067]; [257018526; 845829353; 3710402076; 3148188829]; [3932205658; 943685187; 3620566986; 2657207436]; [1179849700; 411762159; 1919461445; 1034722313]; [1731523731; 1249229738; 627177892; 508930075]; [2868790461; 123730660; 4232050278; 4217001429]; [3615169583; 1565389036; 4238129737; 678647750]; [2925074673; 2627757325; 961198239; 3782934235]; [512082196; 2443062670; 2372402865; 601917286]; [1328177615; 3854267296; 3363559093; 445353368]];
    [[28604143; 3855061190; 2392654034; 14883468]; [3353528843; 1359261728; 949163635; 3897834848]; [2665927474; 2431028066; 3212211433; 3378722718]; [1345231194; 863553250; 3450046979; 3538553895]; [267701856; 282750705; 696362847; 2896110066]; [3524523361; 3434688271; 2447057092; 220430303]; [2401295965; 2315932370; 866080522; 747832705]; [3694241036; 1036744643; 421435974; 1592596441]; [506799569; 416964479; 182065071; 3135207779]; [3301400405; 3391235495; 2727663358; 2436425469]; [2640393678; 492769035; 958785743; 383070742]; [3579145340; 3206759761; 2487895327; 2411561991]; [2959365176; 3528115141; 1802614771; 1684648944]; [3527402292; 1091084632; 1112519861; 3455134523]; [184282484; 140562380; 1264991812; 3996955787]; [3356022384; 1011210847; 3506604381; 1916721490]; [1847413321; 2552494011; 3411681747; 1316461670]; [3425402422; 1330182345; 3545628193; 1758843336]; [3834209010; 154550383; 1149896116; 4236053500]; [2903478092; 3759422769; 2390436621; 3060421538]; [2348891399; 1568014953; 1111530884; 4064673592]; [1479444968; 2094137588; 2862225129; 2639093373]; [1167815096; 393648096; 885264607; 1003512424]; [4287150430; 82018224; 2531074913; 4273429755]; [2587989112; 845634270; 2090646270; 3728117173]];
    [[12434303; 2461847789; 3304181053; 3084807943]; [3113577467; 2949274795; 867150544; 3452722027]; [3502926780; 63904161; 181869988; 4255315692]; [3504473875; 1304444666; 3786742374; 1781294318]; [4042770090; 2243196328; 1831499071; 3323905656]; [4073111640; 1408661949; 1106248257; 532854069]; [4212487765; 303001874; 2044999919; 2130363514]; [1327117131; 3507344006; 1558234431; 2808342775]; [2421547134; 754988048; 609860661; 3208809960]; [1779103305; 1359066645; 292151330; 1633975918]; [4243502571; 4158138976; 4249888951; 943881008]; [1110786483; 4063216342; 4049495667; 271696278]; [475589680; 3960949144; 1295811535; 3447907673]; [1886794306; 792364303; 2037376303; 1947541213]; [187632988; 102269393; 3192835203; 1347281393]; [1126384650; 1984650140; 2207093978; 1983962222]; [506604486; 2906216209; 1180715839; 3526855550]; [2125892019; 2040528424; 91418849; 326318257]; [629997054; 3261893644; 3210754183; 3300589273]; [2091998282; 2002163192; 4201910411; 2505610424]; [1198634819; 1034332147; 1095079054; 3262224041]; [2628082946; 3026278449; 683381797; 2924994366]; [2800012172; 2931355815; 2992102722; 4217939437]; [1520824445; 4172178310; 1050361173; 3376980540]; [830729535; 919236451; 1334176767; 4269752154]];
    [[3490309865; 210824695; 1677015428; 3476589190]; [737953907; 331344194; 176648968; 266484058]; [2011378634; 1873955532; 3485875039; 1036461553]; [1693669303; 467832588; 2385029318; 968418489]; [2545142485; 3644043983; 1440796646; 1072882562]; [373191944; 2318876208; 2129956848; 2231019072]; [4181393752; 3959872160; 1510176684; 1525225533]; [2549340790; 2859026439; 2698594613; 424379812]; [1783450124; 1213877651; 3070033746; 1561646542]; [2439651297; 2557973921; 5004670; 876365986]; [2235436298; 3496725583; 115956330; 1665863825]; [2788438503; 2419196245; 752637159; 2315640480]; [3443311502; 3458360351; 2842769692; 143689939]; [2753216592; 205418492; 1771664872; 3225375828]; [3645988206; 1342685222; 2139578956; 3176790039]; [946036814; 722905058; 3951239029; 2791308634]; [1855047575; 1615676672; 2328471916; 2015850129]; [4238014223; 3025273334; 2293313074; 3635137662]; [3677003012; 1581782935; 2897391671; 802171594]; [2605898192; 2094145288; 4190336742; 3671558671]; [1590416066; 2104365845; 781716542; 2007553257]; [1937581370; 683613918; 2324327880; 3741220699]; [1302384567; 4255527275; 2330689329; 2222662069]; [3197861140; 645248686; 3467956059; 1121816348]; [3481676734; 1934372042; 3130726384; 3520481625]];
    [[415958264; 1757782852; 1775459435; 704588212]; [347251482; 3300394190; 1986700339; 3777243842]; [1476900458; 2332845135; 3472973196; 2498056115]; [2702024324; 2969525964; 3931987475; 3842152385]; [3038906002; 4157943893; 3419081666; 3025185327]; [586349195; 3995912903; 1816594336; 3528310962]; [2127632359; 3090375860; 1423816774; 2986820095]; [905320693; 3458289944; 959714951; 3935139596]; [4024656027; 4114491117; 1092948548; 974700731]; [1272300069; 7151676; 3986609454; 105254300]; [4080940239; 748716444; 2989690226; 3079807306]; [3020719694; 1304249583; 1818529759; 1903893354]; [2838173521; 2700750419; 591746598; 3648445071]; [3952123868; 992901701; 3848568103; 2859608750]; [1270364646; 2889643379; 2874594530; 2639977112]; [3913758636; 61491665; 1229445742; 1967792382]; [3449656813; 474845279; 609665578; 995146983]; [2330900912; 3818836002; 2019262240; 1854959568]; [3015589619; 3030281671; 3396242732; 2559818399]; [4006745847; 1557050371; 2471248414; 4137807500]; [2581165628; 3303273121; 3957521271; 161874771]; [1624218858; 1976434313; 2514030872; 2546989901]; [787081676; 701718081; 2017326817; 2914903985]; [3300063793; 1721361843; 4287070123; 81937917]; [3573658830; 2876538753; 4196618984; 3695149706]];
    [[3913354170; 1849764948; 1877552826; 2396048907]; [3839217709; 2638980797; 4212586403; 773563784]; [1901234806; 2019482623; 1797679041; 88283228]; [3174659533; 2600615565; 4066806298; 1867059079]; [243308851; 1585133439; 3976971208; 4211870616]; [3112977918; 3631473999; 2801339246; 4254434153]; [1815598021; 472445259; 629388705; 473773433]; [639966059; 3164447776; 142623217; 4216068921]; [24657390; 3801128605; 2280680021; 3697572840]; [3143992724; 1048772647; 2039646885; 2425128290]; [606181584; 1536199653; 868486418; 1065736381]; [125668283; 3078810991; 4085924376; 277182050]; [1051705847; 325126859; 1184314595; 3769886078]; [2629694948; 4151177978; 4006050591; 582726601]; [3714557112; 514019819; 1107584131; 735198552]; [4226919465; 2226018435; 2597716096; 3586675449]; [1773034484; 1886185957; 1069218899; 333733590]; [475654587; 435077804; 101387854; 497089816]; [3111430823; 607007030; 2965960577; 753117532]; [3962287956; 2149618368; 3387887191; 2046062603]; [713487195; 1529838204; 554921123; 3153588432]; [401857323; 4046642036; 1596946560; 3943086271]; [2853467684; 3453077724; 3487608779; 534466071]; [1662137093; 203660914; 1912774737; 1648416418]; [3520246211; 363492091; 2948657646; 3171507412]];
    [[1006534369; 1170837041; 1157116366; 1067281276]; [2549145707; 892154460; 2647248331; 2529282504]; [3656671536; 3275661626; 1326834041; 1561451459]; [151202079; 2100029664; 2567374546; 413607375]; [2988636704; 3237296394; 21773321; 1306378989]; [2655228744; 4130068008; 132724981; 1715185577]; [1211738345; 1297101940; 3441951052; 1800549172]; [318374882; 154072210; 4227235924; 2251270241]; [1276646888; 3476394107; 335338616; 4113138005]; [205542068; 2791113551; 3296107878; 2440163201]; [3309828553; 698447146; 543751920; 1360718978]; [274922106; 642836190; 453916830; 2980006511]; [2303695345; 3766643019; 4225300501; 2662297180]; [2454496263; 2539859858; 3031476369; 1792850749]; [512754714; 3611626196; 382319379; 264353552]; [2906482437; 2138394896; 3646094182; 901034381]; [97787998; 1820685565; 4243219481; 2443645719]; [329544085; 2308112571; 3905989806; 2564165218]; [3939230825; 1283062606; 2423190667; 4119490654]; [1534925748; 2876750336; 3872096069; 3447305924]; [3401607866; 2786299197; 4024568020; 2328550023]; [2511769452; 1285932737; 3498775782; 1182376972]; [756269653; 167176836; 298238489; 63621071]; [3269032849; 3182956405; 188612065; 1322353746]; [4146042765; 599705735; 1974083424; 515607245]];
    [[3155744238; 86613657; 4103438890; 4118487739]; [2838034907; 2069947366; 996889523; 2692907520]; [2633819908; 2894319119; 3714529236; 4229376330]; [2672734458; 1138819320; 1312717700; 3544095774]; [3565506072; 1795020493; 4121357870; 717272234]; [1349826627; 3318111487; 1235987236; 3006472815]; [3601927081; 3974312660; 2657475488; 2406212995]; [3369581345; 364034071; 3057942673; 312882872]; [3785146510; 1501300801; 512341448; 290819856]; [2525416058; 1193159309; 2054952786; 3617956107]; [78274254; 4005327466; 1406378167; 1966382801]; [1423623891; 3183888913; 3951976454; 2342636288]; [1975297922; 4175045141; 751439161; 26188347]; [2764513771; 564766552; 4140869414; 662869176]; [4154590089; 2517119186; 3547305102; 2059370012]; [973573140; 2773146902; 648838642; 3678657545]; [3002346379; 4206059947; 3350115270; 164333098]; [3356476719; 3238510892; 1766250969; 3271113124]; [1827979522; 4008206397; 3786402815; 30726573]; [1698550764; 2333316708; 887936355; 1450149602]; [896569486; 1912051612; 335264547; 2859746264]; [806734396; 4142483240; 3864341177; 1574821937]; [2203235232; 1830849653; 2618112479; 2379736415]; [976452071; 858204254; 2989551612; 2088449395]; [531807523; 3493980490; 677918025; 1446005566]];
    [[3908476009; 3444374186; 3424510983; 2776649213]; [2367189907; 3326408359; 672155025; 1867869111]; [1210733230; 3122193360; 3674838768; 2342582019]; [4146308617; 3496126034; 2273532378; 223038982]; [2692597661; 1262203088; 1883898137; 2453470610]; [2474880908; 876721683; 2620991410; 2106966824]; [1449830943; 1535194538; 3277192583; 4002443397]; [3927657156; 575976086; 2086511772; 2572048824]; [1265355209; 1854166036; 1486251952; 1604499769]; [3211039473; 1190286978; 471422544; 4247893759]; [1039088932; 1420098842; 3516290296; 3680592968]; [4256526890; 876445555; 4152971125; 1083840544]; [1504452922; 2845995520; 1400615167; 2362030494]; [1939193372; 93921552; 1159582031; 192024176]; [3401194600; 3769108684; 469487121; 2545249923]; [2715914044; 870642224; 2310569436; 1049354958]; [2006643849; 3085093233; 311608967; 1403767288]; [2178291085; 348717894; 1190596837; 2738295719]; [1860581754; 969700094; 2129348499; 599292469]; [3854136020; 4193562570; 769956590; 1524617184]; [1526570207; 3979127014; 3107187042; 1892531268]; [335889396; 1103976937; 1358051630; 2184686265]; [18180065; 1788665644; 3200462119; 4168019974]; [1729183842; 387359254; 1245218816; 1010319408]; [207073025; 822381694; 3278181560; 2772781305]]];
   [[[3773203613; 1550555136; 868868436; 72932202]; [3970430060; 3976235708; 3024297460; 490391861]; [3451531976; 222733026; 4184281580; 3548095465]; [1311993704; 1401890511; 2044743308; 403337432]; [1535215443; 2636802302; 1811056812; 4255780489]; [1065189156; 3642952775; 3309534033; 2248706115]; [663836076; 1639961466; 164776000; 2195208775]; [1502838459; 3423650275; 3511059372; 3617312151]; [1263346315; 3293779090; 3480189144; 3368130717]; [2793624476; 420915170; 1340650872; 3474383496]; [3497741897; 3148163574; 821752788; 3805780020]; [2471952839; 3405541; 3829853306; 1024784883]; [61966628; 498685219; 3622162102; 1713407366]; [1138901125; 4172531443; 831477675; 3824978370]; [425765121; 3076803506; 2329954896; 4250766712]; [2748860729; 288642114; 2747414555; 1106008679]; [2347507649; 3851790518; 3975443837; 2325079960]; [2840765109; 2204578994; 1870229540; 3029197381]; [2843718039; 813285264; 361071735; 264508246]; [610718661; 144007280; 121579591; 25016102]; [1966017562; 983009663; 2698767166; 864018485]; [139132344; 614172408; 2145545107; 1543682967]; [159321988; 1765827845; 325542398; 2591523093]; [3048431328; 3929585552; 1824019619; 2460205734]; [1424112713; 4077674133; 1387766520; 2955485412]];
    [[4212131474; 1472506919; 3391460343; 1638727329]; [3683544100; 1233014775; 594970268; 1501604322]; [1095891768; 3556110383; 976900590; 2627264467]; [3174946947; 3154757303; 3444982668; 2958660991]; [378456872; 3648014763; 1803576792; 3138600754]; [2296169609; 1509922665; 953893825; 1168321389]; [2300199400; 4085664066; 2484171986; 649423305]; [2733818912; 139895440; 1585205004; 3506016820]; [452548494; 3106109914; 2002664663; 3415508644]; [1644643801; 966571642; 825418844; 1477960931]; [2998865841; 4235749880; 1023110511; 2157625413]; [2664981879; 2576531246; 2352328825; 1915610234]; [3090554394; 2993990905; 3960427005; 4114321234]; [640025069; 3403207448; 1221267670; 3284216270]; [1513351427; 530343528; 2210330882; 696563938]; [2528459901; 1511293884; 585436223; 2851992962]; [2009561817; 3844310498; 1080715901; 1377159132]; [368155941; 3950563277; 1100905545; 894721097]; [1863946301; 3625007998; 369086653; 4162968623]; [2019286704; 2310088113; 119905219; 4192116268]; [2858289087; 4121218388; 1299062704; 862344113]; [3275748746; 3433061397; 567243812; 2401992493]; [1877288761; 263900395; 318062378; 430120805]; [1665814127; 3279202493; 3375765982; 4011952097]; [156656322; 253435638; 814272768; 1872413825]];
    [[1037997598; 162649022; 2816210442; 1646742247]; [3691559018; 2241704201; 3781405583; 2139999707]; [3692489730; 4129208321; 2714772017; 461435]; [895999655; 3895521825; 2286631774; 2577649010]; [1886724868; 1099031750; 1811591710; 50530013]; [3788277752; 3884841241; 1375338611; 1311437096]; [905724542; 3365943157; 1724537281; 3753523882]; [2084882027; 3126451013; 6757560; 3317270783]; [3949974862; 1559247583; 3021128946; 1719662345]; [883036848; 3564100316; 3320724530; 667163110]; [2912488941; 2478293385; 2801826446; 2165640331]; [4225952040; 2584546164; 1481100913; 1655700248]; [541787208; 2915942688; 3714565783; 2796951510]; [22889124; 2184123796; 832012573; 3096547094]; [3627511354; 147885373; 2539327537; 2364728202]; [3647700998; 3172660934; 593451141; 2234857017]; [818695098; 3463298517; 699703920; 2534452601]; [2590326827; 1086043958; 1031100444; 2015554517]; [1618085079; 1824269527; 2147802588; 893977437]; [2457087462; 1852702287; 51546292; 2511764907]; [3525778843; 1881849932; 1859638070; 946569050]; [1585708095; 2022426686; 1205639197; 2188647096]; [147334314; 304646965; 671246175; 3592732499]; [1366405595; 3090456456; 2646486043; 4019967015]; [1783865254; 1880428743; 465992439; 875208982]];
    [[4093509609; 2932999415; 4018376451; 1995195498]; [3618469545; 827785118; 3278314443; 2252905038]; [1030817213; 3093765813; 2795876408; 3675008414]; [3531415116; 1265434421; 2796807120; 369104330]; [3088890877; 1025942277; 3383010496; 4112657717]; [501238545; 734925041; 573067137; 1213798505]; [3146471282; 3369227529; 1727821653; 2364007768]; [390110830; 885390508; 2606953659; 3043672250]; [809016663; 2313299532; 3786111144; 3628798493]; [2307493884; 1323039811; 2664534064; 3539882640]; [798336079; 1089353315; 1675720517; 2911363597]; [946424660; 343485659; 2049322156; 1658984620]; [3523612235; 2262275257; 3301321208; 2878055901]; [234795412; 1538287535; 1654109684; 2878986613]; [865175879; 541642818; 3082018708; 1592119835]; [3650985370; 2313274547; 2645765609; 1071775577]; [2176151540; 3196134950; 1333368759; 3466170671]; [924503852; 3578065272; 2013033241; 1165126131]; [4092088420; 4073344950; 2883836564; 1660405809]; [216026957; 928586917; 696141380; 4285750296]; [2031516706; 4165249330; 1146116864; 2432869786]; [3742914735; 4244000061; 2289941131; 160507399]; [1603376463; 307931337; 3820219292; 3605791728]; [3310691427; 657130007; 2102439571; 4023251387]; [2671406233; 138231923; 1862947427; 878493354]];
    [[3920737860; 4078050511; 1886421443; 440699661]; [1704825743; 3539574424; 775979827; 1936490021]; [376072921; 953482122; 2280262696; 2091830424]; [2875224650; 224186265; 2143139689; 1540200688]; [87063258; 2858488753; 3165450015; 1618435957]; [504522917; 2878678397; 3870644297; 1217082877]; [4280592129; 1635988710; 794748282; 1218013589]; [284143556; 3048402796; 3159015049; 229200042]; [1545050639; 3465862455; 2363863378; 1075084934]; [156279944; 3486052099; 3133374425; 2497188310]; [1112827331; 359312039; 2809841364; 1168435488]; [2720925511; 2244293124; 3227301023; 649537404]; [2092406468; 3742770345; 4139990390; 3435346895]; [3140246594; 174877537; 2667843421; 1295808623]; [3819911076; 3903536743; 840958203; 1056316479]; [752973062; 656409573; 110070023; 1465533022]; [3330160637; 2154886794; 510957883; 1493965782]; [3797223382; 1094058876; 2868377466; 4071153357]; [4096818966; 4000255477; 71887391; 3071409561]; [3966947781; 4883765; 2649074966; 948031142]; [239500973; 1612981945; 169597419; 1341087832]; [389035728; 3858257534; 275850198; 2929411618]; [2160667457; 4267474077; 482500138; 4148482899]; [1448107497; 1005583258; 3767319463; 2979480196]; [3425458182; 1263292798; 2524629776; 570570846]];
    [[3847648387; 4053832835; 361804540; 2003210416]; [1160779271; 2606501053; 2111850693; 1677655137]; [1460374855; 3101780731; 1341383677; 356929604]; [2601626117; 4251989994; 3705650444; 123243108]; [3305743538; 4012497850; 3177063070; 2464503110]; [541054403; 2959782788; 3595968903; 2028250011]; [2039531624; 743870671; 799478828; 3375220229]; [1140564642; 504378527; 211718726; 3876305555]; [1820229124; 2422091264; 694622253; 3542421593]; [311071319; 3158870659; 2284968257; 18411518]; [179753960; 1830117837; 1074940544; 1171719860]; [3232031569; 2601075058; 4041155018; 652821776]; [509228478; 3272410857; 2726071307; 3438631267]; [4088536735; 4127985039; 2283547068; 3199139123]; [3824641622; 242234286; 1949663106; 1717998828]; [1884570874; 661140119; 3656978070; 2487509875]; [4110783922; 2081797321; 1061977737; 1741642219]; [2814546925; 3586080190; 736422458; 2657234274]; [2471754932; 2568318421; 496930314; 517696002]; [1843235889; 117789096; 2575985493; 2328826277]; [3990421797; 491390735; 3071265171; 101632547]; [3750929653; 2377448681; 1746492170; 688351113]; [2241771848; 3883177724; 1701237946; 59832070]; [1301331040; 4106399463; 2110454489; 1471169295]; [4087140531; 2445734655; 2873083027; 1127861840]];
    [[3834360960; 1183322575; 288715067; 3011138505]; [2825659163; 4086996141; 4141158124; 1682385683]; [3741251218; 3837814707; 3395290468; 3457745809]; [358973289; 3105995815; 526786022; 1131171197]; [3654196789; 1388216094; 1754815304; 1658251815]; [3211672550; 1148723950; 37035583; 1957847399]; [4091846092; 3649321853; 3163000176; 1132567401]; [3270845278; 3056417714; 1952972463; 4098781875]; [4261570491; 4095299839; 235192742; 1006726007]; [2949173641; 1298809764; 997821280; 2308442273]; [4090424903; 2449019027; 148138313; 1865918034]; [2761672081; 2867924860; 236588946; 3962259897]; [2730801853; 77240433; 1171575470; 886363882]; [591263581; 494700092; 2210457595; 646871738]; [2705737273; 1368026450; 881704773; 978268262]; [3309027910; 1667622034; 3769883401; 246449370]; [3456039630; 741729048; 1631791303; 4022518582]; [2057579645; 955992786; 739706830; 27146870]; [3479683021; 522426548; 2161810206; 3111940304]; [1727579325; 356621388; 2657089884; 1672635811]; [3917332324; 3372438948; 320790657; 1153737727]; [2511474368; 2279810090; 3337685078; 3939547218]; [2168682375; 1731963784; 4253277133; 3700055074]; [2274935154; 304520252; 3943000965; 909370647]; [3433473100; 3979812650; 3535842237; 2661939835]];
    [[26785137; 2487003752; 3822692357; 1169130937]; [3422785451; 769224031; 1421034829; 4065638248]; [626295376; 3555033522; 902136745; 189576785]; [2441785125; 3315541378; 3260597864; 2640571602]; [1922887041; 1210327081; 1542818143; 3410082649]; [2222482625; 2438356363; 144358158; 267346834]; [1103083008; 331549743; 3886103395; 465038501]; [4211029628; 1068329138; 1780889098; 28785402]; [3757575140; 4194293731; 1344635999; 2954240935]; [4252854818; 2611448942; 2843113220; 1008364539]; [1370301608; 1273738119; 2609426724; 3095748401]; [1130809464; 2392146442; 469888452; 2306083307]; [2010983006; 3922424603; 1629872572; 15038032]; [2976178147; 4028677382; 1734679177; 1950552915]; [3275773731; 2699924560; 3156782553; 1624997636]; [613307584; 4120581762; 1406271180; 2042457295]; [3595878030; 3270898795; 1517753563; 3546740164]; [487466190; 3141027610; 3547205656; 3846335748]; [787061774; 1001489338; 1955402866; 3708135880]; [400411761; 2811027290; 2254998450; 1500552446]; [3053973181; 1412567305; 3635215782; 2999029667]; [2814481037; 1830026964; 3202061762; 4046869793]; [2486402723; 3257935988; 2891785594; 970973778]; [3495076231; 537819758; 3301002137; 4207636191]; [3642087951; 3005901836; 2324215136; 1688029021]];
    [[673514511; 2011225334; 3726982837; 997047572]; [779767290; 876546606; 657357962; 2504482794]; [3745981764; 3662356097; 150516958; 2059271694]; [871671670; 4260004912; 2505413506; 3185077988]; [435418571; 2785171082; 21576485; 4100670043]; [3677670805; 1303515325; 2748824889; 1884757926]; [627304590; 3001460070; 459225788; 3383235147]; [403041587; 3418919729; 4005286931; 1005980588]; [19490653; 1280827631; 2996585134; 1355179258]; [2876084168; 3588644128; 3685207617; 912655019]; [2953388725; 2842776472; 3553890258; 132679215]; [2434490641; 2220063077; 1116617826; 464075739]; [1053232045; 80524805; 3297576922; 3446646185]; [2215188141; 3939239002; 3024311590; 2927748101]; [3484388582; 1142748927; 2166515767; 4229464367]; [2384912540; 623850843; 963739876; 1400458467]; [454212011; 4120824362; 335220833; 1782388789]; [2822561843; 580654434; 1636937099; 1616747455]; [1896505031; 449337075; 1161897035; 3427877730]; [4219600639; 1947814296; 733756792; 1024774028]; [1454911504; 2716248482; 137038689; 3525371931]; [1021757484; 3395912964; 632318367; 982973823]; [511817401; 3156420820; 2339633331; 3889170424]; [1653068663; 3565637363; 3869911492; 11662787]; [2148348341; 3594070123; 4169507076; 1515945656]];
    [[1387969976; 3375621592; 2120719580; 1443578133]; [212120089; 2046868770; 808322730; 711759241]; [2367549113; 3432125136; 3765579203; 73550908]; [2133862617; 2373820253; 1458892841; 492456741]; [306977399; 1061423403; 3284071880; 2022734902]; [1719391485; 2593147738; 876608704; 3250764184]; [1090872442; 81869251; 1797626754; 2817610164]; [1586152120; 2372399064; 1944638474; 294274597]; [1815179507; 519518554; 4134391473; 1792751818]; [2654181890; 1392844912; 576057423; 463998996]; [4184460051; 661026020; 55713165; 2543054175]; [2795689356; 4133400179; 1866843440; 1230657325]; [1433689420; 1591002071; 1963406929; 3807844900]; [685298729; 3076026008; 1647540940; 2147180092]; [722060172; 611447919; 3802969964; 3366251373]; [1352440639; 2856723508; 3569283468; 4054873856]; [4138250130; 1106212135; 1742398250; 2496844254]; [3392382474; 3026447907; 1820633519; 493852945]; [4231600684; 3595414569; 1599469595; 2716171739]; [362205903; 1655343821; 2512158962; 1177135000]; [2830287981; 3153821042; 1512415166; 1518220814]; [1112508260; 2549901359; 1278728670; 119760829]; [1873690624; 3323545441; 2777205891; 856394075]; [950320673; 2591726549; 2258307807; 1273853734]; [3907577146; 873946828; 1382494011; 527986078]];
    [[3094673299; 634454684; 189407410; 2566085925]; [3426069823; 3140858235; 2259704011; 2760789337]; [3578507538; 116487312; 2846422577; 1342139708]; [2446515671; 685453974; 2327524493; 602077700]; [3105328898; 3339015394; 2134793329; 3920257995]; [688907721; 4077240963; 3395554263; 1021398783]; [1916937003; 3100453962; 3066215554; 3017077688]; [850303437; 413584846; 1016523847; 4269922157]; [3838679531; 4275398122; 1425740390; 3346552206]; [965815611; 2800564292; 36969695; 1678375571]; [1383275270; 2095835230; 2192398719; 1977971155]; [3411685827; 2699125867; 863645897; 1457626897]; [74712092; 3927155149; 344747813; 1849030682]; [3933426289; 49647512; 2052062777; 1550977451]; [1650493870; 2557127924; 915722048; 1628282008]; [515815142; 1465945240; 396823964; 2047187841]; [4257560379; 3619352046; 2939687564; 479468949]; [3932005100; 898374782; 4065493858; 1217694518]; [3200186208; 3880945228; 1960133412; 2174560976]; [403696133; 2054060010; 3380790614; 2474156560]; [1319288188; 2823571057; 979133086; 207599821]; [573420532; 4042642338; 2401236462; 1914914785]; [4245674433; 436297525; 1072483640; 3413392006]; [131827005; 3274527495; 1177290245; 3283520821]; [2988420520; 334859100; 521269154; 1143982549]];
    [[3233261916; 487831713; 820322775; 2899843174]; [1230270607; 3199954220; 4283738933; 2222236507]; [3013959416; 360397996; 726997206; 250364819]; [20708386; 3637603523; 3693211680; 581761343]; [744549959; 856608386; 2572365889; 930960013]; [1726946489; 2775397984; 2136112790; 1561340480]; [657495530; 2249298320; 1257997063; 1368609316]; [1573087585; 4217691004; 2770523048; 2630962573]; [3071564806; 2856206530; 3067019553; 2737215352]; [204506534; 2419953431; 3942368129; 2300962253]; [1734784695; 1098598580; 1431089642; 3805245122]; [2230064373; 588658497; 2929566863; 2833003374]; [2529659957; 3165846072; 3800370186; 4245417460]; [2530590669; 1026307800; 1872192692; 4114100101]; [3160971136; 3932504401; 3581067686; 2691005431]; [953387702; 46753648; 649692649; 3023848129]; [1370847361; 4024408781; 4007786740; 149538035]; [3162367340; 1376902674; 1432510831; 644817713]; [3519894693; 244910807; 507694706; 2149100582]; [1228849418; 3030720298; 300003502; 3882410838]; [3385724616; 3169850878; 2456878700; 806514823]; [3060169337; 102912864; 80701002; 2614606601]; [3795356409; 3471823348; 649667664; 212949073]; [3665485224; 902302845; 576911392; 4268424225]; [3965080808; 156435189; 670788020; 3630731354]];
    [[2423726249; 2851486839; 626979970; 2163994491]; [976394467; 69760413; 1785517916; 1688954427]; [996584111; 554059872; 1266619832; 3111057803]; [757091967; 4145425209; 830366733; 1018799005]; [1147049578; 4089241008; 3645270595; 3487957944]; [3413030273; 3088051038; 1268016036; 2969059860]; [3980550761; 4196424499; 1693588551; 3267578583]; [423809034; 429614682; 1960987381; 3406709163]; [4199878246; 4288328879; 3271032330; 237402012]; [322370609; 2975932029; 2204398764; 1767680173]; [2553597434; 4195003310; 3708681633; 3266157394]; [1495292551; 2866250488; 2111073195; 1548377673]; [3380273636; 278598156; 3470120201; 2833934086]; [1662493915; 2434027180; 394224186; 2315036002]; [350097065; 1915129096; 1082846669; 986283180]; [1772200441; 1665947662; 3819784363; 1285878764]; [711372523; 166479147; 2617008472; 2902220060]; [2107480607; 186668791; 2688723208; 3823238110]; [161604211; 604128450; 455723830; 756300096]; [149278030; 1477454808; 2815165631; 2835355275]; [3477017355; 2360315211; 4076072714; 1042442396]; [1835611479; 1123051519; 1937980616; 1813399617]; [3914666658; 332259322; 3989018285; 3970274815]; [3675174514; 2706880294; 3006010386; 6704043]; [2033768638; 696057815; 2766518242; 2329799651]]];
   [[[230268032; 1904111537; 1201698933; 2466645643]; [3969508206; 380398256; 1931690032; 870424041]; [713423026; 3113707643; 1981626733; 741009221]; [2984292823; 1923026832; 4250891866; 2485560938]; [2594196547; 3893635443; 1759112126; 385529807]; [4073111640; 2632238720; 3828121851; 3194772826]; [1143089132; 81823141; 3229265012; 2504476233]; [487356232; 4247375617; 90608079; 3042974131]; [3712420006; 791035029; 3419161249; 4119613130]; [456334826; 935947533; 2563172941; 2692712437]; [3375998163; 4266290912; 1032589607; 533857722]; [939489820; 1010205732; 2071471723; 2278409439]; [1679651607; 2254373231; 1876418635; 2937684626]; [4190418149; 4119702237; 4147288432; 2816835830]; [1753909806; 3463969337; 891203252; 3420839620]; [2299277757; 468440937; 3205202766; 3526047718]; [3369046703; 1814266547; 1600415140; 4269947237]; [1087817735; 4138617532; 1479566344; 4009202712]; [2592658252; 416640320; 1814383523; 753117532]; [1626244126; 2822127257; 2188778232; 1329372313]; [3571051251; 2167999021; 3933329949; 1462329420]; [2671933226; 2351088274; 3803915129; 3733199217]; [4280263139; 3581275846; 2207693527; 2708149252]; [156009833; 2294270882; 4287070123; 2007562795]; [830729535; 4064430840; 3822830424; 2552930746]];
    [[1679043258; 1085273963; 2091454102; 1746209183]; [1589208168; 3154283688; 1885980974; 355397640]; [3194049701; 2498550788; 2355415293; 1820467382]; [138100753; 3863495576; 2560753845; 4199972788]; [3408018084; 443503390; 2769644584; 835251999]; [3578732074; 1183665177; 2819581285; 3979248390]; [3822247375; 4082666279; 158739888; 3953251459]; [4061887068; 436622699; 1093944863; 1594400588]; [1332119968; 3201006661; 923223173; 1402835880]; [921755647; 2241462588; 2936961501; 2767780668]; [2615981973; 3061295739; 1147611596; 3677247964]; [635014191; 3856599485; 2117250088; 4051642673]; [1294289378; 1335659317; 3131940882; 997417565]; [2629694948; 3325193861; 3192229054; 3066427290]; [2909426275; 774778282; 966271483; 1042329791]; [359010696; 583213574; 1884376310; 1145747680]; [2018874274; 2288185561; 3249321098; 1984374388]; [3563295259; 1163010642; 4060323473; 1725544748]; [3732476092; 3036977179; 2495115577; 69034974]; [3903190082; 873169496; 248511171; 1703160873]; [1216552699; 1311340757; 3138821573; 2443322660]; [895573171; 3016312744; 588405994; 3428723588]; [2964582896; 2926477654; 493483360; 4156924478]; [735083776; 2300283972; 1297617882; 3397702182]; [4269038567; 44787183; 536605377; 1801552087]];
    [[1864733490; 2399617594; 121834106; 630986031]; [2133848594; 3843908125; 3602307709; 3362342395]; [139097068; 2539381685; 604989100; 475449604]; [3748985491; 192646825; 16552301; 3250253606]; [2387458314; 692967974; 1314200988; 2715369502]; [3823243690; 3127744777; 3058752705; 2265038223]; [2503025583; 4166626893; 2963830071; 199446109]; [3472981996; 675794119; 1643797509; 1108913405]; [3916302408; 4156267722; 2077015802; 917348697]; [1790475291; 2851741282; 2948253180; 3807659099]; [2025162016; 1597214612; 152847812; 2993165406]; [2836164391; 435879774; 2201210702; 1127828700]; [4244238896; 4045768197; 2371924692; 981247725]; [1599096128; 2214923677; 2910422590; 3150387904]; [2518602474; 2889643379; 360007011; 4120026396]; [3659214208; 2698078671; 3926765717; 1890643514]; [4133739371; 4063023459; 1069218899; 430715223]; [877654191; 2278822705; 2244259012; 3305525003]; [1552373893; 856874980; 884461175; 3844022901]; [2292535680; 358143095; 458398225; 259927526]; [896569486; 2796469885; 3222782187; 1353895494]; [1700704008; 1771419920; 2703271091; 2168323180]; [3705937181; 3136364708; 3212423016; 3472841920]; [3315840905; 2815385180; 3272711188; 3377919286]; [1595422203; 3854267296; 1987170812; 3887071211]];
    [[3057561307; 3942763212; 1283712024; 1818596128]; [65445018; 1696158806; 1859966805; 3212886889]; [3761555475; 3832271387; 2898848921; 662471310]; [505470295; 2741847906; 2707284213; 533056490]; [2519208623; 515890335; 1742660296; 907638944]; [2120607192; 2458973620; 1126825047; 1281848108]; [4189616917; 2424285989; 4146487200; 2986820095]; [3193856818; 198328418; 3626976104; 2301741222]; [3243793519; 3934143281; 3435411396; 3525246486]; [2648674412; 2443201284; 3211208518; 2149942527]; [1087016503; 4008401480; 3509669595; 2814170682]; [622776804; 3323322607; 2120525785; 2983351515]; [532941714; 802253001; 124044919; 2964362513]; [1105931798; 2167197789; 2237913701; 3433796832]; [3247449844; 1511464889; 983387031; 2878069710]; [2986705319; 826386016; 3973827887; 2748654890]; [860878202; 3490639524; 2256828996; 198239311]; [2370992546; 900644215; 3822029192; 1207775454]; [1570090090; 845301311; 3871965893; 272497510]; [2610569170; 4175644690; 1142198793; 2410501507]; [1418291395; 919559510; 1980825501; 876429793]; [1028195119; 234480637; 2355220210; 1991245541]; [3033428292; 3892834211; 2023947518; 3224921493]; [3872055000; 1538936308; 1999740796; 3544232550]; [3877257320; 2477693470; 4199894681; 3138628690]];
    [[1104717300; 3140839503; 1137521215; 2165983291]; [419638427; 3109825797; 481788315; 2540378000]; [3089046586; 3429136854; 3749981806; 3680989734]; [1128850315; 3592980791; 1020214706; 4155514897]; [207356115; 4138348742; 500703610; 3496232010]; [1772556311; 343702595; 1539585726; 4198636914]; [2947660231; 1751777100; 2783753225; 4174430192]; [1686263508; 2790659216; 2954467215; 2747529499]; [3430815225; 1470626654; 267829832; 3458401420]; [2126288785; 571508629; 2932083340; 771764037]; [3406608503; 2809574511; 2837160706; 4167613308]; [789090068; 1054663623; 813063207; 3477316715]; [3320315700; 1995080818; 52050702; 3941548714]; [3529206439; 2669800520; 995957015; 461009104]; [1998623105; 103940426; 3760340977; 3396366308]; [1413606117; 3737957102; 1534383406; 3244442937]; [1287547301; 1377382391; 3044312205; 219693240]; [3418706914; 228135326; 659400596; 3618962322]; [1361805500; 3453199100; 3893419822; 3894955917]; [676726627; 2797466200; 3063227500; 33206914]; [1577503223; 247050621; 4178043248; 203920904]; [46919889; 680268914; 181537029; 1242803020]; [3130490232; 1256523695; 757791810; 1819057801]; [1030459101; 2295405811; 1147880386; 1725958014]; [635282981; 933878634; 1865729805; 1227226129]];
    [[3871382844; 1697155121; 958526491; 459794606]; [2337311130; 1641812217; 4104246722; 2204346323]; [4011146935; 3207012413; 2708280528; 942949600]; [3089652735; 2351024105; 4073225316; 1488317551]; [625522259; 3225999215; 3417492416; 1593525649]; [3895445090; 3966161002; 867076837; 3451984602]; [3505534359; 710075822; 2111244336; 140628025]; [1013754619; 2075020610; 1576288725; 3935139596]; [2758306336; 4023253046; 1075833000; 2785892531]; [2059443719; 2868856830; 1424490030; 685861400]; [2537581938; 2297616624; 2789434818; 2860150730]; [2597870110; 2007650802; 3010280954; 2099138225]; [2647806811; 3838487622; 813669356; 3709072802]; [4012751599; 2052563028; 2953463562; 1483115231]; [756666419; 3990367724; 3748767308; 2521997347]; [1131061128; 2071549830; 1467538340; 2192327119]; [2371803316; 1310537325; 4231922302; 3567686447]; [2746198025; 2675482113; 482322957; 846297626]; [689296611; 194246351; 152652729; 2411497822]; [2594399330; 1329452620; 2390718611; 3086217524]; [734208837; 2894652816; 3955918807; 4026634719]; [3034424607; 113039630; 4005855508; 570294131]; [413293116; 1814461630; 749770328; 2841163928]; [4287150430; 1053449125; 475371497; 4045550014]; [3058557622; 1427843834; 3319101202; 289080616]];
    [[4215217820; 1659599921; 420634742; 1116133655]; [192917815; 263633727; 1932353750; 2726068232]; [2703684357; 2534503524; 1331706702; 2070335332]; [3174659533; 253274556; 3400716427; 1309322827]; [1613001624; 3243715412; 2744983527; 2674267615]; [3221331537; 1953028823; 3474974626; 2615568707]; [291309029; 3091916717; 2389504113; 3654450823]; [2802075571; 1036744643; 3958129620; 1373221855]; [1977161838; 3801128605; 1673475341; 1599207242]; [1956382627; 1954777963; 751981141; 1316404463]; [66902268; 1625107735; 2522582958; 2187641841]; [1925361221; 2663989851; 2487895327; 1426629336]; [3169528720; 4028934639; 3732062826; 1202426458]; [1999619420; 1304120507; 2336096632; 1010861750]; [1944276516; 779656443; 850372355; 2712283750]; [1649357726; 1399040941; 3951233529; 3255734616]; [3597590162; 638028436; 494892941; 123852036]; [4097911311; 2002973224; 365478121; 1633780835]; [348311966; 607007030; 1773552626; 1034923996]; [1012540121; 2983156432; 2379144942; 2613964043]; [327461248; 3685561336; 3283409918; 3978908831]; [3131486547; 3026278449; 593284155; 424103322]; [2536367440; 2931355815; 1557773496; 2296402126]; [3614641541; 3704476631; 2103141447; 907258316]; [615687830; 2184313337; 2646592313; 4032316312]];
    [[3545984628; 1849764948; 1552893135; 2277681914]; [3651192726; 3820373559; 2715977851; 2988553835]; [1369963758; 3464901845; 231200540; 1052429710]; [65437318; 3635615835; 36147452; 571095363]; [2013669754; 584816038; 2307017249; 3335479325]; [4208605919; 1054250357; 476172729; 2650400452]; [2954079249; 1794412144; 3956646332; 3024795161]; [2298346349; 2388181439; 829975972; 1030043635]; [2367402228; 2277567138; 1670199644; 2168931529]; [2942052345; 1677105635; 609251574; 1633975918]; [3780679053; 2921273134; 4074026548; 1152641571]; [2855759542; 1722017861; 398443750; 638409064]; [305343963; 1030132742; 3658258962; 3452785834]; [2110384797; 2205172855; 367422344; 3097314120]; [2610705946; 3979070545; 4006656740; 772955435]; [1646082029; 2914384743; 1982559241; 755789280]; [2684964145; 3194116070; 3656395046; 3261406671]; [2129237023; 234554344; 2691771129; 3325120154]; [3168119139; 1273436460; 1930758624; 270895046]; [4022444476; 4077461759; 3981038599; 105131824]; [522780926; 417572828; 4213808239; 2503748708]; [3821988123; 588286818; 89554933; 1354501643]; [1596030552; 2536519254; 3789403122; 3592567525]; [4262013400; 2907488652; 4232723534; 369286260]; [716094774; 3245731142; 1613382252; 1373416938]];
    [[1577310340; 1013072563; 2074338554; 3639538750]; [286623751; 215907839; 849157857; 2638560931]; [457337741; 590302548; 1988045751; 3416899467]; [1796481043; 636813938; 1332312851; 4227901842]; [2740387356; 2001758726; 3603182648; 1366805037]; [1684392254; 1774227344; 2802465737; 416089540]; [1920675943; 2484913720; 2041453232; 2616174856]; [2024287077; 364235754; 2579951130; 3356336643]; [2524608226; 3263236856; 29535551; 3825770962]; [79472252; 3839491637; 605790332; 2295187628]; [1392819568; 583406457; 3570297326; 13958660]; [1252852332; 1948351245; 48450846; 2778342622]; [2291734448; 4262350759; 2353884336; 3254784870]; [4196837167; 2172739668; 2298541432; 2994040345]; [445320737; 2536714337; 3228787939; 3099248443]; [2942247428; 3006148656; 1637784057; 1384041961]; [3951783571; 3625533154; 1118272961; 2876733836]; [3425402422; 3225334759; 3882656923; 326318257]; [629997054; 3523795836; 2591970334; 333125241]; [340031232; 1604977942; 231395623; 1035530145]; [2274423817; 980187241; 3271836249; 2780081862]; [188232537; 2088132936; 750766643; 215818732]; [2133045162; 1623893237; 3290823051; 2650595535]; [267708456; 3297729042; 3396031149; 3189093433]; [2966454150; 4027720141; 3528988256; 3359807423]];
    [[2942586987; 607808262; 3344570091; 314549505]; [1477509545; 1548225457; 2040043651; 1080507278]; [452459580; 192040676; 2188381466; 3249647457]; [2566328362; 3190986687; 4158990077; 462879620]; [340370791; 7282952; 2628406743; 963200769]; [840691940; 2371275274; 3272175808; 3373842357]; [1091077294; 190176760; 3113285577; 2612829852]; [3320452476; 2595663697; 421435974; 626909102]; [364628482; 235088986; 2787281574; 1291137257]; [1474038765; 3304875585; 1931293266; 3196239976]; [3908815568; 4005327466; 771626161; 2806143700]; [2683634871; 2578426773; 2079694888; 706112569]; [1052921083; 663150428; 2184902986; 2951186380]; [1957186059; 637153497; 4255642051; 2925189449]; [512956397; 307483269; 293762594; 3159876174]; [3241048064; 3071867231; 3663810379; 3634401337]; [2555969191; 521451652; 3713747080; 1408443766]; [3920913979; 66167405; 1587919963; 3042569665]; [592159864; 790630563; 183263069; 3691493381]; [1241083580; 2930480876; 3991746867; 3836405885]; [709547780; 638831868; 3306667994; 2937287860]; [1520743400; 3839823496; 2145333156; 386872281]; [2885494943; 2253968765; 2316047146; 2816502871]; [2298880991; 2333444684; 666603608; 1665531966]; [3368649937; 34818178; 304129465; 2661284365]];
    [[438627429; 1177256059; 1669074253; 1739790165]; [1582789150; 2248942090; 2243724370; 3104734953]; [3722583356; 2222945159; 1644867531; 754574782]; [2892391034; 3587889947; 3658605859; 2285023540]; [1306721848; 3501604844; 2128022525; 2823521438]; [3536097030; 951189265; 1767465467; 273105859]; [2775084525; 3470583438; 2578467842; 2783940970]; [1625837460; 4046838219; 947754054; 1482701965]; [2990782248; 264434959; 1282571233; 221305242]; [174730045; 1629379747; 2022733020; 2207612482]; [1808855944; 2909699465; 3401517659; 1946867957]; [2183250653; 1444622023; 714880276; 4271218942]; [159153154; 1018559073; 4045223655; 2485294348]; [3919164839; 3727671638; 2890827439; 1829561448]; [868365042; 2633695970; 1325619543; 2970173182]; [3767366144; 281811959; 3373982433; 533664839]; [1191154579; 3322252585; 1969325539; 583601540]; [2556099367; 991023847; 4207391421; 1622483656]; [1926162453; 600927571; 1632903696; 4217811461]; [269652679; 775379293; 3802043875; 3361823153]; [3541299350; 1831239819; 3027122950; 2167717031]; [1315341779; 3844978147; 4141938698; 681992754]; [4079725741; 2185043062; 3510277944; 3187610145]; [2024553667; 1165147748; 3560214645; 650971348]; [3967636952; 138373943; 1762174040; 1296469753]];
    [[1308599702; 3703666599; 996283374; 4229984679]; [1253256798; 1343091888; 1370678083; 480385334]; [2618201586; 1253574719; 2409560199; 1615660172]; [3591577810; 2518195808; 3450046979; 2388780988]; [3527668882; 797777106; 3229192405; 2759750386]; [5822402; 3802057813; 568356508; 4124695174]; [1351648012; 2412914003; 2839226305; 2804662612]; [1051511502; 4285212807; 1387988714; 312882872]; [3755474916; 730407298; 1558702704; 3317163579]; [866753778; 1971149486; 457856983; 2632084706]; [1639874594; 2970327196; 777168040; 1667460789]; [3149803393; 245513064; 2010843992; 2771848797]; [1924752134; 3054943828; 3375788780; 790881015]; [1588073977; 2528562679; 2720055880; 3415554793]; [3964223379; 302605108; 4085000668; 3360211889]; [1738265808; 309412092; 2300799914; 430189381]; [273188366; 1011816996; 609665578; 1574351102]; [3248123100; 2088455995; 2678675303; 1519008198]; [1362007183; 2626953893; 1253371574; 3084208394]; [2091998282; 2797667883; 3387887191; 2057434589]; [1900433574; 2906613713; 1037727020; 1401701689]; [116232820; 2645869188; 3707135179; 3103123689]; [3976250283; 1391342518; 2311168985; 4211069384]; [825444708; 3249801471; 4255981610; 86816078]; [2199080196; 2100554406; 606194798; 2492303015]];
    [[2438857765; 2074883096; 2766644277; 1236060943]; [2673544490; 1274166185; 3676111573; 3305070668]; [547717373; 4293959976; 3046304097; 250845560]; [597654074; 1293152987; 554524357; 2319855285]; [3261907582; 608074114; 3824441688; 325103759]; [2837573972; 1776307981; 1094674588; 3029067173]; [4281800696; 116372896; 1144611289; 678907002]; [2181769565; 2920398195; 1577829582; 1182653462]; [4195507893; 1531254385; 989392783; 2487172202]; [2330171187; 2166192674; 3227458665; 956588868]; [544246593; 4100585259; 3601853374; 1127302858]; [3374136447; 946229697; 3871164661; 2002277968]; [2875404562; 3410352473; 2616637991; 216353374]; [324988983; 2259381568; 1652014074; 1890189179]; [2763315773; 3893507467; 2690896190; 925565262]; [739218274; 3672658393; 775434300; 2799531799]; [3203341050; 2142075059; 1275755449; 2806338783]; [2887510673; 3282686793; 64684117; 1073895377]; [3997177270; 3187764159; 3883263072; 2694249994]; [1902295290; 1557050371; 1332847493; 2559617454]; [1141282785; 551256722; 2992711071; 3262022358]; [811612557; 2252485477; 3902178367; 2913420697]; [4081529888; 285294477; 382124296; 12744162]; [3595046390; 190371843; 47236348; 685803093]; [2190389496; 1330983577; 3657124771; 1641664803]]];
   [[[3376377623; 167379568; 3286125905; 441610937]; [2264261635; 230136303; 3054113781; 3247269534]; [1887944360; 3687218980; 1319762261; 2012877996]; [516375054; 1421302657; 1381984098; 489172369]; [380066872; 1830519200; 634886095; 888927820]; [2663937068; 4035971866; 4169608804; 3945720148]; [2585227240; 2422014521; 2271958998; 26777829]; [1175503805; 1124570646; 1745261823; 3068444260]; [281864880; 3759777345; 633145835; 2449919448]; [3963128511; 1028361825; 3872876793; 3539882640]; [1824847087; 3834020422; 3743233806; 1070802203]; [3469245037; 1287988337; 1877607832; 820543908]; [1107412191; 3591270679; 2254800543; 813809307]; [408096753; 2021171354; 2157181388; 2297775819]; [461392396; 611447919; 3446501795; 1996049467]; [3467504777; 3008765409; 555300831; 1499550297]; [3051740685; 1802614273; 2617543370; 1531574129]; [3867472508; 3938352711; 1714443353; 3642826062]; [3159230876; 2826236723; 2123659896; 2816775631]; [3221452713; 1293070004; 1821933544; 1202818286]; [330251749; 2544165117; 3793291529; 1864908820]; [27990499; 1764508384; 3013634796; 728881856]; [49472831; 2893987799; 875353372; 2426008472]; [2732320980; 3709719622; 3637153949; 2024079348]; [1914973851; 4053130321; 4014346660; 4177559379]];
    [[1106356525; 3665340834; 2284602734; 2355482937]; [1666077922; 225086686; 3503674015; 1243366949]; [2392092925; 1315049878; 1446718115; 2704770721]; [4217444886; 4076850455; 4127728066; 3923842002]; [3947742366; 910827676; 1725756773; 4018622569]; [2059553652; 4184340646; 3206942004; 2906506581]; [1249164016; 1018317867; 4217854830; 1292549236]; [1851735735; 603144221; 3077541617; 3498001902]; [3103365746; 544381437; 1429024762; 179898350]; [1693107413; 1794845473; 1755526914; 3605492093]; [3452653530; 1417993300; 995282327; 803952401]; [2316626566; 4142861271; 1952143479; 2833003374]; [2276700399; 1767281084; 156862810; 86517505]; [3986848645; 3304441754; 3340249016; 2736794553]; [2293938872; 2869321064; 1348564062; 839144747]; [3513135107; 295210858; 600931161; 569442227]; [3959819154; 2508831928; 1697851846; 3536573283]; [2675250488; 4125702816; 1353558403; 199002037]; [3479683021; 2228053010; 1805342037; 3255794365]; [3580886183; 3318016202; 272175318; 2352694348]; [3958078894; 3419754262; 3360991478; 3525906829]; [3688376374; 3597589758; 379665509; 1992740110]; [1962809933; 3891192642; 2237041302; 1540098960]; [2880689760; 16393333; 1935314950; 1883509659]; [4182252540; 2445734655; 1044134688; 3593657905]];
    [[3691780151; 1657119921; 2338064234; 15337667]; [227615027; 3530648230; 2005070081; 2139999707]; [3966477012; 3195815879; 1257972078; 606832988]; [1807585388; 1948179819; 1525468846; 2611438087]; [2426575692; 1087732460; 2528723696; 4072841859]; [684393002; 2775397984; 37035583; 2207750783]; [3720424948; 3579830517; 99792318; 1905489533]; [1318453655; 3877437964; 1228736835; 2679189163]; [731196644; 2467179631; 1290958672; 1441014195]; [2887882516; 2752952890; 2894082219; 2185305689]; [4197205515; 105589385; 2004729543; 2726750595]; [1021721644; 767679919; 2929566863; 931469926]; [4079048870; 2262275257; 3988797152; 1888331078]; [224031020; 1674483348; 3573088608; 2123171178]; [1717458624; 3078249680; 1707997532; 2793966773]; [4045061886; 2308544001; 3680578799; 1556326703]; [1905204543; 4005670617; 879039107; 1482493570]; [3285817689; 2027765083; 3276356597; 4163503521]; [4092623318; 139576369; 71887391; 799573248]; [2600941523; 3607735444; 2447933070; 711415185]; [3810551712; 3596124148; 3804014775; 1518220814]; [653990025; 1621927575; 280580744; 312069678]; [4159839496; 2718848260; 3692395067; 2993079629]; [2500078899; 1217705373; 72762827; 3392835080]; [4267329687; 3180825548; 1172187111; 1312781542]];
    [[92303717; 2011225334; 2234241858; 3211050054]; [538452866; 3414991666; 2763852576; 2592525242]; [3741251218; 2176816698; 2795341510; 3650464602]; [3803473055; 3944067486; 526786022; 312358458]; [2933564604; 2284306889; 2741699780; 598666615]; [4152760839; 923223535; 3870644297; 956415101]; [3647335475; 3476008141; 1425349882; 2196883147]; [4056552018; 3538229978; 3224624502; 1660724880]; [3926374133; 2677782619; 1143278276; 2304373338]; [588802887; 4161749131; 3938395373; 3797800942]; [1015507811; 3179276130; 4000617210; 721904927]; [124327549; 1941101162; 2340856613; 2959381425]; [2521645039; 3489582589; 4280190766; 1345424080]; [3214468476; 656019065; 394440013; 1643031527]; [3713346291; 1542631091; 162427889; 232773194]; [3321958667; 3846448331; 1553582535; 2994573771]; [2115807531; 864712418; 3141045287; 1424474446]; [3577211303; 654278805; 429632359; 1672559068]; [159929839; 3448103214; 3886715036; 1328265625]; [3216722167; 372207199; 2649074966; 3357316598]; [509217623; 3887517762; 2711296803; 2245735508]; [571974358; 2685684954; 3934276468; 1375827057]; [2908503814; 3871564669; 3965765402; 1438048894]; [4037983229; 828985174; 761296196; 251876881]; [2140333423; 138231923; 3158613686; 3308669209]];
    [[2362422753; 3044294746; 1440833965; 1369953762]; [484775539; 3593570822; 661177232; 132313692]; [4032109934; 3808756176; 391474712; 73550908]; [3162736381; 3790187387; 3448267040; 2480329490]; [1956585245; 979777049; 3857483583; 525577142]; [58935439; 1509387767; 4200894282; 199529870]; [3499655079; 1176928512; 3453261381; 1830725688]; [166425630; 316481153; 3151535029; 1334761416]; [396389035; 1014969395; 2501394570; 1678172115]; [2687059691; 562272697; 1569066618; 18411518]; [798870977; 2239862213; 1817151240; 930004316]; [51238076; 2142243058; 2282837489; 660301796]; [3290969034; 4185073451; 3960427005; 923512315]; [947412679; 653809795; 2390327680; 939875352]; [3640256818; 4169120358; 1520419229; 2229195759]; [596384635; 2599021033; 1896444206; 3205176759]; [2057788407; 3025725957; 1206448745; 2651781778]; [2610215077; 1839019046; 674632275; 2002809053]; [2165278598; 1149023585; 4178108650; 1255176152]; [2768385215; 1326859081; 4280479546; 953449800]; [2869588377; 1428597141; 710359519; 2446877404]; [547202348; 3138210489; 1737565976; 1667220671]; [2977078568; 620910527; 4166907298; 295185873]; [4239125125; 652399461; 3874642038; 4015236469]; [2024676859; 250470337; 1073102346; 2482069750]];
    [[2289333280; 2827657912; 1101625979; 878272221]; [2698549823; 1326515025; 2230570496; 494587509]; [1643313485; 3847275799; 333455588; 2811649271]; [1399688306; 1855590845; 3516306896; 650717781]; [1992601269; 2153198292; 3030884124; 2427429661]; [34698327; 3243161484; 1225061955; 2311031196]; [2464039649; 77673603; 4222585376; 2405811763]; [1225864681; 139895440; 648756388; 316297133]; [3655740901; 4184604441; 202314941; 2874746544]; [2613970218; 316342069; 2523718500; 3964709736]; [2817321384; 3009186208; 309805132; 1731352143]; [1293615757; 2171301589; 3256933596; 861443692]; [1986439194; 3741866406; 2861172096; 3632705361]; [2317238207; 3767690535; 2967251953; 3299711208]; [325553253; 2803746936; 1811812843; 2430337655]; [331430338; 299941404; 2940757360; 1318221667]; [4250080359; 4109485928; 3002979197; 2779625439]; [3980377839; 2243859954; 3412195740; 934002057]; [2174555670; 3260524911; 1800611491; 3251063819]; [4285807603; 1727358192; 308929696; 2804622372]; [96920164; 2766641437; 218143080; 1620277945]; [3811871173; 2119211308; 738883152; 2647484402]; [1877288761; 614949906; 1877823659; 1535368414]; [912304141; 3026014737; 2684094390; 1716156840]; [4095155449; 3688105271; 1039404142; 3597853553]];
    [[284487612; 3199251706; 3728115246; 1991597361]; [3467338920; 3800333073; 2158015921; 3780551614]; [633775396; 3670690086; 1288107470; 2738559798]; [2629454301; 415006035; 1033530847; 3878045815]; [3879383439; 2182256823; 4000606355; 3382081543]; [2978742085; 1606707287; 3252973454; 316293615]; [1923505747; 4127468061; 1355323648; 2064100178]; [1153310106; 3955257983; 501075992; 1010495307]; [809016663; 2544999650; 162417034; 740792787]; [3722953561; 2905898730; 2924217611; 365233302]; [1808318193; 72335206; 1718066475; 2337181733]; [3485907709; 797815311; 573168865; 3782924710]; [1620281735; 179290499; 1333878944; 3438631267]; [382641665; 1640694271; 4222874156; 4254363090]; [3565492973; 1370991751; 2539327537; 2357248182]; [1573808019; 3564610229; 3748937726; 3486192699]; [1951000730; 247041575; 3141364358; 1528289757]; [1113116111; 36607962; 749167922; 27146870]; [1347956211; 370613117; 974012032; 3083939198]; [2304817363; 2809950429; 447314857; 3005764268]; [1454911504; 282233921; 1537278049; 74708302]; [2916315276; 3657115638; 2574929827; 1956405015]; [4237659515; 546146682; 1336754859; 2787207187]; [566559218; 2007550454; 2536413994; 2281781823]; [2995900540; 151920470; 966314669; 1299308822]];
    [[2977324686; 2753436030; 3726982837; 1808061220]; [4143201809; 1220269311; 419830729; 4205378710]; [542981715; 966227586; 75537286; 3935676190]; [605738450; 358119320; 2940834103; 859780175]; [2302865066; 3663065676; 424825070; 1402223712]; [1432956615; 3636918929; 2831603652; 1573551046]; [1364242777; 1585092936; 532315261; 3741313316]; [4215704626; 2045524324; 594537098; 1681041237]; [2555944029; 1437416058; 881603045; 3804535543]; [199775988; 2962459309; 3643403622; 2304560390]; [3383162194; 1348501964; 1006581617; 3855680982]; [307266179; 3585978462; 3656858665; 2206406337]; [733971103; 2736607501; 3719080502; 1790697793]; [1021037050; 1549900590; 2007293481; 635258683]; [1083258887; 3927773855; 1388768669; 1073076]; [1492475430; 2741601842; 3562942922; 2377118755]; [437239092; 3557333665; 3243728189; 3467081947]; [2684176682; 2024166946; 3670433113; 633518423]; [786526876; 454067621; 504410334; 4171391726]; [2954289146; 2037621989; 3266210911; 2569268569]; [894017067; 171996015; 1606450314; 4278881917]; [3635501287; 1096833335; 4003767804; 1923248774]; [3291207844; 2136651478; 2135526134; 4169651466]; [2697751130; 219557447; 475765537; 1094290349]; [2995358577; 3613883389; 1959732049; 346657448]];
    [[1461059449; 20068213; 3196507538; 1379733925]; [690863808; 3535378776; 3585721489; 1382349621]; [2629663063; 3191085333; 1740633005; 1261577280]; [1518081973; 2889358981; 3693211680; 1020780077]; [3399778686; 2015132202; 3927516882; 2383398719]; [2161603718; 2302198149; 953893825; 781275562]; [194239684; 33642661; 1282234175; 3018752060]; [2624115904; 3710085145; 2023909973; 2683919709]; [1385940936; 2746141546; 3995267958; 1436283649]; [3783258426; 606819101; 3215611225; 1083877350]; [2009460089; 2068222873; 1644977002; 3016254010]; [1390935277; 1994389740; 111810283; 1848328168]; [2116415382; 2175178166; 807092383; 3365541794]; [593244653; 1669752802; 3213870965; 1832375075]; [3417812577; 431577834; 1712728078; 3473031985]; [2528459901; 2313274547; 110070023; 467385096]; [2152142626; 3270670597; 510360372; 2132896065]; [104112920; 3332892434; 572582209; 2023034537]; [2501430410; 1129395612; 16476898; 2604334445]; [2231727890; 2666556282; 2443202524; 2302608093]; [273824948; 2364829930; 3135491063; 4221995202]; [1402769465; 3961753774; 367142937; 194524674]; [3800621853; 488127558; 4074853222; 3870967158]; [908885991; 857952832; 4106342156; 1813476360]; [696820911; 289770733; 3236433705; 1875698197]];
    [[739033091; 2119236293; 4018376451; 1745827012]; [3430584542; 3216156978; 1502736731; 2874771529]; [1382554836; 2468524077; 3717650489; 4136818086]; [327318498; 935357358; 4117405940; 3185077988]; [3445039975; 2576014268; 3357161353; 3766377896]; [1661372361; 584329314; 242408967; 3937705230]; [721339738; 2536275153; 2923418918; 935767302]; [1901554648; 934151996; 501445033; 834439186]; [3892356858; 2328457236; 1243120831; 3801570242]; [1255534853; 1396129284; 219908325; 1477960931]; [3744679980; 1298510129; 3380196893; 526220833]; [304425832; 2498169264; 569196109; 1107520741]; [3927549204; 3763168751; 4084506672; 3504838231]; [3953373333; 2866869194; 676686300; 58161488]; [2705737273; 3114953816; 2502038261; 1996960743]; [1214055478; 147530462; 1390457171; 1249862740]; [2762536905; 1991003640; 2609528452; 1159076124]; [2237677928; 3688130256; 1829871719; 1810090260]; [3240932778; 3182704892; 1732252564; 2818221805]; [3966947781; 1885261017; 1720641268; 4279625577]; [3316807322; 1694271629; 4150517488; 862344113]; [4132539145; 456096661; 4212739325; 2042559023]; [1623099128; 2153223277; 593107085; 3171503540]; [2356039545; 1647797913; 2724306062; 2666078176]; [401287197; 4077139235; 929025393; 1683070277]];
    [[4027302645; 3886708214; 3653893364; 2576850317]; [4039379433; 1053144690; 4235193272; 711759241]; [2539404280; 802886395; 2824934939; 1088951952]; [144379868; 1160634881; 117430395; 4145744280]; [3366622445; 3398111379; 1194149065; 2280118306]; [3793327369; 1509922665; 1603365608; 1774692942]; [627304590; 2752091584; 3522752717; 599820219]; [3594435646; 1227851059; 1920629560; 2903102561]; [256864400; 3101379368; 1650927040; 1505455914]; [1244679588; 2227687487; 1145501676; 2231470917]; [1378316526; 1977429192; 526976864; 463927831]; [598659793; 2039651029; 316543251; 1402512492]; [2792278271; 437527872; 487870585; 4164313069]; [1780899953; 1566472389; 2459819016; 908629018]; [3251229919; 1150763845; 289513760; 1061047025]; [587458441; 2037910769; 19811240; 1470263568]; [2790538011; 1532485405; 82033077; 232088600]; [1015698653; 2751681640; 3190293462; 2629406090]; [2234769934; 1331962215; 1952653392; 1802597869]; [177279136; 36684705; 840537404; 564422901]; [4170520080; 867486877; 4080268362; 2161346745]; [3674020910; 4292545722; 3950625375; 913710685]; [1444446747; 1605043770; 134588850; 2165340696]; [1314803760; 1099618406; 122754662; 1385683963]; [615488322; 2796745022; 2364572957; 2514628480]];
    [[4260001394; 1814999277; 3825748531; 3754868328]; [2869690105; 2241704201; 2366637837; 2437518040]; [842932210; 1381256842; 517840392; 1689885139]; [3218977889; 1960925283; 3587244406; 4096663721]; [13973785; 346967938; 3935531800; 3790060674]; [3600699449; 644575385; 3591238357; 3258244204]; [3471056462; 3803515717; 3097112283; 1361129296]; [2883264553; 4131856067; 3940526141; 154978160]; [4012209070; 3679749815; 735522037; 532170871]; [2707470468; 1739532918; 1033129484; 3293971448]; [3641768880; 3103444248; 2809841364; 2087820312]; [3236546288; 199631598; 2304416000; 567898115]; [70523509; 3383017804; 3708182332; 3373556712]; [3585834072; 3445239641; 1920196390; 3656714275]; [2768486943; 3844995092; 1094145959; 2454346569]; [4057807350; 2606820124; 303189936; 930640942]; [1280053680; 741729048; 769509021; 2528645194]; [2741457452; 3148507630; 1431599555; 3723930453]; [2471754932; 3288809763; 797413948; 2490073813]; [3932623806; 2319549205; 5923027; 442044107]; [3152967073; 1814123841; 3348780912; 504265944]; [4040113997; 2111731288; 4122480542; 2569659077]; [2506947278; 4242930265; 3820219292; 3310799977]; [1680896847; 3131349175; 4107285239; 3405580544]; [431422589; 1139664221; 2574118520; 207533933]];
    [[1387969976; 1356481042; 1298253156; 3080629841]; [2596499757; 3564437307; 2223090476; 1510530516]; [3117239829; 730873783; 2649795400; 3907848006]; [2670798382; 112348971; 2936861347; 1608559615]; [143081874; 2858488753; 2999083184; 828902882]; [595273693; 939567136; 1817252968; 1213798505]; [657495530; 2488048563; 3278656740; 2020069236]; [3024080117; 2883485686; 234784557; 1005980588]; [1849196782; 1535646854; 2440237223; 3240675805]; [948555428; 3667380729; 1885004044; 3793070396]; [3183250645; 1732798317; 3345872918; 787423507]; [3076170398; 1317624671; 4041155018; 3184740997]; [3827307288; 2834838297; 4103376855; 3395135223]; [2215188141; 2508791025; 3597951491; 3088532176]; [1467555240; 1322619012; 4076882262; 401030224]; [2928959012; 1192441127; 4076347364; 2339829479]; [821535445; 2444071138; 1737667704; 1134213241]; [41878712; 4018922204; 4054729466; 1382297863]; [234909511; 2793358922; 2063044512; 1553625197]; [4227615557; 825994888; 2074586402; 3509912833]; [3851298282; 3232773470; 1518481091; 2891388021]; [3103665381; 1653213053; 3013948561; 721082765]; [2801939029; 2942533460; 1524104964; 1433318348]; [753909323; 529262877; 106551904; 3029484402]; [3425458182; 4044573440; 1567955676; 2339488941]]]].
