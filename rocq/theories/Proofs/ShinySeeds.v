(** For each number below 8192, a state whose next two rands, combined by exclusive or and divided by 8, give the number; its own rand
    has the nature of the PID they make, and the rand before is odd. Generated by a search; [ShinyProofs.v] checks every entry. *)
From Coq Require Import NArith List.
Import ListNotations.
Open Scope N_scope.

Definition shiny_seeds_0 : list N :=
  [715786; 205294; 172570; 324141; 185362; 1785707; 3745; 218086; 259883; 381408; 12818; 130773; 475414; 141036; 962851; 587568;
   208417; 335000; 150109; 291119; 629961; 68003; 22487; 315068; 1438984; 35279; 33791; 32156; 175693; 302276; 163497; 864234;
   357461; 433021; 325776; 328307; 316554; 1661; 140440; 747914; 399258; 44948; 13414; 294093; 345708; 30815; 615828; 237424;
   322653; 413536; 87341; 271781; 2478412; 117385; 506948; 121104; 672354; 155169; 109800; 248726; 90464; 604526; 919419; 120508;
   248581; 293646; 499216; 248130; 47032; 33789; 142075; 177630; 229388; 184323; 624901; 896509; 607502; 1230887; 66964; 1006877;
   132857; 378287; 56250; 361925; 210354; 21146; 24571; 206927; 76182; 691692; 216596; 421719; 270148; 119471; 88378; 2112;
   388544; 993489; 404318; 108167; 22632; 35875; 1150122; 647362; 85851; 54617; 307336; 324737; 196519; 171; 596343; 281450;
   134198; 1610634; 542793; 9844; 1082741; 1870936; 119469; 257799; 250214; 108312; 659562; 89425; 512604; 497875; 508885; 289033;
   484632; 790758; 13269; 779593; 886838; 766801; 1101179; 516166; 656135; 1589806; 142073; 140585; 134794; 259432; 22938; 469172;
   366083; 354926; 119018; 11781; 130628; 59677; 306742; 107861; 41521; 194580; 869890; 77221; 543099; 217635; 109349; 872111;
   19062; 588615; 221513; 312533; 120959; 14904; 128687; 371594; 26657; 346159; 652873; 139989; 602585; 1095388; 17572; 275208;
   378875; 71430; 402830; 68454; 1298264; 83914; 151742; 12963; 537733; 137609; 76633; 814705; 432570; 24120; 290668; 875681;
   81099; 142526; 360437; 1243981; 109802; 265394; 261824; 78719; 601989; 66513; 98047; 45995; 157986; 369961; 1016401; 2062514;
   383349; 152195; 583104; 290523; 399854; 1706126; 271330; 86890; 463661; 174654; 34240; 54166; 517799; 89876; 23083; 155620;
   384837; 1090022; 269697; 98192; 169143; 107716; 205890; 327568; 57740; 1072621; 280999; 145951; 238461; 328758; 43909; 258395;
   25024; 1266585; 381263; 492974; 100133; 565703; 689304; 319985; 115593; 161411; 292156; 111435; 854710; 217047; 3149; 36326;
   532393; 696756; 18331; 375021; 233546; 63531; 37947; 619706; 971618; 469623; 301374; 655684; 340791; 178957; 148037; 50739;
   1032900; 7027; 258981; 9536; 140134; 363252; 147441; 428996; 288582; 278913; 421411; 102521; 594402; 242935; 557828; 115591;
   15355; 372045; 58642; 393018; 201416; 343767; 114103; 966729; 105924; 178361; 1411157; 1798807; 131673; 903959; 1042289; 619110;
   275939; 179571; 28874; 1002707; 148317; 710275; 17121; 58918; 298398; 330248; 1573587; 60128; 753427; 101035; 168863; 1422910;
   797584; 946352; 81550; 341830; 95216; 933109; 157535; 61618; 265845; 39302; 884474; 394063; 244425; 280403; 1304957; 582202;
   100584; 146402; 398952; 1764593; 351670; 72755; 135074; 126470; 27998; 377385; 264780; 243213; 406404; 221964; 1107141; 115142;
   121410; 265990; 252008; 405194; 160960; 58191; 655406; 127346; 191153; 785690; 129726; 356559; 372496; 152644; 124982; 286816;
   1296327; 179994; 39157; 844753; 163948; 383800; 199926; 539221; 203353; 296910; 7903; 478841; 70391; 753705; 80064; 1240105;
   138819; 185813; 18782; 436448; 2440942; 189383; 220303; 497424; 51190; 112166; 73343; 279364; 320408; 37496; 462171; 12367;
   1110568; 753878; 366399; 403110; 661648; 957483; 535818; 613464; 69940; 60579; 1234314; 108763; 180022; 83634; 4196; 368620;
   160509; 563168; 82146; 45399; 15806; 18158; 188201; 106375; 343316; 1867086; 191604; 174203; 235179; 371596; 122725; 177910;
   245738; 399403; 1001537; 645872; 398807; 362829; 1518575; 243386; 619255; 41241; 109351; 362205; 491633; 376348; 242762; 715643;
   746281; 81522; 996465; 88829; 181655; 137013; 82001; 158572; 277572; 216145; 39753; 305532; 341379; 45544; 568959; 811278;
   148768; 289792; 103560; 131222; 689447; 39129; 88974; 505007; 383627; 329660; 193541; 392422; 249177; 364462; 39608; 224048;
   312984; 2563; 264184; 869294; 484036; 205014; 515435; 93132; 351074; 428545; 753733; 130177; 445946; 1566751; 221936; 420229;
   441643; 1048531; 386152; 924930; 75731; 52372; 102972; 264329; 222415; 221791; 584590; 470662; 355377; 43178; 162621; 351219].
Definition shiny_seeds_1 : list N :=
  [2141672; 710301; 576691; 93754; 622988; 532365; 237144; 124358; 1695438; 170804; 232644; 992172; 362350; 174374; 586360; 166751;
   87061; 163775; 212267; 51361; 9564; 581191; 179543; 1454732; 1008498; 1941; 622654; 272061; 436277; 54337; 316834; 121384;
   46861; 746001; 711936; 251090; 209144; 253470; 655378; 431108; 239337; 404743; 733358; 134623; 628751; 131051; 1047655; 1737831;
   478670; 1266865; 19231; 92230; 266296; 104462; 103387; 689475; 655712; 265368; 269272; 523590; 89254; 404147; 536269; 284704;
   30986; 608376; 113056; 142949; 592493; 528235; 560220; 202038; 332636; 336210; 72332; 66090; 81071; 152022; 588444; 325947;
   21317; 71853; 709852; 736928; 720530; 722199; 328732; 1050440; 456652; 155449; 689330; 425569; 565983; 1061490; 33366; 295863;
   469001; 556793; 2535; 247850; 234168; 560363; 700634; 109629; 368340; 783894; 98220; 140865; 499045; 32579; 236548; 1084058;
   772592; 20270; 275035; 290243; 549061; 398529; 953353; 75759; 357036; 754184; 548582; 705946; 383176; 1800716; 263733; 278462;
   622537; 124837; 50288; 265819; 1152961; 250043; 542819; 317285; 233095; 2102994; 408196; 307616; 420402; 664000; 427059; 132432;
   517970; 615657; 167202; 506813; 260056; 56079; 40619; 269723; 89705; 263282; 528233; 43883; 1602477; 582933; 78095; 2302721;
   284253; 61445; 161836; 436728; 238886; 723794; 146376; 731389; 292436; 448030; 92681; 506217; 286645; 524069; 404292; 104011;
   681401; 11157; 781705; 119298; 490423; 197842; 1161253; 130600; 223426; 227330; 1075436; 209595; 257491; 212718; 103983; 1006905;
   62069; 254066; 22912; 302250; 607925; 30535; 15075; 61590; 1899216; 383204; 18780; 244876; 377413; 386774; 145780; 647082;
   410137; 167826; 550551; 119642; 239085; 1391819; 242311; 382725; 253921; 373535; 286790; 643508; 619082; 1330229; 113507; 41692;
   281478; 12989; 29911; 544561; 190702; 125433; 176871; 469452; 32128; 479292; 236999; 56278; 30390; 20866; 140414; 473501;
   290215; 244397; 72928; 72304; 425597; 259712; 151571; 84085; 987672; 72783; 350009; 1785284; 367744; 5511; 338852; 1619878;
   1910941; 266270; 141064; 125260; 763096; 1511989; 45570; 218058; 571494; 3773; 371767; 218988; 395102; 580289; 670242; 92852;
   467205; 413564; 275659; 254092; 1126795; 445638; 1204719; 135245; 11302; 526852; 1075013; 83463; 223877; 404769; 87963; 264077;
   575400; 1152790; 2180914; 296485; 61896; 658660; 29488; 275937; 57152; 269244; 67137; 416073; 244703; 233266; 284732; 161385;
   190728; 602134; 24744; 322029; 1557561; 446568; 844924; 721577; 41797; 190873; 66541; 181484; 7732; 203182; 30084; 55628;
   62492; 156071; 201136; 1129773; 592916; 1350022; 280826; 118992; 287241; 646631; 103838; 146231; 428716; 374131; 291145; 186824;
   207406; 242339; 118847; 239959; 229217; 410109; 72477; 634119; 56729; 109774; 252179; 233121; 244848; 557999; 632669; 107265;
   95045; 238435; 440298; 715162; 20375; 742403; 50459; 248752; 320579; 86439; 414158; 1095839; 431559; 46410; 248273; 78123;
   1063854; 586503; 1252452; 330419; 104885; 270770; 179742; 35730; 271610; 449862; 1183297; 1582553; 15526; 120093; 9113; 238433;
   5962; 364567; 45119; 170353; 451908; 1428278; 1059354; 181760; 628924; 886866; 401344; 575255; 441617; 218537; 930550; 934120;
   136987; 88803; 757104; 844473; 1116927; 347341; 322174; 139963; 1434069; 119920; 3322; 547374; 115420; 988123; 140891; 377107;
   451312; 29939; 332465; 66686; 1058063; 574949; 574921; 488510; 212746; 310767; 392142; 580116; 902046; 565560; 722650; 99094;
   254543; 176144; 135696; 857273; 634091; 227926; 39328; 56701; 484010; 416524; 295412; 1246689; 11753; 62041; 850264; 131196;
   559769; 201164; 233093; 62520; 2018802; 611523; 160789; 1323536; 104289; 326398; 24148; 124811; 191324; 788394; 71881; 909579;
   742097; 1032592; 104434; 239363; 293032; 191179; 742576; 1239825; 15977; 17544; 58471; 320607; 1094911; 337805; 247679; 81721;
   128236; 301203; 284281; 233717; 715190; 77672; 595892; 794185; 622; 50910; 146827; 661477; 110080; 793706; 247824; 118396;
   363000; 270174; 87512; 127960; 853500; 585907; 311043; 18357; 233572; 229668; 343596; 276110; 41070; 715814; 628445; 110225].
Definition shiny_seeds_2 : list N :=
  [244451; 297776; 535619; 396840; 405393; 105672; 200125; 461098; 192985; 506614; 83435; 61644; 960062; 115341; 524240; 320237;
   254120; 613635; 275911; 145089; 603596; 47588; 49223; 522752; 1258072; 70643; 178333; 2136783; 733078; 191125; 39779; 427258;
   353331; 657291; 39554; 567749; 331986; 5791; 1466539; 322097; 170524; 395354; 49448; 28026; 232922; 1477247; 136761; 1230182;
   268102; 264158; 83211; 222586; 935221; 784544; 602106; 17093; 773017; 342029; 102773; 125008; 372073; 518143; 252630; 31226;
   222216; 690762; 472851; 3854; 1122122; 393268; 208973; 719465; 26166; 159367; 39409; 47511; 160338; 673429; 230318; 869999;
   159222; 210833; 7651; 457302; 190901; 1056376; 114302; 125234; 127094; 461919; 16948; 157958; 341578; 307815; 29740; 189041;
   277771; 273827; 513083; 1167044; 299713; 600022; 73542; 10851; 613490; 123667; 103586; 179372; 224076; 149179; 7279; 543947;
   212547; 580315; 285354; 813247; 490622; 1618112; 70870; 632007; 666815; 156911; 546327; 870142; 50938; 516508; 70645; 61870;
   213368; 356758; 231208; 404942; 233969; 51162; 29073; 377359; 470910; 78745; 189411; 598310; 138847; 121583; 194552; 30561;
   932316; 586783; 387028; 1043950; 373706; 9365; 711737; 363451; 981710; 618911; 716265; 396175; 46021; 385316; 303657; 407546;
   11225; 254346; 796523; 13893; 158185; 19034; 61789; 731073; 320156; 19404; 347897; 75109; 155421; 207036; 274864; 642858;
   27799; 126949; 1219476; 367690; 319198; 60831; 252405; 63730; 237315; 1630981; 1107314; 652901; 180644; 492775; 72729; 414015;
   297109; 435437; 329382; 387253; 288477; 9139; 754355; 24599; 117425; 167176; 98391; 105670; 1037; 298146; 1133877; 1253171;
   318523; 430909; 146430; 82623; 351471; 741257; 242510; 167031; 77924; 1625019; 286166; 134903; 150149; 199900; 230983; 471284;
   101871; 117280; 558450; 202211; 165090; 415648; 321509; 532192; 1089543; 119497; 232841; 1371047; 266018; 566182; 115114; 321723;
   323664; 234782; 88352; 757835; 48176; 111914; 338228; 115339; 613716; 103812; 348271; 114969; 323889; 28703; 92880; 269443;
   249592; 205266; 151941; 292635; 18889; 269524; 397742; 22459; 199223; 109828; 65297; 14705; 410534; 96905; 531463; 1255255;
   1590285; 248104; 227727; 799724; 84113; 516365; 315096; 883467; 143668; 275009; 130149; 227503; 239309; 75840; 142272; 813390;
   177431; 411704; 141902; 424496; 674092; 184071; 142274; 388967; 334378; 133479; 216848; 583132; 337948; 1069844; 742828; 885177;
   164363; 35901; 13666; 19259; 408675; 706145; 594511; 122246; 726077; 340233; 44920; 151996; 534717; 325748; 44696; 46609;
   1280972; 22461; 107915; 206305; 959623; 153854; 128516; 615576; 284452; 345456; 248102; 34268; 662858; 130519; 56449; 119721;
   423; 486321; 247065; 249962; 10706; 782156; 1706098; 413735; 237225; 100105; 392539; 187474; 692532; 842560; 14479; 100330;
   104488; 376175; 34041; 117782; 712415; 1914791; 2670119; 312956; 218708; 74070; 34043; 309756; 608124; 11952; 131395; 24319;
   20894; 160269; 529657; 163324; 190313; 42836; 489891; 613492; 630358; 290722; 901396; 1415458; 281927; 66487; 34413; 141235;
   37468; 50260; 1386425; 98444; 366733; 324936; 77843; 77871; 459531; 724976; 140241; 1142642; 368592; 1063602; 614886; 4224;
   259684; 291534; 578974; 339718; 227582; 421890; 28701; 12991; 259460; 220275; 205493; 6612; 1441692; 281251; 573089; 233067;
   757782; 1215228; 118821; 35080; 41269; 719322; 49078; 169703; 430685; 27801; 625074; 239083; 272260; 452774; 504528; 340088;
   912978; 661676; 434336; 147614; 187271; 451; 22686; 306714; 86862; 684135; 1036949; 358671; 940561; 439676; 275685; 366480;
   738444; 120707; 54418; 256869; 1593034; 355268; 118327; 145329; 722370; 152817; 364941; 64258; 172461; 161663; 182134; 168891;
   801438; 183701; 534505; 609161; 16046; 657373; 235658; 148289; 195283; 169036; 1123368; 890744; 368366; 148514; 71682; 616998;
   208693; 437151; 291904; 196698; 416550; 98299; 1038582; 232255; 135046; 62691; 599357; 85295; 89453; 76210; 296062; 2084;
   56530; 79410; 740011; 259605; 438109; 322824; 134901; 354753; 217887; 328506; 487860; 218736; 474566; 318296; 290946; 52851].
Definition shiny_seeds_3 : list N :=
  [106546; 116735; 257745; 58390; 596623; 1309222; 269496; 19233; 501129; 868603; 296233; 3031575; 143174; 413816; 605362; 27972;
   116215; 107066; 23733; 222306; 1058289; 1948638; 332862; 693605; 148343; 65269; 461972; 301402; 26260; 401543; 339889; 152843;
   150055; 172290; 189212; 377186; 959078; 142246; 744660; 50991; 323863; 1000464; 231009; 28902; 790029; 330220; 482349; 288834;
   47682; 717926; 1097446; 442410; 412366; 816618; 396894; 250864; 216876; 400613; 393439; 130493; 655487; 118595; 408422; 1349011;
   249004; 810404; 44108; 930892; 437910; 174004; 86691; 583940; 575201; 141090; 316757; 356811; 10905; 662514; 130348; 53516;
   79955; 657345; 236323; 2322989; 489376; 13694; 355097; 271358; 163551; 617115; 314897; 974433; 303486; 369933; 739491; 353237;
   709598; 83264; 252431; 811451; 110001; 502989; 28900; 435238; 1302488; 267412; 807879; 211707; 143176; 323636; 230489; 45822;
   725878; 148488; 83382; 204193; 170430; 506298; 286564; 386855; 556684; 180473; 380121; 325577; 672183; 94793; 792524; 1236;
   1093872; 32327; 1367302; 80511; 185785; 29687; 119668; 380613; 229442; 558251; 563420; 1938742; 302475; 1328117; 34214; 69104;
   267557; 22658; 153629; 109999; 254291; 554681; 12619; 70842; 107211; 199954; 546872; 142101; 395301; 346131; 149910; 297947;
   66314; 158157; 531318; 1108708; 292806; 257600; 151770; 270571; 1610833; 261170; 734617; 205465; 175892; 219747; 39580; 958522;
   115168; 785384; 96360; 100304; 100332; 115140; 909327; 296115; 48347; 365777; 749015; 704311; 70816; 88551; 108141; 7478;
   1696286; 275713; 1082091; 365578; 1122466; 17292; 858560; 128488; 207207; 585655; 5620; 1464653; 282592; 811334; 2311; 346330;
   117226; 24400; 87764; 200099; 319397; 465399; 1160665; 796269; 490449; 5885; 279167; 275858; 261544; 362124; 98246; 838934;
   105499; 34069; 88577; 17147; 244622; 177459; 492535; 109973; 271384; 292780; 465773; 521478; 697406; 665154; 256033; 360266;
   75983; 637347; 425488; 294373; 544931; 247931; 248076; 1222984; 1740141; 39381; 24545; 136735; 1291515; 69249; 59957; 402180;
   58362; 69741; 157110; 296205; 287466; 106574; 19205; 164919; 735746; 339917; 70671; 248978; 740915; 76156; 344417; 430856;
   1847947; 232896; 1092305; 1086820; 386883; 470273; 251358; 241169; 1045023; 100159; 17959; 12790; 1543839; 389059; 237396; 966449;
   229587; 806977; 328335; 905725; 234756; 842506; 883783; 190114; 37667; 4053; 286538; 185614; 94992; 7623; 120480; 672382;
   1227830; 1087286; 296260; 489720; 318350; 163523; 161610; 282966; 30787; 281053; 937799; 345084; 469027; 204392; 24374; 21065;
   137808; 36127; 134875; 49249; 121581; 176672; 281198; 183900; 761290; 225814; 1960192; 87593; 404995; 304388; 408621; 533376;
   351499; 266044; 390656; 72584; 489575; 232056; 263985; 1099039; 313183; 398781; 385487; 875508; 77753; 2283; 636827; 259631;
   201867; 480782; 375301; 463860; 74444; 696476; 244594; 393413; 297975; 19060; 884303; 105473; 388914; 113308; 269471; 301545;
   267091; 12792; 178532; 1403149; 470739; 783642; 518079; 215974; 96531; 168692; 50089; 81323; 175105; 1001366; 200766; 962879;
   190954; 239138; 654359; 603795; 860473; 290920; 370452; 380641; 116414; 693804; 259776; 237251; 998378; 284505; 833596; 108113;
   94819; 59929; 349757; 235829; 496774; 158183; 1086965; 1645547; 420030; 323662; 734645; 68202; 195454; 27827; 76011; 368537;
   393441; 1061742; 957537; 432598; 16245; 360264; 221141; 447633; 1210; 737460; 630440; 160070; 474367; 53050; 739812; 414863;
   43007; 92933; 131566; 286393; 828399; 487689; 326304; 196672; 53022; 131421; 318467; 415821; 378261; 214407; 34242; 611632;
   667014; 89624; 49277; 125848; 445747; 313155; 41440; 580370; 224247; 801637; 398753; 273998; 133308; 940760; 1642905; 1065515;
   303315; 537731; 1248322; 343690; 31600; 577061; 489547; 252; 449317; 405023; 179344; 356839; 811477; 4025; 588643; 304882;
   307843; 136733; 324765; 220474; 657319; 495817; 54589; 631979; 275740; 591255; 13865; 81351; 491434; 366679; 101234; 894318;
   554653; 91191; 266016; 64632; 366534; 398608; 761407; 44749; 582228; 122075; 210634; 118766; 495962; 563448; 18132; 13720].
Definition shiny_seeds_4 : list N :=
  [193915; 151969; 444550; 431758; 1285553; 1081029; 129657; 55880; 727909; 508808; 339239; 334776; 197485; 314844; 24346; 193171;
   174430; 669154; 498991; 281080; 251330; 107196; 33419; 422089; 609360; 45318; 66143; 997435; 734752; 933921; 24347; 1366173;
   259659; 274387; 53501; 616944; 399033; 522047; 1425967; 173833; 69119; 290747; 151968; 2482; 195255; 510148; 657997; 496612;
   776844; 356640; 109575; 263083; 207154; 248951; 110172; 792167; 357237; 98273; 128317; 889444; 1885; 109576; 1069872; 293723;
   2045641; 445296; 25687; 194805; 564882; 192425; 24943; 583624; 651159; 628698; 163271; 119099; 484262; 992375; 422835; 88750;
   545; 358870; 205664; 793507; 574406; 1147223; 127573; 401118; 208494; 130998; 227528; 68080; 134717; 87114; 13044; 185732;
   22260; 291344; 973929; 75957; 40258; 260110; 1048450; 228125; 965455; 66739; 242112; 1135763; 411676; 1224418; 22262; 216226;
   313805; 419408; 235857; 650562; 250586; 670494; 44721; 951468; 58561; 862519; 85481; 10958; 133973; 62719; 1252677; 324367;
   537957; 431307; 129950; 707684; 377015; 1240330; 402460; 203579; 238236; 247905; 498540; 152420; 20920; 1475505; 55429; 33870;
   15129; 329128; 65098; 110623; 19432; 294174; 192720; 3972; 155395; 21516; 88153; 133082; 495564; 113746; 306966; 694445;
   148542; 584671; 877847; 304587; 379245; 537958; 275433; 68824; 411225; 59307; 868030; 5312; 652499; 630784; 205067; 195843;
   20772; 657546; 187673; 173391; 20176; 124159; 715867; 315733; 259062; 699343; 233636; 87565; 113002; 293430; 360067; 478163;
   41598; 73871; 102444; 1419430; 943447; 1177562; 118648; 176965; 42342; 239735; 1268896; 1451410; 301455; 288212; 54841; 227529;
   516536; 60051; 763600; 390562; 154053; 35807; 402909; 331349; 62268; 245819; 386829; 1200166; 838; 131594; 597164; 145581;
   100358; 554771; 910415; 787703; 336860; 36551; 835306; 782355; 2249116; 156883; 107491; 127120; 965162; 165355; 108235; 265169;
   216677; 156139; 171454; 172343; 501076; 328388; 103188; 158356; 692359; 111660; 381038; 790533; 94; 882909; 1085494; 25394;
   101405; 244795; 225737; 463580; 74910; 633614; 193013; 200153; 42930; 286592; 61988; 284212; 1355918; 14092; 72530; 524584;
   160735; 406165; 407800; 19725; 59012; 265620; 1170732; 838881; 406629; 676007; 653694; 93502; 85323; 126245; 124610; 760345;
   1456750; 181561; 273799; 21809; 288676; 100809; 1128935; 754821; 90992; 9312; 557458; 18555; 310393; 168042; 59758; 82813;
   16176; 233176; 51109; 591056; 15580; 95881; 18556; 450061; 143202; 1008301; 16751; 74164; 456904; 17346; 494688; 797214;
   1174150; 1390555; 472056; 41147; 613066; 253271; 102151; 56928; 70166; 80434; 244793; 189464; 223954; 67191; 525753; 244198;
   405419; 372271; 327048; 64352; 121780; 2241097; 16749; 356189; 223824; 139764; 73127; 969929; 27773; 392646; 1956979; 427136;
   336567; 2171020; 598509; 121782; 447977; 1109877; 286591; 37720; 1628418; 93953; 449597; 30734; 459116; 134704; 103784; 156590;
   139762; 883358; 37722; 601339; 740714; 363917; 8273; 575453; 313796; 566210; 60181; 283616; 27307; 247159; 515659; 157760;
   149008; 58097; 39978; 269045; 383402; 525007; 136337; 817467; 2219675; 528605; 493027; 1086091; 518620; 7533; 88162; 194208;
   360942; 122819; 450634; 115512; 270969; 469850; 104235; 299807; 1083115; 220397; 157309; 881725; 657120; 11409; 617237; 171003;
   37002; 146032; 242988; 133958; 496161; 488433; 19006; 236601; 13919; 585257; 524411; 577087; 211175; 90541; 346967; 327621;
   592863; 482614; 402458; 844817; 405592; 271557; 495284; 45769; 106745; 446040; 353810; 138595; 624965; 173382; 146628; 37590;
   179173; 631808; 675116; 770452; 1207297; 490821; 537081; 836625; 491858; 632868; 609640; 741898; 127586; 497649; 975269; 2000860;
   96332; 144516; 231261; 545833; 313354; 255926; 368845; 79983; 659057; 125649; 360065; 1022857; 160139; 112536; 38759; 258611;
   228576; 75506; 72531; 188868; 292383; 428175; 194804; 1187545; 42808; 321830; 869069; 21967; 69570; 289422; 2933; 250135;
   308456; 157759; 3521; 610982; 1058262; 893001; 66740; 1116728; 154929; 331815; 305626; 221566; 56160; 268008; 130547; 929458].
Definition shiny_seeds_5 : list N :=
  [53221; 537534; 40429; 90370; 148715; 45598; 117479; 91114; 932117; 236028; 1119238; 315718; 543298; 624847; 300286; 177683;
   713796; 4395; 313525; 789657; 438731; 318694; 171920; 756933; 525300; 540508; 724059; 12873; 85201; 835879; 380572; 894224;
   440700; 519537; 193635; 7704; 830116; 78918; 130123; 1326180; 917429; 339519; 606850; 47977; 936431; 175304; 318097; 1258908;
   112085; 111196; 321112; 542701; 190512; 3799; 774334; 948663; 714540; 273177; 67614; 280204; 85945; 666644; 114915; 723315;
   115394; 336689; 99483; 1906546; 148118; 331520; 54711; 1010954; 521876; 21796; 1591653; 19007; 154333; 777015; 585135; 148713;
   127293; 327170; 77022; 745030; 31799; 294296; 455388; 157308; 869944; 292554; 648198; 562674; 110745; 334350; 172516; 97104;
   555940; 46194; 97848; 414637; 459702; 137556; 334947; 192891; 303116; 106322; 683712; 214606; 1714666; 1286763; 1400847; 163442;
   106320; 120309; 109747; 953088; 597444; 20054; 252206; 151543; 95018; 1860726; 176794; 169541; 345509; 27151; 537650; 526230;
   85652; 321524; 13613; 45147; 740092; 210886; 178134; 162702; 847476; 227954; 1529480; 411505; 90663; 533774; 117930; 868896;
   261914; 362577; 1677919; 402924; 271091; 120905; 392764; 139935; 351300; 347991; 152140; 207577; 185561; 151545; 148236; 7822;
   460153; 1217738; 131169; 383403; 272179; 834137; 1411527; 333899; 277346; 280655; 89372; 508235; 1098150; 650391; 3348; 381913;
   168493; 157931; 220527; 425796; 557909; 355020; 546128; 504331; 25223; 587767; 513282; 36380; 324538; 515488; 990009; 111489;
   725057; 600302; 1031211; 432476; 719121; 189915; 199105; 465200; 1226039; 607446; 321708; 22089; 22433; 516707; 76832; 327909;
   203154; 18384; 19603; 596993; 127744; 234688; 531688; 21345; 153882; 542250; 531093; 246708; 747861; 105274; 873370; 418239;
   193184; 87394; 301626; 630359; 69993; 24770; 613237; 294003; 240943; 507012; 1159990; 251755; 151092; 691042; 137105; 182600;
   16298; 16922; 28079; 605469; 405714; 360491; 594312; 224993; 27600; 601046; 412448; 360941; 456626; 836623; 135886; 184124;
   630955; 42186; 39806; 345960; 130429; 13162; 136509; 1156563; 1970402; 306543; 225867; 521758; 43060; 129499; 1336860; 489350;
   222614; 342651; 312306; 363028; 325135; 1008470; 220104; 408674; 657544; 80154; 136508; 220568; 351724; 267664; 390733; 884063;
   474142; 476652; 225271; 986584; 456160; 163749; 253442; 515939; 1013639; 71041; 183474; 166129; 197363; 78760; 70446; 39807;
   121356; 199727; 327514; 123866; 189293; 1848823; 403375; 27908; 37893; 163153; 328559; 33988; 636122; 37297; 513575; 75784;
   30563; 639882; 333728; 76381; 99934; 680285; 696382; 381489; 570060; 337777; 150921; 16005; 117132; 31957; 28648; 324539;
   394262; 79690; 108528; 154970; 202237; 806607; 1352068; 693073; 105698; 21638; 145288; 120906; 863092; 145752; 246693; 369762;
   615747; 303713; 278968; 216344; 528434; 504502; 710474; 609811; 139018; 58719; 214764; 16471; 1004566; 96161; 348936; 142327;
   175477; 417788; 219653; 204445; 63608; 49024; 408846; 1005045; 457075; 723144; 102895; 18835; 713159; 134129; 19430; 22739;
   489773; 85494; 660374; 133678; 39039; 90821; 2364; 42637; 584049; 479482; 265791; 480077; 4846; 82984; 396947; 131168;
   1434; 653523; 845097; 744434; 976586; 315267; 354554; 7226; 36846; 1153602; 162052; 103361; 538580; 447380; 124317; 1277545;
   707992; 553165; 193342; 70444; 154055; 7225; 118526; 349387; 988095; 314671; 498074; 79211; 537361; 324656; 166580; 43233;
   154504; 34467; 235735; 626878; 91285; 585443; 1235152; 202703; 389632; 386656; 996266; 208043; 639431; 552062; 1768; 762895;
   427177; 28197; 472400; 27602; 194633; 738179; 73420; 60010; 149164; 658168; 681345; 609984; 242817; 196897; 211004; 1097872;
   111662; 64059; 124332; 326877; 500904; 323916; 990460; 31506; 19881; 1342200; 455681; 24772; 954482; 359894; 1055726; 408078;
   213834; 216795; 572439; 58268; 105871; 97555; 453199; 10186; 564123; 214313; 365830; 1726740; 452720; 813589; 339068; 362855;
   202688; 343117; 920507; 618460; 21811; 13495; 1646584; 687136; 528885; 495113; 246242; 146203; 582003; 37761; 482443; 293845].
Definition shiny_seeds_6 : list N :=
  [372669; 1280384; 481699; 599133; 708163; 396468; 146205; 534875; 1163694; 837273; 30110; 81947; 277175; 28250; 8914; 25871;
   4675; 148065; 91764; 169261; 1574825; 299636; 50487; 48851; 234038; 601512; 167401; 354447; 589614; 416326; 112365; 26392;
   233294; 169780; 851777; 264979; 116829; 624567; 375048; 416845; 278515; 94143; 525580; 1368963; 116085; 1495988; 113706; 395949;
   192241; 350208; 113705; 275315; 233519; 1755773; 1410240; 94368; 290414; 233518; 503639; 148063; 750704; 318974; 84032; 383005;
   4449; 181683; 419526; 1057864; 1044626; 168440; 440127; 46767; 869772; 1576165; 1747594; 166060; 506839; 70273; 851551; 351247;
   394384; 26910; 147026; 298597; 742521; 316887; 28252; 913429; 318747; 9735; 600766; 266839; 25050; 328786; 48627; 122404;
   416099; 395951; 1145699; 504981; 778225; 332730; 210236; 384865; 374822; 115790; 621367; 115565; 793616; 6535; 28477; 18953;
   1079062; 547002; 145979; 722665; 362404; 82172; 755764; 7054; 624794; 257320; 209717; 460803; 1323521; 235378; 321058; 329833;
   52798; 100982; 377954; 770854; 75333; 555769; 601285; 507585; 212624; 461549; 1012416; 916856; 1861376; 199674; 251809; 1280677;
   115792; 144638; 253668; 64474; 117650; 294946; 16578; 79861; 24825; 186435; 235605; 34864; 428517; 112658; 419752; 244902;
   197070; 63955; 253149; 300457; 80605; 492031; 236945; 72954; 17386; 80900; 299939; 531448; 867688; 421610; 852598; 14263;
   395431; 372443; 124783; 286989; 139591; 72133; 8102; 49899; 197814; 247281; 147838; 144119; 406802; 626654; 776365; 27429;
   118169; 166353; 467710; 257027; 975376; 366057; 1614537; 398330; 139072; 300976; 104182; 574523; 861070; 235152; 284903; 632231;
   729585; 122697; 263707; 1253915; 254716; 940138; 30336; 342480; 752044; 1096756; 516057; 450991; 158929; 48920; 600473; 282686;
   1078241; 393864; 384572; 112139; 269218; 1891208; 1192844; 123216; 95710; 840926; 231658; 6828; 31903; 232246; 438267; 374529;
   415278; 456851; 1011604; 231727; 281703; 573540; 349160; 39860; 777932; 330126; 320834; 295465; 149405; 48332; 919297; 738576;
   15821; 98895; 77420; 160494; 37017; 486691; 343301; 181095; 238046; 1212398; 68997; 999173; 262087; 242285; 15300; 57618;
   368141; 246469; 55239; 141677; 528488; 121077; 107318; 455510; 282222; 180871; 284082; 366282; 516589; 109178; 182955; 248328;
   41720; 592745; 391477; 413138; 122472; 339637; 798608; 691493; 102615; 129779; 349680; 1573254; 326345; 327738; 166873; 19485;
   12046; 228766; 119736; 204725; 198107; 347076; 152591; 401462; 10836; 13442; 161533; 281942; 197589; 348286; 369535; 303884;
   549910; 97275; 35848; 229867; 387704; 14782; 1488; 199449; 766854; 914242; 44099; 260281; 117876; 399431; 386137; 1355042;
   949661; 16642; 554373; 677974; 36196; 31213; 98842; 63142; 367917; 528541; 455974; 258421; 134595; 218655; 13215; 552118;
   841444; 283507; 487264; 230333; 672923; 121303; 704736; 566101; 10481; 977236; 412899; 33816; 164269; 509150; 889867; 176685;
   101050; 227131; 23949; 76434; 37243; 552515; 34638; 154226; 451511; 367451; 11582; 67082; 73700; 429569; 616322; 1510274;
   1644897; 183303; 205717; 297325; 121425; 188295; 114518; 236479; 10015; 450170; 531914; 214484; 238859; 251289; 119045; 151490;
   52278; 959993; 334297; 43287; 2278764; 31677; 1279283; 133028; 1146575; 348113; 1732730; 119046; 612376; 480132; 63888; 637969;
   103893; 238858; 306316; 707806; 394903; 875934; 371566; 903617; 51588; 681625; 1507886; 140119; 521929; 529535; 489123; 67430;
   145104; 322918; 230092; 15473; 110279; 269750; 142723; 211284; 186901; 589387; 77473; 443327; 650509; 22910; 712334; 142499;
   453370; 278051; 315321; 216624; 1148831; 79040; 33817; 95244; 410759; 7875; 92283; 30856; 622934; 852132; 13216; 312360;
   1900727; 444604; 119270; 457898; 208323; 666364; 224527; 324087; 1483859; 47060; 96811; 9442; 115845; 616149; 883531; 145459;
   864432; 607673; 1208625; 117652; 263480; 62321; 552342; 772194; 451737; 955001; 56051; 176343; 1161610; 226094; 215057; 128740;
   89083; 1757925; 1714; 245128; 166300; 65521; 29289; 253669; 10255; 506894; 1437468; 126643; 352068; 1029018; 454937; 132216].
Definition shiny_seeds_7 : list N :=
  [26856; 236772; 241941; 558730; 10308; 772365; 375923; 295117; 24997; 68653; 743397; 166007; 115619; 112310; 867859; 290469;
   560590; 207284; 745776; 565759; 378302; 7929; 256629; 292329; 293257; 443900; 23137; 83341; 148939; 24996; 322227; 447209;
   261093; 114691; 234914; 257149; 485472; 239562; 1376342; 105283; 980423; 1374076; 117998; 92454; 302665; 66793; 412552; 92974;
   916685; 238632; 253840; 231605; 505034; 78692; 621314; 505035; 365884; 381092; 317578; 416270; 22207; 70513; 295636; 651212;
   169314; 307535; 567843; 17743; 446170; 272882; 536788; 362575; 31730; 399204; 129897; 2762; 497371; 277121; 215350; 7001;
   52400; 545382; 849227; 487037; 130827; 586251; 40204; 133732; 1057693; 46938; 589560; 112829; 171174; 538648; 28305; 480303;
   548691; 297496; 109522; 184522; 271835; 166526; 172741; 465322; 150799; 414412; 398157; 339000; 1606634; 386376; 351191; 1163523;
   379642; 1549630; 97623; 322747; 31211; 369189; 300805; 27376; 83861; 540734; 353981; 46419; 833090; 151318; 112831; 12168;
   651849; 258196; 117186; 31732; 1212691; 104236; 326693; 340340; 164440; 296684; 483730; 1127237; 68360; 53672; 631062; 992614;
   228178; 28423; 371568; 406458; 639829; 62439; 48680; 76607; 638091; 21570; 279616; 108885; 26563; 856596; 157533; 138197;
   288383; 512288; 156193; 3574; 223651; 602504; 114396; 33590; 26044; 423006; 45371; 38118; 1088748; 869601; 155675; 419697;
   805568; 283855; 216397; 61220; 85427; 742349; 269047; 321005; 389564; 231898; 1408737; 834656; 228179; 281649; 542594; 235207;
   121130; 53967; 616027; 86240; 810855; 137678; 478443; 1832; 303937; 300628; 962426; 191551; 90075; 729756; 152366; 667465;
   218484; 124439; 407971; 117821; 266961; 450117; 50658; 75094; 110452; 9789; 430259; 649872; 361529; 503812; 548980; 170881;
   372791; 2041045; 251980; 990872; 874593; 81774; 188761; 123920; 1410479; 518793; 177615; 250242; 4622; 20122; 18609; 119272;
   5141; 537308; 477924; 255289; 7931; 192070; 1007301; 369482; 307246; 187023; 11875; 233465; 245246; 147892; 1166655; 144583;
   159620; 1133452; 16230; 197643; 16695; 201882; 284956; 20469; 73181; 33763; 607844; 155846; 423177; 498647; 338653; 376564;
   512406; 64181; 641571; 507237; 426486; 100755; 162873; 31384; 245073; 35157; 555598; 60408; 466833; 370001; 119217; 122526;
   571270; 144412; 157706; 345680; 314446; 159619; 227077; 391772; 304403; 33297; 199503; 1062221; 1627302; 408899; 300164; 80263;
   545726; 40031; 161015; 357579; 678611; 311137; 188590; 698522; 35677; 1543; 402165; 492550; 824378; 305797; 34691; 64647;
   1254607; 757330; 616320; 38930; 126299; 526627; 362919; 137385; 531968; 1234113; 129260; 79333; 41891; 45200; 351020; 487210;
   971193; 1500980; 628219; 91642; 95415; 143018; 610687; 366228; 208616; 161013; 493944; 399376; 284028; 136284; 1241313; 368088;
   1121549; 16696; 265567; 544159; 139243; 57099; 829663; 217964; 1068373; 528659; 140638; 754077; 54138; 57447; 326174; 139245;
   347247; 745603; 135818; 1417038; 255582; 142552; 302024; 1197656; 197936; 245539; 577367; 453541; 9962; 183421; 186730; 844871;
   960513; 2325674; 369364; 332559; 421146; 510374; 58841; 239733; 149752; 118171; 280601; 327567; 154279; 728360; 241648; 116256;
   194858; 1793159; 557629; 959119; 20642; 632922; 169432; 155673; 36724; 481870; 883360; 478561; 492377; 50540; 1360087; 1205320;
   486862; 1064252; 13735; 98724; 181854; 11355; 633387; 1349928; 669669; 377665; 290296; 1138792; 189691; 1152086; 412845; 163974;
   123163; 30337; 789084; 876453; 331165; 185163; 675184; 65692; 271488; 66911; 659684; 70220; 1054557; 221737; 321180; 39103;
   406111; 938278; 360888; 1017810; 144585; 363849; 1195; 123338; 980889; 719014; 178081; 181390; 51759; 395778; 226265; 347594;
   530518; 356360; 127866; 47231; 234566; 1785961; 40497; 404544; 260109; 1110172; 589731; 435428; 52107; 48798; 525061; 45489;
   73993; 26390; 532085; 450115; 137212; 362630; 275261; 150506; 349278; 151319; 776312; 681106; 1173391; 1540863; 174772; 545089;
   614926; 904782; 366055; 78521; 492029; 15302; 279789; 233347; 22036; 304055; 310673; 307364; 266495; 260922; 661368; 748737].
Definition shiny_seeds_8 : list N :=
  [154572; 529855; 63689; 359691; 121848; 21743; 561389; 96264; 323397; 2238784; 391374; 63540; 641860; 12074; 154423; 326967;
   661941; 802951; 118129; 583850; 1126917; 680683; 487462; 616574; 411157; 176884; 551571; 1082144; 1361190; 368913; 423949; 89720;
   144756; 466491; 500105; 143415; 701803; 402233; 214366; 326371; 207673; 139696; 454738; 250960; 31410; 31559; 541902; 856795;
   241142; 615829; 551720; 627582; 165280; 196965; 151449; 679342; 620144; 300936; 454142; 315363; 304655; 1676232; 679938; 53871;
   155913; 65769; 887886; 66220; 20402; 573142; 498472; 110095; 631301; 422608; 97754; 45837; 347938; 33045; 42718; 348087;
   101473; 444920; 55361; 165131; 10584; 627876; 75293; 819607; 123785; 322056; 1652281; 142819; 219426; 23376; 15499; 36470;
   111142; 759962; 433767; 202613; 465001; 791196; 700313; 403574; 238168; 1029790; 224925; 118874; 915; 10439; 974154; 835824;
   75438; 228644; 182532; 86595; 198306; 1188344; 381556; 291863; 65179; 96413; 636800; 230585; 10733; 36619; 445069; 32900;
   16244; 1168263; 593662; 607207; 638741; 375751; 825267; 574483; 208720; 365339; 246045; 834340; 25317; 347499; 192944; 118274;
   9988; 368313; 73352; 150998; 135538; 230436; 305106; 67710; 199051; 314775; 188192; 851735; 410855; 757290; 243228; 241593;
   31108; 188043; 466793; 251262; 1162621; 187153; 359548; 434218; 363267; 176741; 112632; 293949; 380066; 4197; 588910; 369058;
   585191; 195324; 487913; 245300; 1345428; 322946; 12525; 240254; 229546; 21290; 960170; 268355; 31704; 4491; 128092; 123934;
   46739; 4793; 49119; 251556; 79463; 155025; 1570922; 33496; 1581636; 418438; 936219; 293353; 110546; 370705; 97303; 374424;
   10282; 566900; 460831; 615084; 100877; 145356; 540269; 557082; 1083183; 1061475; 129725; 740038; 283535; 262564; 498170; 81843;
   684402; 281743; 734378; 331719; 145207; 206634; 626680; 975205; 116188; 152939; 160816; 91512; 609293; 52530; 299144; 278024;
   289326; 164241; 118423; 208575; 214217; 228048; 54910; 25619; 872855; 509178; 434069; 108605; 389735; 1135245; 102963; 283684;
   95511; 867515; 792845; 327869; 62787; 231036; 253348; 1123635; 25768; 664478; 166778; 384373; 690044; 581033; 439409; 124516;
   459210; 647651; 536856; 245594; 1345134; 317606; 353584; 117972; 208426; 1689777; 439278; 503983; 1361776; 137904; 295741; 27534;
   15950; 732586; 622085; 1477816; 153390; 112934; 263015; 158450; 85693; 385434; 39287; 90622; 53118; 341257; 273429; 826888;
   1172741; 38411; 145807; 2849987; 166033; 9537; 175851; 1001087; 722768; 1387527; 187604; 48229; 589641; 68161; 10133; 84803;
   389433; 293804; 450437; 17585; 836132; 406999; 299740; 232377; 4942; 681865; 49570; 110997; 396122; 422008; 145487; 123640;
   213766; 1702994; 69651; 353729; 502046; 787622; 321154; 180740; 1436299; 572240; 348840; 174361; 116933; 544890; 257347; 274770;
   562422; 5073; 653470; 94766; 1511114; 91963; 406856; 283986; 1226265; 27403; 73221; 1222107; 558852; 243959; 333209; 528808;
   40777; 1514539; 728416; 101781; 604815; 277573; 316265; 990804; 471853; 363547; 718322; 311336; 150547; 416948; 137028; 648396;
   1056723; 438958; 947098; 80353; 394781; 278769; 188323; 390774; 2684130; 648251; 573581; 411608; 764263; 520043; 546231; 144611;
   304204; 629668; 25168; 272978; 224766; 74562; 738828; 770082; 127216; 149232; 448776; 197416; 709106; 47778; 134356; 95962;
   978324; 16524; 733037; 268951; 207975; 309995; 310023; 47909; 450568; 534621; 1011950; 841937; 37960; 541014; 199796; 507837;
   456679; 42118; 226558; 664027; 861841; 706849; 53569; 1140160; 90171; 170922; 600075; 26219; 346597; 181191; 627425; 466040;
   544439; 232828; 450409; 964485; 450888; 123189; 589067; 1301545; 213635; 660000; 252007; 669673; 679034; 5393; 274742; 103545;
   149363; 1407745; 348244; 492802; 351792; 633216; 177192; 11184; 36778; 84352; 363998; 991124; 342598; 926127; 113385; 465452;
   931918; 417268; 311787; 111593; 330966; 159791; 358207; 354049; 91935; 173034; 904677; 1532391; 86144; 182983; 1012814; 494594;
   756839; 614037; 101753; 1457721; 134197; 1064880; 536987; 30508; 487011; 1142097; 1256903; 42583; 155154; 215427; 78561; 267159].
Definition shiny_seeds_9 : list N :=
  [143695; 140906; 220596; 530320; 32620; 6255; 108182; 482573; 37789; 182703; 408052; 304786; 225096; 365659; 680403; 616294;
   411026; 1066062; 2805631; 262989; 101302; 272656; 304935; 230265; 96133; 766377; 401768; 673523; 492; 386336; 407307; 266893;
   108776; 327396; 310474; 422739; 63409; 142950; 3210402; 175823; 150573; 33365; 14583; 820817; 475880; 344539; 808174; 246216;
   58760; 299766; 7185; 845471; 524781; 445200; 760093; 224500; 47458; 58615; 670734; 122128; 551291; 3281; 617635; 288013;
   469890; 107292; 514518; 278344; 11649; 69023; 186982; 106841; 75307; 646789; 7745; 730049; 197390; 386630; 250640; 1032299;
   164521; 26630; 727075; 24107; 84380; 149685; 119935; 697325; 1393489; 1437070; 242018; 101008; 365365; 112604; 547838; 245922;
   75162; 421398; 311815; 143401; 577882; 80182; 638010; 323117; 503359; 143550; 1226702; 1378905; 267187; 574352; 64448; 218510;
   147599; 1066392; 488378; 304484; 277867; 127667; 398685; 585614; 41987; 1098671; 28156; 1425619; 1141062; 544268; 551891; 121528;
   191893; 1152338; 215878; 34958; 95060; 266414; 1425768; 169581; 374700; 616745; 359417; 299315; 1479902; 482122; 407601; 433938;
   400572; 224794; 128118; 182252; 116508; 491791; 25597; 365208; 796987; 121677; 397932; 6734; 133575; 793268; 211974; 671185;
   341708; 853992; 1311782; 62958; 75464; 46568; 963275; 385885; 100851; 787942; 1362255; 104755; 106217; 175372; 2926149; 329927;
   148610; 262538; 10562; 1483778; 164070; 256896; 29167; 287534; 21914; 33071; 380243; 96584; 576835; 182401; 141357; 969531;
   206463; 14466; 112763; 915836; 75758; 18036; 251091; 245620; 778875; 241567; 13987; 193383; 470341; 464721; 193532; 21769;
   834765; 289620; 14132; 242046; 25742; 122273; 64899; 774971; 245141; 431997; 322666; 112912; 283960; 27705; 502948; 428278;
   293524; 943; 717249; 310446; 52969; 422288; 235925; 137479; 12245; 127639; 515114; 401810; 73926; 1231351; 658939; 1227632;
   196794; 834457; 439729; 1051780; 353278; 191776; 21461; 874963; 70098; 31533; 77351; 69474; 239829; 413112; 187872; 81255;
   622365; 48080; 359719; 617196; 362508; 932089; 268780; 448947; 6283; 1377858; 434389; 230887; 176912; 754302; 728587; 85973;
   767279; 132735; 317326; 889696; 273149; 43580; 256751; 494314; 625339; 310577; 86772; 47949; 170032; 250783; 1531511; 144317;
   26978; 230756; 188494; 17865; 412764; 1554252; 686194; 293975; 272553; 371301; 520309; 268649; 90473; 144782; 53899; 5222;
   27254; 604644; 209916; 582946; 182675; 247809; 413098; 101924; 336368; 610783; 1012840; 1188173; 69371; 331868; 242469; 127770;
   204097; 158279; 653641; 1307165; 379444; 64551; 550059; 289751; 788250; 236096; 187898; 69502; 27574; 165753; 162183; 121822;
   74391; 26193; 290071; 370822; 85133; 745509; 113083; 427976; 599795; 27109; 59662; 604499; 149061; 248157; 453822; 448351;
   703116; 728456; 239030; 160788; 149337; 188945; 658488; 95682; 42740; 515140; 230291; 12696; 662392; 496507; 8792; 194313;
   74814; 985641; 272684; 285196; 1654393; 185041; 72011; 392127; 1249622; 167072; 476782; 272205; 115886; 48400; 106799; 155476;
   170483; 215125; 3452; 931610; 143997; 224617; 172863; 263309; 396017; 80502; 38240; 712360; 5832; 1066364; 183154; 47601;
   475085; 365961; 177363; 11623; 164692; 9243; 225547; 278620; 53420; 530771; 526867; 262091; 593382; 402563; 224951; 138075;
   1040081; 156537; 284411; 80633; 74711; 143866; 231207; 344060; 209437; 296806; 414014; 367848; 458191; 439238; 481500; 371752;
   766232; 256300; 536562; 65350; 21318; 59211; 86424; 766828; 500584; 332464; 980287; 325455; 26658; 15062; 114144; 895632;
   920159; 20374; 604992; 107743; 14438; 203646; 2069496; 1629560; 32594; 1812367; 1184065; 910667; 107264; 155941; 562251; 65002;
   149657; 508262; 213486; 781863; 332929; 1050733; 433447; 143721; 69051; 637066; 781384; 236547; 1703882; 284731; 509800; 163619;
   346426; 32449; 685743; 278940; 409645; 273004; 236678; 479613; 524952; 198334; 433316; 631609; 159352; 323568; 391054; 15527;
   350330; 396148; 74363; 475709; 42289; 538928; 161732; 107395; 1072503; 985134; 360170; 589216; 74842; 113534; 194285; 525576].
Definition shiny_seeds_10 : list N :=
  [717980; 611925; 311535; 138991; 1184146; 95483; 29366; 609545; 139140; 80832; 134157; 126868; 278290; 263788; 601587; 82691;
   309675; 6905; 556740; 322467; 1121152; 265498; 441241; 84551; 560459; 407253; 1810362; 93624; 501035; 105152; 37324; 352217;
   751300; 633866; 450910; 717235; 127613; 15978; 840993; 19327; 383082; 155277; 188522; 544691; 27506; 729358; 3120135; 144345;
   41788; 1129110; 39035; 1249519; 180712; 169410; 427777; 728839; 669045; 978433; 101582; 132816; 331097; 69303; 200644; 492482;
   28025; 323288; 92585; 589834; 148290; 597792; 83730; 242366; 234264; 1065222; 365085; 112735; 414985; 289300; 610435; 70124;
   625538; 57699; 113999; 15753; 138621; 1172993; 242217; 41639; 224595; 591693; 365379; 79491; 794957; 387546; 5421; 824776;
   190832; 122923; 525129; 968909; 245791; 19178; 354077; 621962; 47881; 171270; 295767; 1296006; 258434; 1391047; 472332; 201985;
   718801; 115046; 524316; 168371; 318228; 1693005; 373933; 170751; 14267; 351766; 198785; 59410; 287959; 178853; 610290; 202279;
   154902; 160043; 337858; 449863; 438930; 16272; 289674; 127468; 64921; 25420; 632670; 289525; 21413; 6603; 407108; 208227;
   842559; 37988; 299343; 65070; 460722; 800017; 525657; 238059; 998284; 35089; 274345; 124864; 27280; 1104935; 310275; 482587;
   191420; 124715; 184364; 1000143; 170231; 406363; 225936; 6084; 116536; 828801; 72210; 600103; 699383; 353038; 305730; 979254;
   69967; 91313; 759177; 145233; 954256; 208746; 236124; 13667; 1017769; 155051; 247877; 1624500; 470540; 878990; 143524; 91538;
   578311; 64249; 828946; 3998; 878845; 589983; 732415; 374754; 407027; 691506; 226455; 740368; 91683; 154677; 311096; 247358;
   37694; 818826; 326625; 101501; 287733; 106348; 194033; 69822; 266537; 37549; 162648; 956342; 278064; 29447; 1356915; 18515;
   160337; 67511; 277915; 156988; 223556; 916035; 513006; 279856; 149035; 115858; 1832303; 266243; 123811; 40749; 629920; 430390;
   277545; 734418; 749733; 37400; 212254; 513151; 284308; 160562; 397358; 141528; 220795; 106867; 37175; 520959; 152460; 730699;
   133255; 34507; 793310; 121876; 1506690; 141808; 519099; 32648; 175052; 304683; 553403; 217314; 1158423; 1007726; 215455; 187844;
   261491; 370651; 456105; 357859; 545130; 67881; 1135442; 22365; 9072; 477302; 1016668; 1298448; 663679; 1263; 350050; 229641;
   272630; 47800; 402261; 261251; 1006016; 10242; 132085; 155196; 94301; 585533; 55109; 153950; 918647; 926975; 594735; 149711;
   476132; 498367; 213744; 294495; 139668; 534941; 422117; 1189657; 518; 1491538; 86492; 167243; 52729; 172172; 995973; 294865;
   1286866; 594975; 509377; 84483; 145008; 107594; 326105; 660799; 1115786; 630530; 974776; 883837; 165902; 348709; 856529; 91832;
   712785; 380094; 433870; 596076; 536282; 128289; 758130; 170457; 149856; 31307; 497677; 46089; 111833; 203926; 269299; 12273;
   449118; 1115067; 21995; 21119; 53; 325058; 889642; 358179; 2555195; 118103; 118328; 507517; 1201041; 68401; 1629347; 107093;
   1177588; 14412; 1362652; 237916; 138327; 974406; 332663; 770054; 1482095; 444298; 327315; 727937; 114676; 771743; 104105; 498724;
   207474; 454567; 108633; 17025; 58069; 150895; 541211; 1305675; 241341; 224301; 344710; 272485; 595345; 21264; 669949; 479333;
   177083; 20428; 240876; 524904; 272950; 192692; 38890; 360319; 304335; 752790; 88031; 391704; 31082; 621737; 317127; 452680;
   369084; 75492; 375129; 84461; 286912; 336437; 222654; 583502; 442957; 359890; 177512; 615350; 356320; 136468; 240506; 845841;
   1076832; 230688; 658542; 241464; 90143; 161903; 531516; 2802; 539099; 194114; 24667; 22685; 494942; 1650688; 375499; 158702;
   99641; 36299; 246071; 17613; 76674; 209266; 583596; 270693; 219106; 255911; 236877; 877595; 26459; 207844; 571775; 372894;
   84831; 228924; 492337; 69222; 353701; 580171; 392886; 716333; 138007; 89823; 348737; 429488; 116440; 5045; 123668; 155742;
   484754; 246681; 44230; 577580; 610155; 1482067; 290721; 600315; 1382282; 109706; 192322; 46117; 619349; 245723; 54070; 153630;
   36647; 407929; 338549; 173513; 660334; 400121; 325284; 487490; 426738; 306475; 134676; 775394; 536508; 655951; 423683; 843729].
Definition shiny_seeds_11 : list N :=
  [471231; 370159; 423484; 282474; 164891; 1045051; 279685; 718445; 104687; 815278; 237888; 96878; 508008; 350078; 504289; 552966;
   496481; 284185; 192521; 123614; 57870; 15924; 819778; 1580124; 11424; 63039; 764742; 187352; 56011; 449664; 247557; 30760;
   271877; 1359199; 242537; 819927; 489602; 393734; 87245; 299541; 21093; 17784; 284334; 403628; 114875; 382206; 384995; 662221;
   62890; 160391; 55081; 245846; 21612; 508528; 277716; 351937; 10904; 186833; 182333; 40948; 198731; 433117; 179024; 220966;
   496255; 134847; 145036; 884330; 41468; 10385; 722426; 371500; 571892; 124133; 188693; 139867; 74643; 140016; 192002; 446239;
   194005; 213013; 97953; 361831; 38159; 274291; 525856; 341338; 101672; 43034; 487516; 926244; 223755; 306795; 221115; 104981;
   722569; 101527; 130867; 76503; 42515; 526005; 390164; 9338; 95312; 511024; 326796; 20573; 308136; 123469; 326945; 113945;
   378753; 65823; 289354; 123988; 747820; 425050; 751245; 480755; 924158; 177164; 60250; 368710; 91484; 375328; 488153; 326651;
   912487; 252869; 103613; 111859; 15779; 195974; 67682; 551400; 160536; 294666; 498196; 158676; 1483955; 110492; 872056; 229935;
   703937; 61843; 198586; 996518; 331787; 1077297; 64605; 548063; 654070; 9857; 17666; 647452; 249299; 424120; 663562; 86172;
   25967; 287788; 422437; 166977; 97023; 674413; 906018; 557060; 838560; 906046; 208774; 171653; 150348; 456427; 37523; 79143;
   404996; 106922; 497822; 32846; 25448; 383922; 103094; 680484; 841869; 235802; 268979; 786575; 1824030; 148980; 507865; 165554;
   235947; 1015007; 269791; 256697; 31279; 184193; 166832; 173711; 186080; 526641; 130055; 10761; 133281; 407347; 130375; 262763;
   42541; 106664; 358898; 385515; 1254710; 293154; 4143; 1077098; 10413; 56797; 668608; 97172; 442929; 230490; 49769; 788051;
   79292; 578921; 129856; 239604; 302823; 232576; 251385; 16073; 896377; 127969; 24026; 69768; 410507; 374253; 878642; 878791;
   236295; 356518; 1059882; 120016; 825321; 145062; 364620; 293299; 319916; 418754; 19498; 1573534; 2080880; 717434; 301107; 372312;
   606784; 380320; 513205; 788141; 383574; 234290; 745879; 425836; 336608; 1483579; 286072; 22979; 30788; 608178; 243029; 14241;
   62137; 4517; 205786; 145527; 380265; 213595; 876904; 418957; 608643; 31253; 192028; 116762; 256322; 23908; 417097; 153336;
   435559; 14186; 724777; 477821; 439129; 154731; 247583; 348190; 2045442; 971152; 67362; 358233; 10932; 776298; 253217; 711164;
   843900; 73050; 316436; 893826; 203406; 192493; 250892; 1028477; 196993; 365113; 963343; 389262; 239775; 411409; 108434; 110347;
   96852; 403745; 536337; 94472; 89652; 927959; 316116; 131914; 224; 37201; 577409; 744; 497993; 308163; 401742; 269005;
   460551; 313647; 1381058; 5592; 277279; 125035; 148461; 125356; 395472; 1517104; 42370; 1293894; 86343; 627276; 546525; 720887;
   331268; 297654; 991323; 25939; 1131868; 39061; 212665; 1480154; 149562; 213915; 363253; 65968; 2482343; 365256; 275884; 304854;
   799258; 599904; 1619625; 221868; 190634; 1700376; 22514; 112207; 84632; 648581; 369960; 627479; 965983; 269150; 139722; 172001;
   1359493; 111422; 242243; 63238; 63210; 22166; 599556; 1051554; 459011; 19526; 424297; 332689; 153191; 549950; 17174; 385605;
   426937; 69393; 276204; 1033789; 2599551; 32819; 315389; 81003; 1532111; 465891; 200446; 610209; 111887; 160071; 24518; 336956;
   192173; 769563; 793016; 215626; 36128; 51628; 321776; 280732; 57550; 143496; 374980; 146109; 234435; 127039; 627131; 49741;
   5564; 600514; 487661; 465426; 105007; 218935; 2222211; 306276; 655780; 78390; 342878; 390335; 1798486; 514278; 581764; 17639;
   86663; 219255; 44401; 171071; 1637941; 358378; 128809; 664053; 849240; 359800; 84660; 311616; 259979; 442786; 498923; 5244;
   410015; 321456; 300354; 758301; 180911; 47710; 622284; 309846; 440899; 269470; 272779; 529458; 127387; 895537; 7944; 255712;
   300006; 240357; 1075703; 363225; 84312; 450594; 187181; 99812; 1857815; 570182; 658741; 165411; 116734; 97925; 456051; 949381;
   89972; 258092; 24866; 580022; 499271; 1089926; 71163; 57898; 1328957; 754876; 294694; 207325; 1713845; 246017; 227208; 146457].
Definition shiny_seeds_12 : list N :=
  [164761; 1873541; 162381; 833220; 11554; 119989; 55731; 370624; 122964; 20032; 1395178; 284054; 248356; 1668273; 75812; 20627;
   283310; 281675; 498395; 78787; 1105720; 393085; 13933; 575891; 1783252; 247611; 43088; 183502; 367649; 34015; 98124; 1125057;
   304136; 120585; 23006; 229615; 166101; 705003; 454368; 398884; 184843; 121329; 12299; 368394; 282714; 843928; 35649; 1960260;
   608616; 79532; 64804; 326597; 746800; 431907; 279590; 143045; 463141; 76702; 12593; 323767; 240917; 570832; 627952; 45467;
   163420; 54390; 1576644; 365564; 74322; 99613; 414506; 25092; 346227; 369283; 564733; 44429; 799155; 227236; 118950; 101993;
   451538; 281969; 77152; 218456; 144386; 1167893; 99163; 313954; 735348; 15274; 131887; 278250; 73727; 250441; 62868; 327937;
   10214; 350398; 152858; 445439; 228274; 145130; 845123; 258913; 198825; 455709; 1363492; 36100; 40407; 96783; 496761; 1068531;
   185881; 2631; 78493; 33270; 436967; 236452; 404688; 205813; 291493; 280931; 253416; 553580; 715267; 261888; 119244; 629587;
   11103; 602066; 1780422; 553882; 505977; 464031; 88004; 415847; 145726; 923215; 270811; 55280; 1979303; 265020; 7384; 771942;
   94102; 79238; 588540; 1742; 124010; 123415; 97822; 142751; 548370; 371075; 1144091; 238831; 30589; 46514; 65850; 34308;
   72982; 708429; 302344; 274838; 549409; 256828; 349359; 23457; 147798; 84284; 22713; 121036; 9763; 151517; 286140; 66288;
   31929; 2344163; 668703; 15725; 19581; 386684; 238087; 76701; 533800; 251781; 882299; 259951; 870264; 233040; 285846; 140215;
   41003; 291782; 12895; 151223; 674214; 103039; 118499; 108975; 854191; 992519; 686713; 1191995; 491407; 490663; 244049; 1005469;
   575002; 533056; 623200; 298625; 115074; 278543; 699492; 230359; 166552; 31185; 214736; 522196; 25543; 647281; 227235; 779525;
   352320; 118793; 725079; 1143942; 10507; 164016; 254462; 262339; 52011; 516685; 236150; 753187; 46808; 280335; 161041; 380893;
   156734; 1089652; 1011274; 142007; 452878; 1196748; 44428; 217116; 681202; 145432; 100503; 144837; 115818; 92031; 461350; 953860;
   212945; 1080127; 103915; 505247; 319465; 743369; 72400; 146177; 254742; 504782; 145712; 277668; 116112; 297004; 27628; 544069;
   78944; 1166101; 146308; 155250; 870861; 726876; 377160; 126376; 1054692; 5763; 168172; 386233; 286722; 49940; 852399; 111223;
   132194; 254611; 179051; 644622; 226928; 504186; 27759; 692053; 212814; 665872; 112857; 2234109; 479811; 46220; 377755; 48599;
   298174; 435039; 452571; 1164932; 143798; 157629; 1117925; 268725; 67936; 418808; 914148; 215324; 916657; 502272; 536630; 387573;
   150772; 104954; 102574; 211776; 53939; 320806; 1592569; 709476; 382684; 137534; 29099; 382233; 345776; 356784; 343397; 28504;
   1197335; 295664; 18686; 186634; 869520; 950271; 747847; 828598; 34616; 1185144; 28969; 413617; 1412127; 51560; 118197; 6802;
   24798; 70021; 194353; 787847; 772222; 319596; 257572; 244650; 827127; 522647; 316635; 987604; 276033; 49768; 321379; 108379;
   591802; 328984; 97371; 731471; 110772; 309647; 483360; 160590; 361858; 648621; 1509425; 442609; 366602; 146750; 409735; 299965;
   415382; 116563; 8593; 1031957; 100954; 2172216; 299835; 213396; 27177; 184391; 348019; 75361; 416005; 457049; 209984; 342228;
   65543; 2377483; 375964; 448283; 16894; 233198; 215775; 2329299; 408995; 357380; 441440; 1217711; 1520584; 1755443; 537799; 775074;
   336409; 86971; 71362; 581854; 287760; 507612; 1731642; 646830; 207605; 29565; 610264; 466410; 372989; 952519; 489028; 143347;
   764038; 2911; 839332; 371820; 61378; 81152; 385064; 234367; 1526970; 112406; 378808; 535420; 38781; 920083; 93822; 174573;
   459436; 618565; 162969; 368990; 102123; 847502; 13346; 51429; 215797; 892283; 99162; 183222; 393960; 478020; 189013; 321257;
   435627; 32395; 284930; 330153; 497794; 60209; 621990; 189144; 191974; 276629; 201335; 417043; 451831; 584075; 77153; 59730;
   752311; 275591; 643281; 494964; 630038; 849890; 425809; 196001; 159421; 532459; 92784; 8724; 324805; 757064; 104953; 839455;
   656800; 403655; 438588; 32968; 186183; 141410; 374781; 1742795; 796496; 168760; 50391; 30138; 454088; 234236; 468202; 1145152].
Definition shiny_seeds_13 : list N :=
  [880651; 223385; 162251; 721085; 847927; 97993; 633586; 367370; 38904; 1967864; 675383; 491832; 1516981; 228554; 303856; 492576;
   671664; 714391; 515037; 884555; 35929; 278421; 264252; 94274; 253989; 204644; 259084; 127148; 135737; 139046; 14064; 17373;
   351567; 199250; 306646; 21837; 515967; 1064798; 363650; 186012; 37269; 231528; 264849; 576172; 1499319; 156563; 82042; 17933;
   36525; 468481; 110601; 82041; 341189; 250161; 189731; 202265; 1420148; 78322; 366773; 557430; 262469; 156857; 129527; 475059;
   57351; 509828; 340259; 115989; 160761; 657866; 1485747; 15103; 74192; 282885; 327021; 651582; 391171; 198654; 456173; 34890;
   919216; 280055; 390534; 203605; 468482; 774185; 183673; 761063; 118368; 123839; 252950; 158382; 613396; 157787; 276151; 558770;
   117624; 315164; 162847; 346398; 20203; 740237; 339370; 489746; 1360689; 328068; 28675; 162210; 180843; 971870; 199701; 758233;
   638939; 61549; 881874; 1354550; 15847; 342679; 109152; 76873; 196871; 72851; 285675; 372244; 983767; 435757; 226066; 69542;
   178162; 848378; 1112586; 446609; 52770; 274995; 39355; 412593; 277970; 229786; 103464; 791251; 235577; 437247; 121500; 1816298;
   268274; 1071533; 449918; 1462; 43259; 94567; 977367; 174853; 1147941; 82492; 532631; 10043; 10638; 460181; 1037571; 114649;
   587023; 154027; 102868; 70472; 854020; 816276; 7253; 573341; 274661; 49050; 25263; 106773; 752762; 67457; 112564; 109255;
   249868; 433419; 280506; 145261; 277374; 392913; 3944; 157042; 795155; 265300; 976744; 333859; 274065; 430589; 201786; 205095;
   198956; 148262; 166683; 31014; 651131; 205984; 115245; 692635; 15554; 19458; 770773; 323595; 651479; 21940; 344019; 331069;
   436380; 374623; 18979; 699663; 79662; 94273; 34439; 247782; 247303; 298796; 996717; 109603; 731936; 118075; 151052; 422807;
   377932; 2027479; 12724; 4292; 289696; 22288; 13468; 28224; 181294; 61071; 64380; 85453; 25249; 419846; 211775; 31054;
   296833; 1056203; 286271; 371942; 293005; 139790; 238258; 195125; 133056; 19752; 124290; 16443; 409618; 930229; 251610; 421809;
   175201; 260376; 274544; 257401; 399006; 444578; 87832; 357209; 133999; 666338; 1161063; 804968; 624076; 91737; 1913; 626455;
   51389; 46090; 541410; 762575; 360518; 937908; 1508680; 441269; 802458; 312437; 116987; 180090; 271290; 400401; 621566; 705626;
   10056; 539420; 974352; 166259; 276458; 34787; 1100209; 196173; 861322; 82664; 1103184; 257997; 148091; 30883; 660054; 114477;
   314816; 1447361; 483531; 1060921; 1056032; 478642; 112113; 748019; 243309; 358008; 354699; 270639; 1114; 4423; 43710; 234065;
   198203; 22884; 239884; 1094869; 644902; 739239; 28053; 327369; 239405; 420776; 253122; 417467; 67340; 111634; 375205; 56598;
   154375; 340607; 236575; 109905; 378035; 295384; 872774; 31478; 603104; 25714; 462690; 477843; 250319; 481152; 199407; 172023;
   255952; 681025; 13017; 365858; 1636150; 183051; 750398; 145883; 501527; 142922; 616226; 132605; 330898; 85002; 961709; 384319;
   1163893; 232918; 328690; 217594; 749761; 98991; 53768; 48879; 255036; 1570723; 621115; 382405; 111982; 708005; 810308; 729557;
   42609; 492283; 129978; 180672; 399922; 351738; 311986; 393535; 177232; 261292; 626906; 40127; 88311; 219625; 709878; 306994;
   575124; 45918; 96612; 357557; 438308; 405741; 270188; 1013188; 1565; 630810; 543441; 4874; 393071; 494793; 587330; 534080;
   1190204; 462691; 211324; 612814; 618736; 55902; 456769; 231235; 1174704; 475216; 124187; 36818; 351869; 435929; 360039; 188842;
   624527; 549232; 636601; 267213; 147175; 423258; 315295; 1613567; 1074665; 387280; 594804; 753359; 2047103; 153431; 211947; 789337;
   597764; 741749; 552541; 378979; 336238; 2553335; 735813; 291015; 196172; 465651; 114492; 773562; 607009; 2200666; 369734; 285674;
   871032; 237026; 77324; 29140; 916937; 203994; 1037468; 1306817; 51258; 737105; 594934; 1831031; 243760; 288635; 333408; 432968;
   366309; 120413; 525431; 1280055; 501992; 615775; 1097248; 528406; 180541; 923337; 54219; 724217; 303685; 453794; 51737; 387745;
   249696; 282249; 408223; 483517; 934251; 1208665; 328067; 282844; 390575; 306515; 222455; 1122849; 664423; 71533; 177711; 755101].
Definition shiny_seeds_14 : list N :=
  [69899; 138396; 8765; 364860; 1422807; 37919; 136016; 159592; 795327; 62759; 450314; 16723; 14863; 155353; 515687; 60900;
   190011; 104556; 60380; 245566; 182053; 740291; 221246; 1185261; 180193; 1241860; 18583; 881301; 223106; 221471; 290563; 1250859;
   658037; 116455; 577566; 634461; 688676; 124413; 72278; 191871; 405912; 948759; 136017; 590804; 245047; 19102; 387916; 38438;
   517547; 720436; 38439; 2201411; 698494; 447710; 101952; 155872; 64100; 644799; 60899; 289223; 622857; 16204; 409857; 19923;
   740810; 708537; 820988; 125978; 950619; 124119; 1030788; 71984; 761713; 247651; 242961; 156392; 42384; 221765; 284759; 493452;
   14118; 61721; 199304; 82321; 1207496; 884726; 450089; 300827; 559570; 133931; 219905; 407478; 1088947; 18808; 135791; 70418;
   362774; 36579; 1022829; 247132; 211433; 81802; 429939; 524980; 1423629; 265128; 547441; 62240; 560089; 67813; 135497; 2082343;
   341059; 1768114; 610954; 37098; 404572; 448748; 40298; 59040; 288184; 344259; 6165; 201615; 90274; 122553; 1866738; 310126;
   90793; 83142; 269073; 864870; 70192; 191577; 24676; 1066261; 972041; 159299; 256950; 18289; 70712; 22008; 199823; 134450;
   984164; 223037; 659603; 650892; 424428; 17016; 221539; 675212; 202955; 125459; 242140; 1848742; 175503; 1356983; 39486; 106123;
   245340; 781042; 409338; 35238; 580992; 295316; 136310; 872829; 86041; 383150; 716784; 478123; 197444; 690022; 136085; 25195;
   127838; 69673; 136829; 154826; 6454; 105604; 374903; 244528; 935290; 255090; 72797; 16429; 35013; 292874; 409564; 16497;
   286325; 113028; 869172; 59108; 656109; 158251; 610886; 975227; 118020; 276801; 40524; 109323; 1068053; 740517; 103518; 295835;
   503558; 50048; 114595; 1751164; 159818; 61419; 515168; 446369; 382856; 70711; 39711; 404052; 22234; 241915; 792126; 3254;
   119646; 340539; 388142; 104037; 149260; 680723; 839729; 956712; 287363; 452174; 40005; 404346; 551092; 1139519; 157732; 93994;
   223625; 176022; 268848; 507215; 202436; 106642; 157507; 629695; 112284; 497397; 157213; 40230; 497172; 950551; 394303; 112509;
   1146430; 660704; 130280; 1341825; 272034; 172542; 723567; 259911; 272499; 618907; 359868; 329449; 112803; 540760; 151346; 54048;
   209636; 234940; 588711; 371246; 894996; 1137077; 173062; 149486; 127026; 382924; 715963; 193663; 8476; 271754; 397146; 90862;
   1179750; 22590; 270120; 292355; 227858; 253293; 353489; 89002; 1633; 25488; 3253; 87313; 713358; 47430; 379724; 357489;
   271809; 142178; 177061; 19855; 378329; 356094; 1287665; 216944; 1255161; 543960; 131264; 631329; 5633; 152221; 554053; 119366;
   238141; 704005; 1517848; 206435; 459901; 258742; 898196; 953580; 519338; 628368; 13536; 1742453; 293; 587673; 500304; 1202676;
   293456; 34137; 151120; 208295; 174682; 832823; 129924; 724737; 8251; 864351; 152911; 336888; 628950; 371021; 65201; 1525801;
   131025; 45864; 152686; 107463; 977606; 194832; 669353; 1394; 27055; 141302; 604793; 293231; 377291; 443928; 45051; 237319;
   73330; 108858; 655130; 23403; 335718; 540070; 423087; 21489; 475162; 71231; 88654; 4594; 363293; 971576; 193143; 1049018;
   349079; 717994; 625168; 215906; 588363; 478710; 798753; 678344; 927919; 312265; 1539270; 476851; 453740; 33099; 919618; 35478;
   1388443; 201096; 1331268; 140837; 719388; 97645; 2215; 104263; 266469; 324340; 492933; 444749; 99271; 92653; 493158; 409098;
   68852; 307513; 246667; 67060; 446889; 359520; 87661; 907187; 1419327; 204296; 1733448; 124706; 468550; 266694; 868125; 612746;
   823128; 83662; 129459; 222284; 272855; 291664; 129458; 297695; 622564; 442136; 136838; 203475; 42090; 155647; 177882; 402712;
   517307; 480502; 350871; 1658858; 105084; 679513; 59861; 56900; 747369; 724736; 760612; 234715; 51908; 186531; 454792; 242668;
   609785; 564562; 498273; 862320; 126498; 123537; 201095; 171721; 530717; 288704; 312505; 228445; 176713; 195522; 666734; 496706;
   399751; 20668; 129698; 174921; 182874; 42438; 23629; 510573; 357728; 206436; 889547; 72052; 902195; 309305; 137876; 267863;
   131846; 543496; 45638; 646590; 426513; 105432; 471736; 18063; 26829; 772339; 53700; 543721; 287891; 1031478; 390760; 490320].
Definition shiny_seeds_15 : list N :=
  [197615; 907016; 103162; 784413; 23286; 73153; 246961; 848671; 368114; 104092; 2329128; 248820; 98923; 160987; 241792; 735588;
   903707; 510054; 424599; 967221; 75532; 552781; 243652; 45747; 12019; 1338228; 1091163; 960192; 199475; 22356; 658091; 80701;
   962571; 280281; 71813; 1517726; 37044; 553711; 429767; 78841; 100783; 119709; 674864; 97474; 490197; 7555; 857671; 287309;
   198135; 153959; 1210457; 493506; 40059; 1033338; 1150027; 611125; 1181487; 509124; 205163; 30016; 303445; 1064572; 483463; 1060853;
   411252; 43778; 166381; 1568412; 134396; 303965; 349188; 36750; 312853; 345879; 226585; 404224; 121158; 219557; 577512; 970235;
   531995; 44298; 163072; 357141; 494847; 82150; 369338; 530546; 41399; 109896; 99334; 102643; 1025790; 169690; 55040; 757529;
   1186655; 1355069; 8594; 237847; 1098417; 372763; 365735; 517308; 133877; 15622; 1145378; 312040; 457171; 980567; 151873; 63860;
   120639; 378158; 574722; 57420; 117849; 143920; 165862; 581340; 181362; 184671; 499085; 657278; 197096; 174334; 777385; 64154;
   233839; 18754; 162553; 66938; 250387; 13762; 55559; 111115; 214976; 27930; 466690; 1005415; 734951; 157561; 1055459; 109377;
   190183; 199182; 386404; 656349; 337059; 723396; 872652; 917581; 154771; 206210; 146006; 458444; 1980986; 245395; 223277; 22063;
   116283; 106998; 1071013; 382685; 101076; 21544; 1007794; 43779; 299090; 876480; 598934; 147866; 281504; 283883; 515858; 280574;
   392326; 340887; 408345; 496932; 62588; 85282; 40470; 18235; 273840; 500652; 461521; 55560; 100264; 119073; 167721; 509007;
   527933; 539140; 214565; 94342; 84934; 1294345; 147518; 81973; 1159141; 1981; 28797; 1610209; 132537; 409509; 9934; 990208;
   668423; 130799; 276972; 135962; 843277; 233320; 211256; 178983; 747197; 724908; 150827; 158080; 619946; 993169; 389713; 370904;
   260082; 319466; 305305; 139271; 362309; 398131; 146299; 343500; 250906; 1477965; 199994; 286496; 406603; 245101; 16552; 67286;
   256773; 187803; 188097; 1168; 533335; 66419; 701455; 1278845; 406084; 416646; 413337; 983474; 648279; 938770; 12949; 31758;
   21715; 109084; 604274; 599105; 657450; 207776; 545929; 110943; 416298; 324634; 2068183; 294215; 474643; 1052033; 289976; 419087;
   152740; 293750; 114717; 23575; 204467; 291836; 472783; 417693; 276683; 463729; 562011; 250558; 151291; 67231; 1982728; 70540;
   715908; 234886; 597656; 257121; 886293; 436619; 659829; 191694; 4648; 19336; 898715; 321325; 1388736; 361208; 812276; 322255;
   238195; 50220; 275753; 173061; 127545; 704935; 481725; 195003; 313606; 112338; 24969; 109029; 2189337; 403005; 251488; 1096675;
   315637; 43950; 89173; 621340; 258570; 35997; 443237; 443409; 713529; 750158; 231926; 144557; 747662; 541636; 173581; 6508;
   580473; 407649; 92482; 173233; 663254; 5113; 178401; 387853; 314126; 3547; 226757; 142697; 235351; 669872; 128939; 438068;
   2637909; 1032990; 95791; 8422; 121452; 275289; 381583; 1768633; 55388; 145658; 381235; 52079; 666911; 89521; 503147; 831722;
   3211990; 1144741; 537280; 47259; 255261; 930121; 334098; 936739; 16375; 103744; 995548; 1079608; 218804; 622735; 126096; 590456;
   822608; 108912; 151639; 471682; 423498; 292184; 114369; 204815; 288410; 147400; 113904; 2966429; 1680335; 967392; 380771; 1141898;
   825917; 248527; 1097023; 68798; 159940; 63341; 733557; 107983; 192042; 324286; 248992; 742322; 26070; 164932; 231925; 209807;
   410958; 189663; 896684; 126444; 703834; 795498; 11383; 1259454; 713877; 231460; 1193855; 432728; 137705; 122205; 273722; 954852;
   105603; 95443; 258222; 474991; 1121057; 528167; 30309; 8074; 148619; 49118; 2734; 263679; 347739; 431799; 192972; 435108;
   179503; 140318; 224726; 269949; 624766; 1205117; 137357; 92134; 453221; 450260; 38958; 616348; 532288; 528979; 87142; 3082;
   2365702; 848152; 718521; 308786; 1255680; 140666; 221417; 456530; 320977; 898367; 1475757; 87490; 84181; 80872; 315985; 444803;
   631500; 1661525; 295144; 787545; 11848; 30657; 327247; 904637; 276335; 171202; 748592; 456878; 210155; 80524; 167893; 83833;
   11035; 1213418; 1258641; 339438; 213464; 414732; 775354; 1394658; 41919; 243187; 498792; 582852; 399232; 967740; 535249; 38610].
Definition shiny_seeds : list (list N) :=
  [shiny_seeds_0; shiny_seeds_1; shiny_seeds_2; shiny_seeds_3; shiny_seeds_4; shiny_seeds_5; shiny_seeds_6; shiny_seeds_7; shiny_seeds_8; shiny_seeds_9; shiny_seeds_10; shiny_seeds_11; shiny_seeds_12; shiny_seeds_13; shiny_seeds_14; shiny_seeds_15].
