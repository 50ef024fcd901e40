(** Generator states that yield a PID of every class. Written by
    tools/gen_pid_witnesses.py; Proofs/Gen3Pid.v checks each entry. The lists are
    indexed by nature, then Unown letter (for the low bytes 254 and 255: letter
    divided by 4), and hold one even and one odd state. *)
From Coq Require Import NArith List.
Import ListNotations.
Open Scope N_scope.

Definition witness_low : list (list (N * N)) :=
  [[(2482, 1913); (930, 663); (622, 2495); (1210, 423); (3042, 1037); (1154, 2843); (1768, 171); (492, 265); (744, 293); (94, 545); (2084, 13); (1552, 943); (184, 2617); (812, 1223); (162, 915); (834, 983); (224, 635); (1872, 1263); (280, 53); (532, 81); (902, 333); (1714, 1941); (504, 1633); (1434, 1101); (1462, 1873); (252, 1381); (1182, 3799); (3014, 1543)];
   [(156, 765); (1402, 1393); (34, 301); (4046, 1073); (472, 4525); (1804, 1695); (752, 1723); (2386, 513); (1776, 621); (540, 89); (3636, 341); (964, 369); (288, 1325); (2002, 793); (1470, 327); (246, 1389); (1736, 739); (1218, 75); (2214, 1605); (806, 697); (1190, 21); (526, 977); (3050, 459); (102, 395); (314, 2919); (342, 675); (594, 143); (1524, 553)];
   [(2024, 151); (1532, 403); (724, 2571); (192, 643); (2742, 2331); (814, 61); (1468, 1853); (74, 1401); (3644, 33); (512, 363); (164, 431); (1094, 683); (260, 6077); (2810, 963); (3048, 3473); (534, 2941); (4362, 711); (1374, 2503); (882, 273); (232, 3843); (1122, 1053); (630, 2543); (204, 615); (218, 3883); (1162, 1613); (3672, 87); (1784, 1893); (910, 801)];
   [(1594, 3507); (42, 651); (452, 2299); (322, 1675); (916, 1025); (240, 467); (3336, 1305); (520, 747); (1450, 999); (642, 533); (268, 2339); (638, 55); (2128, 985); (944, 335); (2434, 1621); (506, 95); (2352, 439); (226, 375); (972, 719); (1224, 253); (14, 123); (266, 2673); (2448, 1); (546, 931); (548, 1143); (2380, 493); (294, 41); (1382, 1689)];
   [(1882, 4289); (2470, 623); (542, 2613); (794, 343); (1164, 371); (212, 2921); (3440, 2297); (2230, 903); (822, 4171); (2812, 2203); (2748, 131); (50, 159); (1422, 1273); (1752, 63); (582, 691); (610, 5683); (862, 1313); (330, 2243); (1142, 717); (3132, 501); (302, 1991); (890, 781); (2162, 809); (2098, 383); (980, 2031); (172, 1341); (2722, 1553); (1512, 2523)];
   [(1176, 699); (644, 49); (896, 1281); (22, 631); (392, 139); (1178, 1773); (1574, 2703); (924, 447); (926, 1601); (500, 1069); (1614, 405); (220, 1349); (2572, 125); (1362, 753); (712, 221); (5704, 2053); (1268, 843); (1204, 1629); (3010, 1123); (338, 1335); (234, 725); (2758, 2373); (554, 445); (1082, 2251); (248, 1403); (2784, 167); (152, 1005); (3380, 473)];
   [(3420, 71); (1452, 2621); (242, 391); (2792, 175); (522, 3153); (30, 2661); (802, 693); (1930, 1321); (562, 1691); (70, 1943); (9500, 2991); (1172, 1623); (1240, 1013); (932, 179); (842, 733); (310, 201); (680, 3311); (590, 481); (1862, 1411); (350, 83); (2, 2593); (1610, 521); (2382, 509); (1212, 43); (2142, 413); (1492, 1001); (960, 2873); (4972, 2341)];
   [(250, 241); (318, 795); (1130, 1725); (1302, 891); (626, 1979); (878, 1473); (2176, 797); (584, 1727); (968, 3599); (1780, 1171); (346, 79); (2060, 1793); (1528, 1077); (2458, 2007); (372, 1541); (1184, 2327); (1568, 359); (904, 1355); (228, 823); (2218, 147); (652, 1103); (344, 3613); (530, 145); (1526, 173); (92, 1301); (1022, 427); (1808, 2403); (624, 851)];
   [(1658, 1549); (1350, 1643); (2240, 1151); (10, 2943); (940, 2109); (290, 899); (1938, 91); (688, 421); (38, 713); (1310, 181); (1220, 5589); (872, 3319); (1842, 1951); (632, 13001); (660, 209); (2308, 461); (380, 1391); (1192, 2321); (358, 249); (1590, 3503); (222, 489); (1870, 701); (1562, 3251); (3052, 1179); (262, 113); (1910, 1761); (700, 51); (2492, 1739)];
   [(326, 59); (18, 1733); (2410, 537); (976, 749); (2834, 217); (2158, 1029); (646, 1057); (1042, 433); (1070, 817); (1322, 1055); (948, 1399); (884, 2329); (352, 803); (4, 153); (230, 4243); (2622, 551); (510, 1481); (1598, 271); (974, 379); (100, 591); (550, 1705); (722, 127); (2212, 1425); (140, 2013); (2506, 2383); (420, 989); (46, 1985); (2596, 1427)];
   [(54, 1769); (292, 1435); (1262, 469); (270, 161); (2938, 1051); (1728, 401); (2540, 2391); (1290, 839); (80, 3389); (892, 441); (1822, 2951); (7216, 4599); (640, 189); (708, 1119); (58, 1371); (4332, 721); (3122, 2369); (1010, 1159); (360, 811); (612, 1741); (1358, 2671); (2288, 4161); (400, 1489); (428, 2301); (2220, 5871); (5672, 599); (920, 1529); (388, 121)];
   [(26, 2643); (1180, 2151); (306, 757); (1578, 225); (52, 1221); (396, 2829); (1050, 39); (676, 1687); (1606, 503); (4156, 531); (332, 237); (24, 2431); (1646, 1063); (120, 129); (1366, 2337); (716, 251); (954, 1755); (304, 505); (1234, 3081); (702, 107); (1632, 1181); (956, 571); (1912, 2363); (3000, 409); (730, 319); (278, 1407); (2814, 197); (558, 133)];
   [(900, 7711); (368, 1537); (2918, 1071); (88, 5919); (3198, 1351); (1270, 141); (2200, 169); (312, 2159); (1018, 567); (592, 3117); (60, 511); (990, 1099); (340, 1469); (3568, 259); (580, 485); (1550, 2119); (354, 607); (710, 299); (778, 887); (4190, 2679); (1920, 4511); (684, 2399); (1338, 1229); (128, 1257); (498, 2187); (2890, 2999); (620, 1789); (3170, 539)];
   [(654, 881); (1558, 547); (1586, 417); (376, 525); (1306, 203); (2302, 245); (868, 1477); (402, 669); (1906, 763); (2460, 2385); (150, 2077); (1278, 109); (2728, 2317); (682, 231); (1612, 483); (1654, 1413); (430, 1639); (1360, 949); (1066, 2741); (258, 853); (1188, 19); (656, 205); (6, 457); (1982, 1387); (470, 177); (96, 1133); (32, 1135); (936, 2433)];
   [(40, 267); (1648, 519); (136, 1607); (690, 1141); (2180, 307); (970, 2099); (320, 889); (1250, 1819); (718, 491); (410, 1421); (998, 587); (1928, 1701); (0, 1169); (2550, 677); (478, 27); (1968, 279); (600, 1209); (1128, 3001); (1716, 3629); (2270, 1517); (2338, 149); (68, 5299); (2058, 2167); (1368, 957); (3016, 1327); (2366, 1237); (2920, 771); (1408, 239)];
   [(12, 1155); (1818, 649); (1286, 183); (116, 4063); (1566, 2879); (382, 2947); (1312, 1059); (662, 527); (130, 1497); (1060, 1525); (2004, 2639); (1354, 185); (104, 595); (1936, 833); (2932, 117); (636, 1087); (328, 581); (1100, 1367); (8, 3015); (76, 1765); (1006, 437); (2654, 807); (424, 275); (2242, 1831); (704, 1299); (198, 2387); (1990, 157); (1538, 2509)];
   [(1136, 165); (1348, 779); (698, 287); (1628, 5279); (458, 869); (670, 35); (20, 589); (1970, 657); (1320, 1771); (2250, 897); (1040, 1149); (206, 2079); (1998, 1429); (6010, 377); (738, 2169); (766, 1519); (2038, 685); (486, 219); (178, 1867); (3208, 1217); (300, 2449); (1506, 1615); (3180, 563); (48, 499); (418, 7); (1230, 1839); (138, 247); (390, 4259)];
   [(1984, 841); (760, 309); (3284, 1437); (296, 905); (2010, 281); (82, 1225); (2566, 15); (336, 945); (706, 973); (616, 1211); (84, 1253); (3496, 29); (2886, 97); (214, 1067); (1012, 561); (1080, 1491); (1410, 815); (1518, 2127); (124, 2833); (2620, 629); (28, 137); (56, 2647); (2724, 535); (1916, 227); (2286, 1157); (1478, 323); (1730, 1997); (494, 603)];
   [(1712, 1129); (2668, 597); (398, 289); (90, 317); (276, 2149); (146, 77); (5192, 1567); (768, 2457); (1698, 1847); (186, 637); (1116, 1869); (64, 917); (1738, 385); (864, 611); (556, 2245); (2362, 199); (836, 583); (370, 1657); (4316, 105); (1486, 877); (118, 1261); (1062, 479); (2018, 1409); (1328, 2799); (158, 569); (1766, 1499); (1076, 665); (650, 2497)];
   [(1684, 541); (460, 1603); (3024, 393); (740, 1165); (1124, 2813); (316, 911); (528, 953); (1432, 487); (1802, 659); (2040, 9); (1390, 235); (938, 2745); (1110, 515); (1896, 767); (686, 1855); (36, 1323); (406, 1233); (434, 207); (1246, 979); (2320, 329); (966, 1535); (474, 23); (2266, 1697); (154, 303); (3250, 1259); (1152, 3769); (126, 2559); (714, 645)];
   [(2156, 2541); (564, 1891); (816, 549); (166, 17); (1096, 1849); (44, 297); (1678, 2129); (442, 57); (536, 85); (1466, 337); (256, 365); (2608, 735); (1214, 243); (762, 1199); (112, 707); (1706, 1295); (694, 1665); (2144, 455); (98, 1945); (1746, 1479); (378, 947); (1624, 311); (1494, 1227); (1028, 577); (1398, 269); (188, 2819); (776, 3407); (468, 1611)];
   [(784, 1835); (852, 1303); (1104, 653); (2020, 2287); (106, 933); (2616, 743); (1782, 1673); (572, 1569); (2404, 215); (2314, 2205); (1064, 495); (414, 1023); (2062, 3257); (134, 3443); (386, 1357); (454, 305); (1344, 4995); (2432, 1289); (202, 613); (756, 3); (1686, 373); (174, 585); (2526, 93); (440, 681); (482, 1235); (16, 283); (3546, 955); (1994, 1583)];
   [(796, 2267); (448, 715); (1510, 367); (168, 277); (210, 463); (1844, 873); (634, 65); (544, 1337); (2376, 5987); (1166, 155); (490, 1085); (1446, 1857); (914, 687); (1726, 1617); (476, 941); (2124, 435); (1098, 345); (462, 2137); (2096, 25); (4488, 2575); (78, 647); (3622, 11); (1378, 2521); (860, 2773); (3094, 2123); (264, 37); (674, 927); (728, 4155)];
   [(1044, 1311); (1454, 1003); (804, 1255); (272, 723); (208, 593); (552, 285); (86, 4073); (2294, 2185); (2664, 3233); (394, 325); (3062, 195); (114, 5); (484, 73); (736, 1681); (6808, 1215); (7752, 381); (182, 751); (1112, 845); (1666, 313); (858, 1243); (2690, 935); (1414, 1865); (606, 339); (1016, 1283); (524, 619); (1974, 101); (1482, 1031); (2412, 1269)];
   [(614, 1039); (2420, 415); (216, 443); (1146, 2993); (772, 45); (1544, 1693); (894, 5223); (1304, 1557); (1516, 1625); (1426, 257); (176, 785); (2726, 135); (1174, 1105); (2446, 1093); (2474, 627); (560, 3191); (456, 2343); (122, 389); (1092, 2925); (1120, 1715); (798, 907); (826, 2897); (4838, 1503); (244, 997); (2036, 347); (148, 975); (2514, 67); (1864, 655)]].

Definition witness_254 : list (list (N * N)) :=
  [[(18064, 26193); (9722, 13893); (58110, 114627); (25168, 81685); (45810, 74581); (239890, 41639); (37468, 93985)];
   [(35418, 160965); (56060, 124877); (76702, 145519); (101302, 72531); (568, 57085); (47718, 31247); (177436, 3501)];
   [(17922, 115723); (106356, 8839); (139298, 75677); (59206, 122827); (57968, 46693); (158702, 82781); (159940, 34393)];
   [(157890, 105331); (97202, 166019); (121802, 93031); (48814, 112435); (109502, 120777); (76560, 65285); (137248, 214407)];
   [(128094, 82639); (187544, 123923); (111410, 184611); (152694, 183373); (139156, 22235); (180440, 1593); (38422, 163969)];
   [(197794, 11843); (16014, 32485); (69314, 174219); (2476, 47931); (380812, 161919); (117702, 20185); (178390, 120635)];
   [(235790, 18135); (45668, 42735); (33368, 1451); (94056, 2689); (5622, 49839); (19160, 217411); (21068, 9793)];
   [(36514, 11701); (84902, 20043); (10676, 40685); (401312, 7743); (178248, 28385); (8768, 174077); (3572, 67193)];
   [(53868, 213311); (15060, 9651); (74510, 10889); (26122, 71577); (27360, 98085); (13822, 99323); (55106, 38635)];
   [(105402, 497); (4668, 61185); (97060, 28243); (316166, 48885); (57014, 68289); (24072, 12797); (44714, 189665)];
   [(87906, 31389); (14918, 50793); (34322, 59135); (62068, 78539); (75606, 119823); (107310, 38493); (35560, 79777)];
   [(134244, 122969); (77514, 97131); (11914, 69385); (145306, 88789); (138202, 109431); (65214, 20997); (125902, 48743)];
   [(1522, 180369); (42806, 79635); (144494, 100277); (96106, 14035); (169094, 201011); (70552, 128023); (108406, 26335)];
   [(11772, 142231); (32414, 169977); (167044, 15943); (60160, 129931); (113460, 138273); (134102, 110527); (141206, 3643)];
   [(23260, 6789); (192740, 160823); (51006, 34535); (388058, 209211); (91052, 5551); (2618, 46835); (22022, 67477)];
   [(12868, 191715); (19972, 8697); (5764, 17039); (4526, 77727); (40614, 4739); (202990, 24143); (32272, 413541)];
   [(30222, 14989); (31460, 107381); (63164, 6647); (111552, 27289); (23118, 86739); (83806, 87977); (10818, 55035)];
   [(41710, 16897); (426, 37539); (28172, 58181); (256432, 25239); (12726, 4597); (54010, 70481); (73414, 29197)];
   [(59064, 60089); (79706, 27147); (104306, 47789); (31318, 14847); (92006, 35489); (72602, 136223); (100348, 103281)];
   [(109360, 45739); (183586, 78681); (93914, 127069); (251378, 66381); (138344, 90981); (135198, 37397); (62210, 17993)];
   [(64118, 169023); (124806, 96035); (51818, 76631); (112506, 7601); (26264, 156723); (152552, 298457); (383958, 108335)];
   [(89814, 639); (198890, 179273); (29410, 166973); (158844, 12939); (15872, 139227); (1664, 187615); (17110, 73627)];
   [(19018, 116535); (160752, 16085); (6718, 144281); (141348, 164923); (120706, 206207); (181394, 2547); (39660, 43831)];
   [(8626, 187473); (36372, 215219); (16968, 5693); (77656, 52843); (9864, 188711); (37610, 54081); (199986, 21139)];
   [(7814, 24285); (27218, 152765); (161848, 185423); (182490, 678701); (96248, 23047); (6576, 43689); (39518, 10747)]].

Definition witness_255 : list (list (N * N)) :=
  [[(120564, 291069); (363032, 164781); (152268, 21809); (18876, 14705); (91580, 177081); (221298, 42451); (25980, 9509)];
   [(150218, 11417); (16826, 73343); (110172, 355); (170860, 349707); (223206, 126643); (8484, 24955); (15588, 166689)];
   [(39376, 2263); (86526, 83593); (18734, 30009); (160468, 43547); (27076, 15801); (141064, 14563); (6434, 55847)];
   [(105118, 52559); (246852, 20855); (28984, 81543); (117418, 48601); (8342, 45455); (36088, 213); (138060, 33155)];
   [(6292, 31105); (39234, 50509); (7530, 51747); (26934, 10463); (68218, 24001); (54680, 285873); (148310, 22763)];
   [(186306, 122685); (77230, 102043); (70126, 65955); (37184, 93701); (57826, 20713); (9438, 41355); (85572, 264419)];
   [(128764, 30963); (28030, 91651); (75180, 58709); (116464, 286969); (168810, 103951); (148168, 84547); (14776, 51605)];
   [(130672, 162589); (4384, 74155); (85430, 115439); (187402, 8555); (17638, 61855); (58922, 122543); (166760, 89601)];
   [(22976, 112151); (136964, 181181); (602496, 141135); (177010, 18805); (168668, 105047); (35276, 193481); (149264, 92747)];
   [(12584, 1309); (45526, 8413); (5480, 29055); (126572, 163685); (154318, 184327); (187260, 123639); (138872, 21951)];
   [(3430, 47647); (31176, 39305); (197510, 11559); (2192, 27005); (35134, 213981); (43476, 87693); (185210, 19901)];
   [(66026, 2405); (5338, 49555); (45384, 1167); (216102, 37255); (86668, 171885); (243848, 70197); (33084, 28913)];
   [(76276, 7459); (3288, 28101); (36230, 47505); (44572, 19759); (23930, 202777); (84618, 59805); (10392, 282869)];
   [(13538, 57755); (54822, 476137); (69030, 126785); (107168, 265373); (53584, 90697); (25838, 9367); (67122, 10605)];
   [(23788, 168739); (84476, 68005); (51534, 40259); (44430, 7317); (132864, 27959); (99922, 100947); (56730, 364057)];
   [(75322, 106001); (326132, 147285); (115368, 4313); (61784, 90555); (330090, 45597); (1380, 58851); (34038, 119539)];
   [(146260, 88505); (165664, 22905); (92676, 178177); (153364, 48459); (161706, 35205); (104976, 129789); (11630, 60759)];
   [(135868, 167785); (102926, 24813); (21880, 5409); (1238, 26051); (9580, 188427); (42522, 13751); (171956, 363103)];
   [(186164, 157393); (113176, 218081); (25026, 96989); (182206, 3359); (11488, 178035); (32130, 36301); (40472, 15659)];
   [(49484, 25909); (2334, 13609); (185352, 6505); (30080, 107239); (50722, 34251); (14634, 188285); (42380, 5267)];
   [(7388, 23859); (31988, 246923); (284, 63905); (19688, 96847); (40330, 3217); (20926, 36159); (4242, 44501)];
   [(83522, 67051); (10534, 54751); (29938, 155485); (71222, 82497); (38280, 46409); (164568, 107097); (22834, 6363)];
   [(53726, 117347); (12442, 84405); (142, 97943); (100876, 113389); (69172, 44359); (88576, 65001); (27888, 85643)];
   [(31034, 102997); (72318, 135939); (111126, 386749); (43334, 310615); (79422, 87551); (140110, 26863); (38138, 75251)];
   [(251094, 146189); (61926, 4455); (162660, 92605); (89672, 64859); (109076, 85501); (211048, 106143); (101972, 165593)]].
