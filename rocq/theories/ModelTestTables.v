(** The tables of src/test_bitrev_tables.c, src/test_ntt_red_tables.c and
    src/test_ntt_tables.c, copied entry by entry. *)

From Coq Require Import ZArith List.
Import ListNotations.
Open Scope Z_scope.

(** ** src/test_bitrev_tables.c and test_bitrev_tables.h *)

(** test_bitrev_tables.h 13-17 *)
Definition BITREV128_NPAIRS := 56.
Definition BITREV256_NPAIRS := 120.
Definition BITREV512_NPAIRS := 240.
Definition BITREV1024_NPAIRS := 496.
Definition BITREV2048_NPAIRS := 992.

(** test_bitrev_tables.c 8-23 *)
Definition bitrev128_pair : list (Z * Z) := [
   (1, 64); (2, 32); (3, 96); (4, 16); (5, 80); (6, 48); (7, 112); (9, 72);
   (10, 40); (11, 104); (12, 24); (13, 88); (14, 56); (15, 120); (17, 68); (18, 36);
   (19, 100); (21, 84); (22, 52); (23, 116); (25, 76); (26, 44); (27, 108); (29, 92);
   (30, 60); (31, 124); (33, 66); (35, 98); (37, 82); (38, 50); (39, 114); (41, 74);
   (43, 106); (45, 90); (46, 58); (47, 122); (49, 70); (51, 102); (53, 86); (55, 118);
   (57, 78); (59, 110); (61, 94); (63, 126); (67, 97); (69, 81); (71, 113); (75, 105);
   (77, 89); (79, 121); (83, 101); (87, 117); (91, 109); (95, 125); (103, 115); (111, 123)].

(** test_bitrev_tables.c 27-58 *)
Definition bitrev256_pair : list (Z * Z) := [
   (1, 128); (2, 64); (3, 192); (4, 32); (5, 160); (6, 96); (7, 224); (8, 16);
   (9, 144); (10, 80); (11, 208); (12, 48); (13, 176); (14, 112); (15, 240); (17, 136);
   (18, 72); (19, 200); (20, 40); (21, 168); (22, 104); (23, 232); (25, 152); (26, 88);
   (27, 216); (28, 56); (29, 184); (30, 120); (31, 248); (33, 132); (34, 68); (35, 196);
   (37, 164); (38, 100); (39, 228); (41, 148); (42, 84); (43, 212); (44, 52); (45, 180);
   (46, 116); (47, 244); (49, 140); (50, 76); (51, 204); (53, 172); (54, 108); (55, 236);
   (57, 156); (58, 92); (59, 220); (61, 188); (62, 124); (63, 252); (65, 130); (67, 194);
   (69, 162); (70, 98); (71, 226); (73, 146); (74, 82); (75, 210); (77, 178); (78, 114);
   (79, 242); (81, 138); (83, 202); (85, 170); (86, 106); (87, 234); (89, 154); (91, 218);
   (93, 186); (94, 122); (95, 250); (97, 134); (99, 198); (101, 166); (103, 230); (105, 150);
   (107, 214); (109, 182); (110, 118); (111, 246); (113, 142); (115, 206); (117, 174); (119, 238);
   (121, 158); (123, 222); (125, 190); (127, 254); (131, 193); (133, 161); (135, 225); (137, 145);
   (139, 209); (141, 177); (143, 241); (147, 201); (149, 169); (151, 233); (155, 217); (157, 185);
   (159, 249); (163, 197); (167, 229); (171, 213); (173, 181); (175, 245); (179, 205); (183, 237);
   (187, 221); (191, 253); (199, 227); (203, 211); (207, 243); (215, 235); (223, 251); (239, 247)].

(** test_bitrev_tables.c 61-122 *)
Definition bitrev512_pair : list (Z * Z) := [
   (1, 256); (2, 128); (3, 384); (4, 64); (5, 320); (6, 192); (7, 448); (8, 32);
   (9, 288); (10, 160); (11, 416); (12, 96); (13, 352); (14, 224); (15, 480); (17, 272);
   (18, 144); (19, 400); (20, 80); (21, 336); (22, 208); (23, 464); (24, 48); (25, 304);
   (26, 176); (27, 432); (28, 112); (29, 368); (30, 240); (31, 496); (33, 264); (34, 136);
   (35, 392); (36, 72); (37, 328); (38, 200); (39, 456); (41, 296); (42, 168); (43, 424);
   (44, 104); (45, 360); (46, 232); (47, 488); (49, 280); (50, 152); (51, 408); (52, 88);
   (53, 344); (54, 216); (55, 472); (57, 312); (58, 184); (59, 440); (60, 120); (61, 376);
   (62, 248); (63, 504); (65, 260); (66, 132); (67, 388); (69, 324); (70, 196); (71, 452);
   (73, 292); (74, 164); (75, 420); (76, 100); (77, 356); (78, 228); (79, 484); (81, 276);
   (82, 148); (83, 404); (85, 340); (86, 212); (87, 468); (89, 308); (90, 180); (91, 436);
   (92, 116); (93, 372); (94, 244); (95, 500); (97, 268); (98, 140); (99, 396); (101, 332);
   (102, 204); (103, 460); (105, 300); (106, 172); (107, 428); (109, 364); (110, 236); (111, 492);
   (113, 284); (114, 156); (115, 412); (117, 348); (118, 220); (119, 476); (121, 316); (122, 188);
   (123, 444); (125, 380); (126, 252); (127, 508); (129, 258); (131, 386); (133, 322); (134, 194);
   (135, 450); (137, 290); (138, 162); (139, 418); (141, 354); (142, 226); (143, 482); (145, 274);
   (147, 402); (149, 338); (150, 210); (151, 466); (153, 306); (154, 178); (155, 434); (157, 370);
   (158, 242); (159, 498); (161, 266); (163, 394); (165, 330); (166, 202); (167, 458); (169, 298);
   (171, 426); (173, 362); (174, 234); (175, 490); (177, 282); (179, 410); (181, 346); (182, 218);
   (183, 474); (185, 314); (187, 442); (189, 378); (190, 250); (191, 506); (193, 262); (195, 390);
   (197, 326); (199, 454); (201, 294); (203, 422); (205, 358); (206, 230); (207, 486); (209, 278);
   (211, 406); (213, 342); (215, 470); (217, 310); (219, 438); (221, 374); (222, 246); (223, 502);
   (225, 270); (227, 398); (229, 334); (231, 462); (233, 302); (235, 430); (237, 366); (239, 494);
   (241, 286); (243, 414); (245, 350); (247, 478); (249, 318); (251, 446); (253, 382); (255, 510);
   (259, 385); (261, 321); (263, 449); (265, 289); (267, 417); (269, 353); (271, 481); (275, 401);
   (277, 337); (279, 465); (281, 305); (283, 433); (285, 369); (287, 497); (291, 393); (293, 329);
   (295, 457); (299, 425); (301, 361); (303, 489); (307, 409); (309, 345); (311, 473); (315, 441);
   (317, 377); (319, 505); (323, 389); (327, 453); (331, 421); (333, 357); (335, 485); (339, 405);
   (343, 469); (347, 437); (349, 373); (351, 501); (355, 397); (359, 461); (363, 429); (367, 493);
   (371, 413); (375, 477); (379, 445); (383, 509); (391, 451); (395, 419); (399, 483); (407, 467);
   (411, 435); (415, 499); (423, 459); (431, 491); (439, 475); (447, 507); (463, 487); (479, 503)].

(** test_bitrev_tables.c 125-250 *)
Definition bitrev1024_pair : list (Z * Z) := [
   (1, 512); (2, 256); (3, 768); (4, 128); (5, 640); (6, 384); (7, 896); (8, 64);
   (9, 576); (10, 320); (11, 832); (12, 192); (13, 704); (14, 448); (15, 960); (16, 32);
   (17, 544); (18, 288); (19, 800); (20, 160); (21, 672); (22, 416); (23, 928); (24, 96);
   (25, 608); (26, 352); (27, 864); (28, 224); (29, 736); (30, 480); (31, 992); (33, 528);
   (34, 272); (35, 784); (36, 144); (37, 656); (38, 400); (39, 912); (40, 80); (41, 592);
   (42, 336); (43, 848); (44, 208); (45, 720); (46, 464); (47, 976); (49, 560); (50, 304);
   (51, 816); (52, 176); (53, 688); (54, 432); (55, 944); (56, 112); (57, 624); (58, 368);
   (59, 880); (60, 240); (61, 752); (62, 496); (63, 1008); (65, 520); (66, 264); (67, 776);
   (68, 136); (69, 648); (70, 392); (71, 904); (73, 584); (74, 328); (75, 840); (76, 200);
   (77, 712); (78, 456); (79, 968); (81, 552); (82, 296); (83, 808); (84, 168); (85, 680);
   (86, 424); (87, 936); (88, 104); (89, 616); (90, 360); (91, 872); (92, 232); (93, 744);
   (94, 488); (95, 1000); (97, 536); (98, 280); (99, 792); (100, 152); (101, 664); (102, 408);
   (103, 920); (105, 600); (106, 344); (107, 856); (108, 216); (109, 728); (110, 472); (111, 984);
   (113, 568); (114, 312); (115, 824); (116, 184); (117, 696); (118, 440); (119, 952); (121, 632);
   (122, 376); (123, 888); (124, 248); (125, 760); (126, 504); (127, 1016); (129, 516); (130, 260);
   (131, 772); (133, 644); (134, 388); (135, 900); (137, 580); (138, 324); (139, 836); (140, 196);
   (141, 708); (142, 452); (143, 964); (145, 548); (146, 292); (147, 804); (148, 164); (149, 676);
   (150, 420); (151, 932); (153, 612); (154, 356); (155, 868); (156, 228); (157, 740); (158, 484);
   (159, 996); (161, 532); (162, 276); (163, 788); (165, 660); (166, 404); (167, 916); (169, 596);
   (170, 340); (171, 852); (172, 212); (173, 724); (174, 468); (175, 980); (177, 564); (178, 308);
   (179, 820); (181, 692); (182, 436); (183, 948); (185, 628); (186, 372); (187, 884); (188, 244);
   (189, 756); (190, 500); (191, 1012); (193, 524); (194, 268); (195, 780); (197, 652); (198, 396);
   (199, 908); (201, 588); (202, 332); (203, 844); (205, 716); (206, 460); (207, 972); (209, 556);
   (210, 300); (211, 812); (213, 684); (214, 428); (215, 940); (217, 620); (218, 364); (219, 876);
   (220, 236); (221, 748); (222, 492); (223, 1004); (225, 540); (226, 284); (227, 796); (229, 668);
   (230, 412); (231, 924); (233, 604); (234, 348); (235, 860); (237, 732); (238, 476); (239, 988);
   (241, 572); (242, 316); (243, 828); (245, 700); (246, 444); (247, 956); (249, 636); (250, 380);
   (251, 892); (253, 764); (254, 508); (255, 1020); (257, 514); (259, 770); (261, 642); (262, 386);
   (263, 898); (265, 578); (266, 322); (267, 834); (269, 706); (270, 450); (271, 962); (273, 546);
   (274, 290); (275, 802); (277, 674); (278, 418); (279, 930); (281, 610); (282, 354); (283, 866);
   (285, 738); (286, 482); (287, 994); (289, 530); (291, 786); (293, 658); (294, 402); (295, 914);
   (297, 594); (298, 338); (299, 850); (301, 722); (302, 466); (303, 978); (305, 562); (307, 818);
   (309, 690); (310, 434); (311, 946); (313, 626); (314, 370); (315, 882); (317, 754); (318, 498);
   (319, 1010); (321, 522); (323, 778); (325, 650); (326, 394); (327, 906); (329, 586); (331, 842);
   (333, 714); (334, 458); (335, 970); (337, 554); (339, 810); (341, 682); (342, 426); (343, 938);
   (345, 618); (346, 362); (347, 874); (349, 746); (350, 490); (351, 1002); (353, 538); (355, 794);
   (357, 666); (358, 410); (359, 922); (361, 602); (363, 858); (365, 730); (366, 474); (367, 986);
   (369, 570); (371, 826); (373, 698); (374, 442); (375, 954); (377, 634); (379, 890); (381, 762);
   (382, 506); (383, 1018); (385, 518); (387, 774); (389, 646); (391, 902); (393, 582); (395, 838);
   (397, 710); (398, 454); (399, 966); (401, 550); (403, 806); (405, 678); (406, 422); (407, 934);
   (409, 614); (411, 870); (413, 742); (414, 486); (415, 998); (417, 534); (419, 790); (421, 662);
   (423, 918); (425, 598); (427, 854); (429, 726); (430, 470); (431, 982); (433, 566); (435, 822);
   (437, 694); (439, 950); (441, 630); (443, 886); (445, 758); (446, 502); (447, 1014); (449, 526);
   (451, 782); (453, 654); (455, 910); (457, 590); (459, 846); (461, 718); (463, 974); (465, 558);
   (467, 814); (469, 686); (471, 942); (473, 622); (475, 878); (477, 750); (478, 494); (479, 1006);
   (481, 542); (483, 798); (485, 670); (487, 926); (489, 606); (491, 862); (493, 734); (495, 990);
   (497, 574); (499, 830); (501, 702); (503, 958); (505, 638); (507, 894); (509, 766); (511, 1022);
   (515, 769); (517, 641); (519, 897); (521, 577); (523, 833); (525, 705); (527, 961); (529, 545);
   (531, 801); (533, 673); (535, 929); (537, 609); (539, 865); (541, 737); (543, 993); (547, 785);
   (549, 657); (551, 913); (553, 593); (555, 849); (557, 721); (559, 977); (563, 817); (565, 689);
   (567, 945); (569, 625); (571, 881); (573, 753); (575, 1009); (579, 777); (581, 649); (583, 905);
   (587, 841); (589, 713); (591, 969); (595, 809); (597, 681); (599, 937); (601, 617); (603, 873);
   (605, 745); (607, 1001); (611, 793); (613, 665); (615, 921); (619, 857); (621, 729); (623, 985);
   (627, 825); (629, 697); (631, 953); (635, 889); (637, 761); (639, 1017); (643, 773); (647, 901);
   (651, 837); (653, 709); (655, 965); (659, 805); (661, 677); (663, 933); (667, 869); (669, 741);
   (671, 997); (675, 789); (679, 917); (683, 853); (685, 725); (687, 981); (691, 821); (695, 949);
   (699, 885); (701, 757); (703, 1013); (707, 781); (711, 909); (715, 845); (719, 973); (723, 813);
   (727, 941); (731, 877); (733, 749); (735, 1005); (739, 797); (743, 925); (747, 861); (751, 989);
   (755, 829); (759, 957); (763, 893); (767, 1021); (775, 899); (779, 835); (783, 963); (787, 803);
   (791, 931); (795, 867); (799, 995); (807, 915); (811, 851); (815, 979); (823, 947); (827, 883);
   (831, 1011); (839, 907); (847, 971); (855, 939); (859, 875); (863, 1003); (871, 923); (879, 987);
   (887, 955); (895, 1019); (911, 967); (919, 935); (927, 999); (943, 983); (959, 1015); (991, 1007)].

(** test_bitrev_tables.c 254-503 *)
Definition bitrev2048_pair : list (Z * Z) := [
   (1, 1024); (2, 512); (3, 1536); (4, 256); (5, 1280); (6, 768); (7, 1792); (8, 128);
   (9, 1152); (10, 640); (11, 1664); (12, 384); (13, 1408); (14, 896); (15, 1920); (16, 64);
   (17, 1088); (18, 576); (19, 1600); (20, 320); (21, 1344); (22, 832); (23, 1856); (24, 192);
   (25, 1216); (26, 704); (27, 1728); (28, 448); (29, 1472); (30, 960); (31, 1984); (33, 1056);
   (34, 544); (35, 1568); (36, 288); (37, 1312); (38, 800); (39, 1824); (40, 160); (41, 1184);
   (42, 672); (43, 1696); (44, 416); (45, 1440); (46, 928); (47, 1952); (48, 96); (49, 1120);
   (50, 608); (51, 1632); (52, 352); (53, 1376); (54, 864); (55, 1888); (56, 224); (57, 1248);
   (58, 736); (59, 1760); (60, 480); (61, 1504); (62, 992); (63, 2016); (65, 1040); (66, 528);
   (67, 1552); (68, 272); (69, 1296); (70, 784); (71, 1808); (72, 144); (73, 1168); (74, 656);
   (75, 1680); (76, 400); (77, 1424); (78, 912); (79, 1936); (81, 1104); (82, 592); (83, 1616);
   (84, 336); (85, 1360); (86, 848); (87, 1872); (88, 208); (89, 1232); (90, 720); (91, 1744);
   (92, 464); (93, 1488); (94, 976); (95, 2000); (97, 1072); (98, 560); (99, 1584); (100, 304);
   (101, 1328); (102, 816); (103, 1840); (104, 176); (105, 1200); (106, 688); (107, 1712); (108, 432);
   (109, 1456); (110, 944); (111, 1968); (113, 1136); (114, 624); (115, 1648); (116, 368); (117, 1392);
   (118, 880); (119, 1904); (120, 240); (121, 1264); (122, 752); (123, 1776); (124, 496); (125, 1520);
   (126, 1008); (127, 2032); (129, 1032); (130, 520); (131, 1544); (132, 264); (133, 1288); (134, 776);
   (135, 1800); (137, 1160); (138, 648); (139, 1672); (140, 392); (141, 1416); (142, 904); (143, 1928);
   (145, 1096); (146, 584); (147, 1608); (148, 328); (149, 1352); (150, 840); (151, 1864); (152, 200);
   (153, 1224); (154, 712); (155, 1736); (156, 456); (157, 1480); (158, 968); (159, 1992); (161, 1064);
   (162, 552); (163, 1576); (164, 296); (165, 1320); (166, 808); (167, 1832); (169, 1192); (170, 680);
   (171, 1704); (172, 424); (173, 1448); (174, 936); (175, 1960); (177, 1128); (178, 616); (179, 1640);
   (180, 360); (181, 1384); (182, 872); (183, 1896); (184, 232); (185, 1256); (186, 744); (187, 1768);
   (188, 488); (189, 1512); (190, 1000); (191, 2024); (193, 1048); (194, 536); (195, 1560); (196, 280);
   (197, 1304); (198, 792); (199, 1816); (201, 1176); (202, 664); (203, 1688); (204, 408); (205, 1432);
   (206, 920); (207, 1944); (209, 1112); (210, 600); (211, 1624); (212, 344); (213, 1368); (214, 856);
   (215, 1880); (217, 1240); (218, 728); (219, 1752); (220, 472); (221, 1496); (222, 984); (223, 2008);
   (225, 1080); (226, 568); (227, 1592); (228, 312); (229, 1336); (230, 824); (231, 1848); (233, 1208);
   (234, 696); (235, 1720); (236, 440); (237, 1464); (238, 952); (239, 1976); (241, 1144); (242, 632);
   (243, 1656); (244, 376); (245, 1400); (246, 888); (247, 1912); (249, 1272); (250, 760); (251, 1784);
   (252, 504); (253, 1528); (254, 1016); (255, 2040); (257, 1028); (258, 516); (259, 1540); (261, 1284);
   (262, 772); (263, 1796); (265, 1156); (266, 644); (267, 1668); (268, 388); (269, 1412); (270, 900);
   (271, 1924); (273, 1092); (274, 580); (275, 1604); (276, 324); (277, 1348); (278, 836); (279, 1860);
   (281, 1220); (282, 708); (283, 1732); (284, 452); (285, 1476); (286, 964); (287, 1988); (289, 1060);
   (290, 548); (291, 1572); (293, 1316); (294, 804); (295, 1828); (297, 1188); (298, 676); (299, 1700);
   (300, 420); (301, 1444); (302, 932); (303, 1956); (305, 1124); (306, 612); (307, 1636); (308, 356);
   (309, 1380); (310, 868); (311, 1892); (313, 1252); (314, 740); (315, 1764); (316, 484); (317, 1508);
   (318, 996); (319, 2020); (321, 1044); (322, 532); (323, 1556); (325, 1300); (326, 788); (327, 1812);
   (329, 1172); (330, 660); (331, 1684); (332, 404); (333, 1428); (334, 916); (335, 1940); (337, 1108);
   (338, 596); (339, 1620); (341, 1364); (342, 852); (343, 1876); (345, 1236); (346, 724); (347, 1748);
   (348, 468); (349, 1492); (350, 980); (351, 2004); (353, 1076); (354, 564); (355, 1588); (357, 1332);
   (358, 820); (359, 1844); (361, 1204); (362, 692); (363, 1716); (364, 436); (365, 1460); (366, 948);
   (367, 1972); (369, 1140); (370, 628); (371, 1652); (373, 1396); (374, 884); (375, 1908); (377, 1268);
   (378, 756); (379, 1780); (380, 500); (381, 1524); (382, 1012); (383, 2036); (385, 1036); (386, 524);
   (387, 1548); (389, 1292); (390, 780); (391, 1804); (393, 1164); (394, 652); (395, 1676); (397, 1420);
   (398, 908); (399, 1932); (401, 1100); (402, 588); (403, 1612); (405, 1356); (406, 844); (407, 1868);
   (409, 1228); (410, 716); (411, 1740); (412, 460); (413, 1484); (414, 972); (415, 1996); (417, 1068);
   (418, 556); (419, 1580); (421, 1324); (422, 812); (423, 1836); (425, 1196); (426, 684); (427, 1708);
   (429, 1452); (430, 940); (431, 1964); (433, 1132); (434, 620); (435, 1644); (437, 1388); (438, 876);
   (439, 1900); (441, 1260); (442, 748); (443, 1772); (444, 492); (445, 1516); (446, 1004); (447, 2028);
   (449, 1052); (450, 540); (451, 1564); (453, 1308); (454, 796); (455, 1820); (457, 1180); (458, 668);
   (459, 1692); (461, 1436); (462, 924); (463, 1948); (465, 1116); (466, 604); (467, 1628); (469, 1372);
   (470, 860); (471, 1884); (473, 1244); (474, 732); (475, 1756); (477, 1500); (478, 988); (479, 2012);
   (481, 1084); (482, 572); (483, 1596); (485, 1340); (486, 828); (487, 1852); (489, 1212); (490, 700);
   (491, 1724); (493, 1468); (494, 956); (495, 1980); (497, 1148); (498, 636); (499, 1660); (501, 1404);
   (502, 892); (503, 1916); (505, 1276); (506, 764); (507, 1788); (509, 1532); (510, 1020); (511, 2044);
   (513, 1026); (515, 1538); (517, 1282); (518, 770); (519, 1794); (521, 1154); (522, 642); (523, 1666);
   (525, 1410); (526, 898); (527, 1922); (529, 1090); (530, 578); (531, 1602); (533, 1346); (534, 834);
   (535, 1858); (537, 1218); (538, 706); (539, 1730); (541, 1474); (542, 962); (543, 1986); (545, 1058);
   (547, 1570); (549, 1314); (550, 802); (551, 1826); (553, 1186); (554, 674); (555, 1698); (557, 1442);
   (558, 930); (559, 1954); (561, 1122); (562, 610); (563, 1634); (565, 1378); (566, 866); (567, 1890);
   (569, 1250); (570, 738); (571, 1762); (573, 1506); (574, 994); (575, 2018); (577, 1042); (579, 1554);
   (581, 1298); (582, 786); (583, 1810); (585, 1170); (586, 658); (587, 1682); (589, 1426); (590, 914);
   (591, 1938); (593, 1106); (595, 1618); (597, 1362); (598, 850); (599, 1874); (601, 1234); (602, 722);
   (603, 1746); (605, 1490); (606, 978); (607, 2002); (609, 1074); (611, 1586); (613, 1330); (614, 818);
   (615, 1842); (617, 1202); (618, 690); (619, 1714); (621, 1458); (622, 946); (623, 1970); (625, 1138);
   (627, 1650); (629, 1394); (630, 882); (631, 1906); (633, 1266); (634, 754); (635, 1778); (637, 1522);
   (638, 1010); (639, 2034); (641, 1034); (643, 1546); (645, 1290); (646, 778); (647, 1802); (649, 1162);
   (651, 1674); (653, 1418); (654, 906); (655, 1930); (657, 1098); (659, 1610); (661, 1354); (662, 842);
   (663, 1866); (665, 1226); (666, 714); (667, 1738); (669, 1482); (670, 970); (671, 1994); (673, 1066);
   (675, 1578); (677, 1322); (678, 810); (679, 1834); (681, 1194); (683, 1706); (685, 1450); (686, 938);
   (687, 1962); (689, 1130); (691, 1642); (693, 1386); (694, 874); (695, 1898); (697, 1258); (698, 746);
   (699, 1770); (701, 1514); (702, 1002); (703, 2026); (705, 1050); (707, 1562); (709, 1306); (710, 794);
   (711, 1818); (713, 1178); (715, 1690); (717, 1434); (718, 922); (719, 1946); (721, 1114); (723, 1626);
   (725, 1370); (726, 858); (727, 1882); (729, 1242); (731, 1754); (733, 1498); (734, 986); (735, 2010);
   (737, 1082); (739, 1594); (741, 1338); (742, 826); (743, 1850); (745, 1210); (747, 1722); (749, 1466);
   (750, 954); (751, 1978); (753, 1146); (755, 1658); (757, 1402); (758, 890); (759, 1914); (761, 1274);
   (763, 1786); (765, 1530); (766, 1018); (767, 2042); (769, 1030); (771, 1542); (773, 1286); (775, 1798);
   (777, 1158); (779, 1670); (781, 1414); (782, 902); (783, 1926); (785, 1094); (787, 1606); (789, 1350);
   (790, 838); (791, 1862); (793, 1222); (795, 1734); (797, 1478); (798, 966); (799, 1990); (801, 1062);
   (803, 1574); (805, 1318); (807, 1830); (809, 1190); (811, 1702); (813, 1446); (814, 934); (815, 1958);
   (817, 1126); (819, 1638); (821, 1382); (822, 870); (823, 1894); (825, 1254); (827, 1766); (829, 1510);
   (830, 998); (831, 2022); (833, 1046); (835, 1558); (837, 1302); (839, 1814); (841, 1174); (843, 1686);
   (845, 1430); (846, 918); (847, 1942); (849, 1110); (851, 1622); (853, 1366); (855, 1878); (857, 1238);
   (859, 1750); (861, 1494); (862, 982); (863, 2006); (865, 1078); (867, 1590); (869, 1334); (871, 1846);
   (873, 1206); (875, 1718); (877, 1462); (878, 950); (879, 1974); (881, 1142); (883, 1654); (885, 1398);
   (887, 1910); (889, 1270); (891, 1782); (893, 1526); (894, 1014); (895, 2038); (897, 1038); (899, 1550);
   (901, 1294); (903, 1806); (905, 1166); (907, 1678); (909, 1422); (911, 1934); (913, 1102); (915, 1614);
   (917, 1358); (919, 1870); (921, 1230); (923, 1742); (925, 1486); (926, 974); (927, 1998); (929, 1070);
   (931, 1582); (933, 1326); (935, 1838); (937, 1198); (939, 1710); (941, 1454); (943, 1966); (945, 1134);
   (947, 1646); (949, 1390); (951, 1902); (953, 1262); (955, 1774); (957, 1518); (958, 1006); (959, 2030);
   (961, 1054); (963, 1566); (965, 1310); (967, 1822); (969, 1182); (971, 1694); (973, 1438); (975, 1950);
   (977, 1118); (979, 1630); (981, 1374); (983, 1886); (985, 1246); (987, 1758); (989, 1502); (991, 2014);
   (993, 1086); (995, 1598); (997, 1342); (999, 1854); (1001, 1214); (1003, 1726); (1005, 1470); (1007, 1982);
   (1009, 1150); (1011, 1662); (1013, 1406); (1015, 1918); (1017, 1278); (1019, 1790); (1021, 1534); (1023, 2046);
   (1027, 1537); (1029, 1281); (1031, 1793); (1033, 1153); (1035, 1665); (1037, 1409); (1039, 1921); (1041, 1089);
   (1043, 1601); (1045, 1345); (1047, 1857); (1049, 1217); (1051, 1729); (1053, 1473); (1055, 1985); (1059, 1569);
   (1061, 1313); (1063, 1825); (1065, 1185); (1067, 1697); (1069, 1441); (1071, 1953); (1073, 1121); (1075, 1633);
   (1077, 1377); (1079, 1889); (1081, 1249); (1083, 1761); (1085, 1505); (1087, 2017); (1091, 1553); (1093, 1297);
   (1095, 1809); (1097, 1169); (1099, 1681); (1101, 1425); (1103, 1937); (1107, 1617); (1109, 1361); (1111, 1873);
   (1113, 1233); (1115, 1745); (1117, 1489); (1119, 2001); (1123, 1585); (1125, 1329); (1127, 1841); (1129, 1201);
   (1131, 1713); (1133, 1457); (1135, 1969); (1139, 1649); (1141, 1393); (1143, 1905); (1145, 1265); (1147, 1777);
   (1149, 1521); (1151, 2033); (1155, 1545); (1157, 1289); (1159, 1801); (1163, 1673); (1165, 1417); (1167, 1929);
   (1171, 1609); (1173, 1353); (1175, 1865); (1177, 1225); (1179, 1737); (1181, 1481); (1183, 1993); (1187, 1577);
   (1189, 1321); (1191, 1833); (1195, 1705); (1197, 1449); (1199, 1961); (1203, 1641); (1205, 1385); (1207, 1897);
   (1209, 1257); (1211, 1769); (1213, 1513); (1215, 2025); (1219, 1561); (1221, 1305); (1223, 1817); (1227, 1689);
   (1229, 1433); (1231, 1945); (1235, 1625); (1237, 1369); (1239, 1881); (1243, 1753); (1245, 1497); (1247, 2009);
   (1251, 1593); (1253, 1337); (1255, 1849); (1259, 1721); (1261, 1465); (1263, 1977); (1267, 1657); (1269, 1401);
   (1271, 1913); (1275, 1785); (1277, 1529); (1279, 2041); (1283, 1541); (1287, 1797); (1291, 1669); (1293, 1413);
   (1295, 1925); (1299, 1605); (1301, 1349); (1303, 1861); (1307, 1733); (1309, 1477); (1311, 1989); (1315, 1573);
   (1319, 1829); (1323, 1701); (1325, 1445); (1327, 1957); (1331, 1637); (1333, 1381); (1335, 1893); (1339, 1765);
   (1341, 1509); (1343, 2021); (1347, 1557); (1351, 1813); (1355, 1685); (1357, 1429); (1359, 1941); (1363, 1621);
   (1367, 1877); (1371, 1749); (1373, 1493); (1375, 2005); (1379, 1589); (1383, 1845); (1387, 1717); (1389, 1461);
   (1391, 1973); (1395, 1653); (1399, 1909); (1403, 1781); (1405, 1525); (1407, 2037); (1411, 1549); (1415, 1805);
   (1419, 1677); (1423, 1933); (1427, 1613); (1431, 1869); (1435, 1741); (1437, 1485); (1439, 1997); (1443, 1581);
   (1447, 1837); (1451, 1709); (1455, 1965); (1459, 1645); (1463, 1901); (1467, 1773); (1469, 1517); (1471, 2029);
   (1475, 1565); (1479, 1821); (1483, 1693); (1487, 1949); (1491, 1629); (1495, 1885); (1499, 1757); (1503, 2013);
   (1507, 1597); (1511, 1853); (1515, 1725); (1519, 1981); (1523, 1661); (1527, 1917); (1531, 1789); (1535, 2045);
   (1543, 1795); (1547, 1667); (1551, 1923); (1555, 1603); (1559, 1859); (1563, 1731); (1567, 1987); (1575, 1827);
   (1579, 1699); (1583, 1955); (1587, 1635); (1591, 1891); (1595, 1763); (1599, 2019); (1607, 1811); (1611, 1683);
   (1615, 1939); (1623, 1875); (1627, 1747); (1631, 2003); (1639, 1843); (1643, 1715); (1647, 1971); (1655, 1907);
   (1659, 1779); (1663, 2035); (1671, 1803); (1679, 1931); (1687, 1867); (1691, 1739); (1695, 1995); (1703, 1835);
   (1711, 1963); (1719, 1899); (1723, 1771); (1727, 2027); (1735, 1819); (1743, 1947); (1751, 1883); (1759, 2011);
   (1767, 1851); (1775, 1979); (1783, 1915); (1791, 2043); (1807, 1927); (1815, 1863); (1823, 1991); (1839, 1959);
   (1847, 1895); (1855, 2023); (1871, 1943); (1887, 2007); (1903, 1975); (1919, 2039); (1951, 1999); (1983, 2031)].

(** ** src/test_ntt_red_tables.c *)

(** test_ntt_red_tables.c 21-24 *)
Definition shoup_red_ntt16_12289 : list Z := [
   0; 8193; 8193; 493; 8193; 5444; 493; 2381; 8193; 10377; 5444; 11854; 493; 10911; 2381; 7952].

(** test_ntt_red_tables.c 27-30 *)
Definition shoup_sred_ntt16_12289 : list Z := [
   0; (-4096); (-4096); 493; (-4096); 5444; 493; 2381; (-4096); (-1912); 5444; (-435); 493; (-1378); 2381; (-4337)].

(** test_ntt_red_tables.c 34-37 *)
Definition rev_shoup_red_ntt16_12289 : list Z := [
   0; 8193; 8193; 493; 8193; 493; 5444; 2381; 8193; 493; 5444; 2381; 10377; 10911; 11854; 7952].

(** test_ntt_red_tables.c 40-43 *)
Definition rev_shoup_sred_ntt16_12289 : list Z := [
   0; (-4096); (-4096); 493; (-4096); 493; 5444; 2381; (-4096); 493; 5444; 2381; (-1912); (-1378); (-435); (-4337)].

(** test_ntt_red_tables.c 47-50 *)
Definition shoup_red_scaled_ntt16_12289 : list Z := [
   0; 493; 5444; 2381; 10377; 11854; 10911; 7952; 404; 5277; 11224; 1207; 7644; 1168; 10146; 3248].

(** test_ntt_red_tables.c 53-56 *)
Definition shoup_sred_scaled_ntt16_12289 : list Z := [
   0; 493; 5444; 2381; (-1912); (-435); (-1378); (-4337); 404; 5277; (-1065); 1207; (-4645); 1168; (-2143); 3248].

(** test_ntt_red_tables.c 61-64 *)
Definition rev_shoup_red_scaled_ntt16_12289 : list Z := [
   0; 493; 5444; 2381; 10377; 10911; 11854; 7952; 404; 7644; 11224; 10146; 5277; 1168; 1207; 3248].

(** test_ntt_red_tables.c 67-70 *)
Definition rev_shoup_sred_scaled_ntt16_12289 : list Z := [
   0; 493; 5444; 2381; (-1912); (-1378); (-435); (-4337); 404; (-4645); (-1065); (-2143); 5277; 1168; 1207; 3248].

(** test_ntt_red_tables.c 83-100 *)
Definition shoup_red_ntt128_12289 : list Z := [
   0; 8193; 8193; 493; 8193; 5444; 493; 2381; 8193; 1912; 5444; 435; 493; 1378; 2381; 4337;
   8193; 7644; 1912; 11121; 5444; 10146; 435; 9041; 493; 11885; 1378; 5277; 2381; 1065; 4337; 1207;
   8193; 2187; 7644; 875; 1912; 9852; 11121; 5088; 5444; 6250; 10146; 10682; 435; 2987; 9041; 11287;
   493; 2566; 11885; 3780; 1378; 8643; 5277; 4284; 2381; 2422; 1065; 7313; 4337; 6022; 1207; 5011;
   8193; 12262; 2187; 7188; 7644; 7575; 875; 2859; 1912; 4885; 9852; 773; 11121; 8585; 5088; 5698;
   5444; 1440; 6250; 9888; 10146; 1537; 10682; 7277; 435; 1632; 2987; 3833; 9041; 5019; 11287; 7428;
   493; 9223; 2566; 1067; 11885; 8146; 3780; 1045; 1378; 11272; 8643; 390; 5277; 2678; 4284; 9377;
   2381; 3763; 2422; 442; 1065; 12047; 7313; 9808; 4337; 5084; 6022; 3778; 1207; 545; 5011; 11935].

(** test_ntt_red_tables.c 102-119 *)
Definition shoup_sred_ntt128_12289 : list Z := [
   0; (-4096); (-4096); 493; (-4096); 5444; 493; 2381; (-4096); 1912; 5444; 435; 493; 1378; 2381; 4337;
   (-4096); (-4645); 1912; (-1168); 5444; (-2143); 435; (-3248); 493; (-404); 1378; 5277; 2381; 1065; 4337; 1207;
   (-4096); 2187; (-4645); 875; 1912; (-2437); (-1168); 5088; 5444; (-6039); (-2143); (-1607); 435; 2987; (-3248); (-1002);
   493; 2566; (-404); 3780; 1378; (-3646); 5277; 4284; 2381; 2422; 1065; (-4976); 4337; 6022; 1207; 5011;
   (-4096); (-27); 2187; (-5101); (-4645); (-4714); 875; 2859; 1912; 4885; (-2437); 773; (-1168); (-3704); 5088; 5698;
   5444; 1440; (-6039); (-2401); (-2143); 1537; (-1607); (-5012); 435; 1632; 2987; 3833; (-3248); 5019; (-1002); (-4861);
   493; (-3066); 2566; 1067; (-404); (-4143); 3780; 1045; 1378; (-1017); (-3646); 390; 5277; 2678; 4284; (-2912);
   2381; 3763; 2422; 442; 1065; (-242); (-4976); (-2481); 4337; 5084; 6022; 3778; 1207; 545; 5011; (-354)].

(** test_ntt_red_tables.c 121-138 *)
Definition rev_shoup_red_ntt128_12289 : list Z := [
   0; 8193; 8193; 493; 8193; 493; 5444; 2381; 8193; 493; 5444; 2381; 1912; 1378; 435; 4337;
   8193; 493; 5444; 2381; 1912; 1378; 435; 4337; 7644; 11885; 10146; 1065; 11121; 5277; 9041; 1207;
   8193; 493; 5444; 2381; 1912; 1378; 435; 4337; 7644; 11885; 10146; 1065; 11121; 5277; 9041; 1207;
   2187; 2566; 6250; 2422; 9852; 8643; 2987; 6022; 875; 3780; 10682; 7313; 5088; 4284; 11287; 5011;
   8193; 493; 5444; 2381; 1912; 1378; 435; 4337; 7644; 11885; 10146; 1065; 11121; 5277; 9041; 1207;
   2187; 2566; 6250; 2422; 9852; 8643; 2987; 6022; 875; 3780; 10682; 7313; 5088; 4284; 11287; 5011;
   12262; 9223; 1440; 3763; 4885; 11272; 1632; 5084; 7575; 8146; 1537; 12047; 8585; 2678; 5019; 545;
   7188; 1067; 9888; 442; 773; 390; 3833; 3778; 2859; 1045; 7277; 9808; 5698; 9377; 7428; 11935].

(** test_ntt_red_tables.c 140-157 *)
Definition rev_shoup_sred_ntt128_12289 : list Z := [
   0; (-4096); (-4096); 493; (-4096); 493; 5444; 2381; (-4096); 493; 5444; 2381; 1912; 1378; 435; 4337;
   (-4096); 493; 5444; 2381; 1912; 1378; 435; 4337; (-4645); (-404); (-2143); 1065; (-1168); 5277; (-3248); 1207;
   (-4096); 493; 5444; 2381; 1912; 1378; 435; 4337; (-4645); (-404); (-2143); 1065; (-1168); 5277; (-3248); 1207;
   2187; 2566; (-6039); 2422; (-2437); (-3646); 2987; 6022; 875; 3780; (-1607); (-4976); 5088; 4284; (-1002); 5011;
   (-4096); 493; 5444; 2381; 1912; 1378; 435; 4337; (-4645); (-404); (-2143); 1065; (-1168); 5277; (-3248); 1207;
   2187; 2566; (-6039); 2422; (-2437); (-3646); 2987; 6022; 875; 3780; (-1607); (-4976); 5088; 4284; (-1002); 5011;
   (-27); (-3066); 1440; 3763; 4885; (-1017); 1632; 5084; (-4714); (-4143); 1537; (-242); (-3704); 2678; 5019; 545;
   (-5101); 1067; (-2401); 442; 773; 390; 3833; 3778; 2859; 1045; (-5012); (-2481); 5698; (-2912); (-4861); (-354)].

(** test_ntt_red_tables.c 159-176 *)
Definition shoup_red_scaled_ntt128_12289 : list Z := [
   0; 493; 5444; 2381; 1912; 435; 1378; 4337; 7644; 11121; 10146; 9041; 11885; 5277; 1065; 1207;
   2187; 875; 9852; 5088; 6250; 10682; 2987; 11287; 2566; 3780; 8643; 4284; 2422; 7313; 6022; 5011;
   12262; 7188; 7575; 2859; 4885; 773; 8585; 5698; 1440; 9888; 1537; 7277; 1632; 3833; 5019; 7428;
   9223; 1067; 8146; 1045; 11272; 390; 2678; 9377; 3763; 442; 12047; 9808; 5084; 3778; 545; 11935;
   4437; 9273; 10805; 9603; 8653; 11869; 9442; 9405; 113; 3136; 4053; 3510; 10626; 11813; 1689; 10659;
   9140; 9289; 9509; 3978; 9585; 10111; 4372; 2249; 2166; 8889; 5042; 9424; 10863; 4905; 8232; 9103;
   12286; 243; 4895; 9042; 4938; 5559; 4414; 11136; 7370; 5191; 9644; 5332; 10512; 8758; 3364; 10163;
   160; 11618; 5195; 9320; 6998; 10745; 2174; 8241; 8374; 9890; 9984; 2370; 4654; 3985; 9018; 6882].

(** test_ntt_red_tables.c 178-195 *)
Definition shoup_sred_scaled_ntt128_12289 : list Z := [
   0; 493; 5444; 2381; 1912; 435; 1378; 4337; (-4645); (-1168); (-2143); (-3248); (-404); 5277; 1065; 1207;
   2187; 875; (-2437); 5088; (-6039); (-1607); 2987; (-1002); 2566; 3780; (-3646); 4284; 2422; (-4976); 6022; 5011;
   (-27); (-5101); (-4714); 2859; 4885; 773; (-3704); 5698; 1440; (-2401); 1537; (-5012); 1632; 3833; 5019; (-4861);
   (-3066); 1067; (-4143); 1045; (-1017); 390; 2678; (-2912); 3763; 442; (-242); (-2481); 5084; 3778; 545; (-354);
   4437; (-3016); (-1484); (-2686); (-3636); (-420); (-2847); (-2884); 113; 3136; 4053; 3510; (-1663); (-476); 1689; (-1630);
   (-3149); (-3000); (-2780); 3978; (-2704); (-2178); 4372; 2249; 2166; (-3400); 5042; (-2865); (-1426); 4905; (-4057); (-3186);
   (-3); 243; 4895; (-3247); 4938; 5559; 4414; (-1153); (-4919); 5191; (-2645); 5332; (-1777); (-3531); 3364; (-2126);
   160; (-671); 5195; (-2969); (-5291); (-1544); 2174; (-4048); (-3915); (-2399); (-2305); 2370; 4654; 3985; (-3271); (-5407)].

(** test_ntt_red_tables.c 197-214 *)
Definition rev_shoup_red_scaled_ntt128_12289 : list Z := [
   0; 493; 5444; 2381; 1912; 1378; 435; 4337; 7644; 11885; 10146; 1065; 11121; 5277; 9041; 1207;
   2187; 2566; 6250; 2422; 9852; 8643; 2987; 6022; 875; 3780; 10682; 7313; 5088; 4284; 11287; 5011;
   12262; 9223; 1440; 3763; 4885; 11272; 1632; 5084; 7575; 8146; 1537; 12047; 8585; 2678; 5019; 545;
   7188; 1067; 9888; 442; 773; 390; 3833; 3778; 2859; 1045; 7277; 9808; 5698; 9377; 7428; 11935;
   4437; 12286; 9140; 160; 113; 7370; 2166; 8374; 8653; 4938; 9585; 6998; 10626; 10512; 10863; 4654;
   10805; 4895; 9509; 5195; 4053; 9644; 5042; 9984; 9442; 4414; 4372; 2174; 1689; 3364; 8232; 9018;
   9273; 243; 9289; 11618; 3136; 5191; 8889; 9890; 11869; 5559; 10111; 10745; 11813; 8758; 4905; 3985;
   9603; 9042; 3978; 9320; 3510; 5332; 9424; 2370; 9405; 11136; 2249; 8241; 10659; 10163; 9103; 6882].

(** test_ntt_red_tables.c 216-233 *)
Definition rev_shoup_sred_scaled_ntt128_12289 : list Z := [
   0; 493; 5444; 2381; 1912; 1378; 435; 4337; (-4645); (-404); (-2143); 1065; (-1168); 5277; (-3248); 1207;
   2187; 2566; (-6039); 2422; (-2437); (-3646); 2987; 6022; 875; 3780; (-1607); (-4976); 5088; 4284; (-1002); 5011;
   (-27); (-3066); 1440; 3763; 4885; (-1017); 1632; 5084; (-4714); (-4143); 1537; (-242); (-3704); 2678; 5019; 545;
   (-5101); 1067; (-2401); 442; 773; 390; 3833; 3778; 2859; 1045; (-5012); (-2481); 5698; (-2912); (-4861); (-354);
   4437; (-3); (-3149); 160; 113; (-4919); 2166; (-3915); (-3636); 4938; (-2704); (-5291); (-1663); (-1777); (-1426); 4654;
   (-1484); 4895; (-2780); 5195; 4053; (-2645); 5042; (-2305); (-2847); 4414; 4372; 2174; 1689; 3364; (-4057); (-3271);
   (-3016); 243; (-3000); (-671); 3136; 5191; (-3400); (-2399); (-420); 5559; (-2178); (-1544); (-476); (-3531); 4905; 3985;
   (-2686); (-3247); 3978; (-2969); 3510; 5332; (-2865); 2370; (-2884); (-1153); 2249; (-4048); (-1630); (-2126); (-3186); (-5407)].

(** test_ntt_red_tables.c 246-279 *)
Definition shoup_red_ntt256_12289 : list Z := [
   0; 8193; 8193; 11796; 8193; 9908; 11796; 6845; 8193; 4337; 9908; 1378; 11796; 435; 6845; 1912;
   8193; 3248; 4337; 10146; 9908; 1168; 1378; 7644; 11796; 1207; 435; 11224; 6845; 5277; 1912; 404;
   8193; 8005; 3248; 2437; 4337; 3780; 10146; 2187; 9908; 1002; 1168; 6022; 1378; 10682; 7644; 9867;
   11796; 7201; 1207; 8643; 435; 875; 11224; 9723; 6845; 5011; 5277; 2987; 1912; 4976; 404; 6039;
   8193; 9808; 8005; 8146; 3248; 9888; 2437; 12262; 4337; 2912; 3780; 7270; 10146; 11516; 2187; 5084;
   9908; 1045; 1002; 1537; 1168; 7188; 6022; 8526; 1378; 4861; 10682; 3704; 7644; 3778; 9867; 11272;
   11796; 7277; 7201; 7575; 1207; 11847; 8643; 3066; 435; 6591; 875; 545; 11224; 390; 9723; 1632;
   6845; 2859; 5011; 242; 5277; 11222; 2987; 10849; 1912; 11935; 4976; 2678; 404; 3833; 6039; 4885;
   8193; 2865; 9808; 9509; 8005; 9153; 8146; 4437; 3248; 8241; 9888; 8925; 2437; 5559; 12262; 1426;
   4337; 3978; 2912; 8236; 3780; 9273; 7270; 8374; 10146; 2126; 11516; 4414; 2187; 7384; 5084; 9585;
   9908; 8779; 1045; 10805; 1002; 9890; 1537; 12129; 1168; 11136; 7188; 4057; 6022; 10111; 8526; 1663;
   1378; 9603; 4861; 9984; 10682; 671; 3704; 7370; 7644; 3186; 3778; 4372; 9867; 476; 11272; 8653;
   11796; 2370; 7277; 7094; 7201; 5191; 7575; 3; 1207; 2249; 11847; 10600; 8643; 11869; 3066; 4654;
   435; 2969; 6591; 9644; 875; 12046; 545; 2166; 11224; 1630; 390; 9442; 9723; 3985; 1632; 5291;
   6845; 5332; 2859; 7394; 5011; 8889; 242; 3149; 5277; 9405; 11222; 9018; 2987; 1544; 10849; 10512;
   1912; 3247; 11935; 5042; 4976; 3000; 2678; 113; 404; 6882; 3833; 10115; 6039; 8758; 4885; 7351].

(** test_ntt_red_tables.c 281-314 *)
Definition shoup_sred_ntt256_12289 : list Z := [
   0; (-4096); (-4096); (-493); (-4096); (-2381); (-493); (-5444); (-4096); 4337; (-2381); 1378; (-493); 435; (-5444); 1912;
   (-4096); 3248; 4337; (-2143); (-2381); 1168; 1378; (-4645); (-493); 1207; 435; (-1065); (-5444); 5277; 1912; 404;
   (-4096); (-4284); 3248; 2437; 4337; 3780; (-2143); 2187; (-2381); 1002; 1168; 6022; 1378; (-1607); (-4645); (-2422);
   (-493); (-5088); 1207; (-3646); 435; 875; (-1065); (-2566); (-5444); 5011; 5277; 2987; 1912; 4976; 404; 6039;
   (-4096); (-2481); (-4284); (-4143); 3248; (-2401); 2437; (-27); 4337; 2912; 3780; (-5019); (-2143); (-773); 2187; 5084;
   (-2381); 1045; 1002; 1537; 1168; (-5101); 6022; (-3763); 1378; 4861; (-1607); 3704; (-4645); 3778; (-2422); (-1017);
   (-493); (-5012); (-5088); (-4714); 1207; (-442); (-3646); 3066; 435; (-5698); 875; 545; (-1065); 390; (-2566); 1632;
   (-5444); 2859; 5011; 242; 5277; (-1067); 2987; (-1440); 1912; (-354); 4976; 2678; 404; 3833; 6039; 4885;
   (-4096); 2865; (-2481); (-2780); (-4284); (-3136); (-4143); 4437; 3248; (-4048); (-2401); (-3364); 2437; 5559; (-27); 1426;
   4337; 3978; 2912; (-4053); 3780; (-3016); (-5019); (-3915); (-2143); 2126; (-773); 4414; 2187; (-4905); 5084; (-2704);
   (-2381); (-3510); 1045; (-1484); 1002; (-2399); 1537; (-160); 1168; (-1153); (-5101); 4057; 6022; (-2178); (-3763); 1663;
   1378; (-2686); 4861; (-2305); (-1607); 671; 3704; (-4919); (-4645); 3186; 3778; 4372; (-2422); 476; (-1017); (-3636);
   (-493); 2370; (-5012); (-5195); (-5088); 5191; (-4714); 3; 1207; 2249; (-442); (-1689); (-3646); (-420); 3066; 4654;
   435; 2969; (-5698); (-2645); 875; (-243); 545; 2166; (-1065); 1630; 390; (-2847); (-2566); 3985; 1632; 5291;
   (-5444); 5332; 2859; (-4895); 5011; (-3400); 242; 3149; 5277; (-2884); (-1067); (-3271); 2987; 1544; (-1440); (-1777);
   1912; 3247; (-354); 5042; 4976; 3000; 2678; 113; 404; (-5407); 3833; (-2174); 6039; (-3531); 4885; (-4938)].

(** test_ntt_red_tables.c 316-349 *)
Definition rev_shoup_red_ntt256_12289 : list Z := [
   0; 8193; 8193; 11796; 8193; 11796; 9908; 6845; 8193; 11796; 9908; 6845; 4337; 435; 1378; 1912;
   8193; 11796; 9908; 6845; 4337; 435; 1378; 1912; 3248; 1207; 1168; 5277; 10146; 11224; 7644; 404;
   8193; 11796; 9908; 6845; 4337; 435; 1378; 1912; 3248; 1207; 1168; 5277; 10146; 11224; 7644; 404;
   8005; 7201; 1002; 5011; 3780; 875; 10682; 4976; 2437; 8643; 6022; 2987; 2187; 9723; 9867; 6039;
   8193; 11796; 9908; 6845; 4337; 435; 1378; 1912; 3248; 1207; 1168; 5277; 10146; 11224; 7644; 404;
   8005; 7201; 1002; 5011; 3780; 875; 10682; 4976; 2437; 8643; 6022; 2987; 2187; 9723; 9867; 6039;
   9808; 7277; 1045; 2859; 2912; 6591; 4861; 11935; 9888; 11847; 7188; 11222; 11516; 390; 3778; 3833;
   8146; 7575; 1537; 242; 7270; 545; 3704; 2678; 12262; 3066; 8526; 10849; 5084; 1632; 11272; 4885;
   8193; 11796; 9908; 6845; 4337; 435; 1378; 1912; 3248; 1207; 1168; 5277; 10146; 11224; 7644; 404;
   8005; 7201; 1002; 5011; 3780; 875; 10682; 4976; 2437; 8643; 6022; 2987; 2187; 9723; 9867; 6039;
   9808; 7277; 1045; 2859; 2912; 6591; 4861; 11935; 9888; 11847; 7188; 11222; 11516; 390; 3778; 3833;
   8146; 7575; 1537; 242; 7270; 545; 3704; 2678; 12262; 3066; 8526; 10849; 5084; 1632; 11272; 4885;
   2865; 2370; 8779; 5332; 3978; 2969; 9603; 3247; 8241; 2249; 11136; 9405; 2126; 1630; 3186; 6882;
   9153; 5191; 9890; 8889; 9273; 12046; 671; 3000; 5559; 11869; 10111; 1544; 7384; 3985; 476; 8758;
   9509; 7094; 10805; 7394; 8236; 9644; 9984; 5042; 8925; 10600; 4057; 9018; 4414; 9442; 4372; 10115;
   4437; 3; 12129; 3149; 8374; 2166; 7370; 113; 1426; 4654; 1663; 10512; 9585; 5291; 8653; 7351].

(** test_ntt_red_tables.c 351-384 *)
Definition rev_shoup_sred_ntt256_12289 : list Z := [
   0; (-4096); (-4096); (-493); (-4096); (-493); (-2381); (-5444); (-4096); (-493); (-2381); (-5444); 4337; 435; 1378; 1912;
   (-4096); (-493); (-2381); (-5444); 4337; 435; 1378; 1912; 3248; 1207; 1168; 5277; (-2143); (-1065); (-4645); 404;
   (-4096); (-493); (-2381); (-5444); 4337; 435; 1378; 1912; 3248; 1207; 1168; 5277; (-2143); (-1065); (-4645); 404;
   (-4284); (-5088); 1002; 5011; 3780; 875; (-1607); 4976; 2437; (-3646); 6022; 2987; 2187; (-2566); (-2422); 6039;
   (-4096); (-493); (-2381); (-5444); 4337; 435; 1378; 1912; 3248; 1207; 1168; 5277; (-2143); (-1065); (-4645); 404;
   (-4284); (-5088); 1002; 5011; 3780; 875; (-1607); 4976; 2437; (-3646); 6022; 2987; 2187; (-2566); (-2422); 6039;
   (-2481); (-5012); 1045; 2859; 2912; (-5698); 4861; (-354); (-2401); (-442); (-5101); (-1067); (-773); 390; 3778; 3833;
   (-4143); (-4714); 1537; 242; (-5019); 545; 3704; 2678; (-27); 3066; (-3763); (-1440); 5084; 1632; (-1017); 4885;
   (-4096); (-493); (-2381); (-5444); 4337; 435; 1378; 1912; 3248; 1207; 1168; 5277; (-2143); (-1065); (-4645); 404;
   (-4284); (-5088); 1002; 5011; 3780; 875; (-1607); 4976; 2437; (-3646); 6022; 2987; 2187; (-2566); (-2422); 6039;
   (-2481); (-5012); 1045; 2859; 2912; (-5698); 4861; (-354); (-2401); (-442); (-5101); (-1067); (-773); 390; 3778; 3833;
   (-4143); (-4714); 1537; 242; (-5019); 545; 3704; 2678; (-27); 3066; (-3763); (-1440); 5084; 1632; (-1017); 4885;
   2865; 2370; (-3510); 5332; 3978; 2969; (-2686); 3247; (-4048); 2249; (-1153); (-2884); 2126; 1630; 3186; (-5407);
   (-3136); 5191; (-2399); (-3400); (-3016); (-243); 671; 3000; 5559; (-420); (-2178); 1544; (-4905); 3985; 476; (-3531);
   (-2780); (-5195); (-1484); (-4895); (-4053); (-2645); (-2305); 5042; (-3364); (-1689); 4057; (-3271); 4414; (-2847); 4372; (-2174);
   4437; 3; (-160); 3149; (-3915); 2166; (-4919); 113; 1426; 4654; 1663; (-1777); (-2704); 5291; (-3636); (-4938)].

(** test_ntt_red_tables.c 386-419 *)
Definition shoup_red_scaled_ntt256_12289 : list Z := [
   0; 11796; 9908; 6845; 4337; 1378; 435; 1912; 3248; 10146; 1168; 7644; 1207; 11224; 5277; 404;
   8005; 2437; 3780; 2187; 1002; 6022; 10682; 9867; 7201; 8643; 875; 9723; 5011; 2987; 4976; 6039;
   9808; 8146; 9888; 12262; 2912; 7270; 11516; 5084; 1045; 1537; 7188; 8526; 4861; 3704; 3778; 11272;
   7277; 7575; 11847; 3066; 6591; 545; 390; 1632; 2859; 242; 11222; 10849; 11935; 2678; 3833; 4885;
   2865; 9509; 9153; 4437; 8241; 8925; 5559; 1426; 3978; 8236; 9273; 8374; 2126; 4414; 7384; 9585;
   8779; 10805; 9890; 12129; 11136; 4057; 10111; 1663; 9603; 9984; 671; 7370; 3186; 4372; 476; 8653;
   2370; 7094; 5191; 3; 2249; 10600; 11869; 4654; 2969; 9644; 12046; 2166; 1630; 9442; 3985; 5291;
   5332; 7394; 8889; 3149; 9405; 9018; 1544; 10512; 3247; 5042; 3000; 113; 6882; 10115; 8758; 7351;
   334; 7393; 8705; 4043; 8582; 3712; 2396; 9545; 10200; 11563; 2842; 8747; 8652; 3201; 9813; 3328;
   7657; 4320; 5331; 6553; 2548; 1062; 9452; 9650; 3289; 4255; 11950; 11077; 3932; 790; 6522; 6461;
   10593; 9923; 2525; 1; 8595; 4846; 3949; 11726; 2881; 12149; 1022; 9744; 145; 5086; 2197; 7311;
   4388; 12208; 4278; 722; 11934; 8736; 130; 11340; 3241; 9521; 544; 5860; 6378; 9970; 953; 6561;
   9863; 2963; 4177; 5146; 1759; 3135; 7837; 3006; 5092; 4611; 11809; 3504; 8830; 9275; 12171; 5777;
   5755; 1000; 4989; 4134; 4231; 2294; 5374; 7468; 2013; 11112; 9821; 10643; 9558; 11334; 827; 5023;
   1428; 9238; 1381; 10810; 7110; 9542; 8993; 9314; 3284; 10436; 9; 3621; 6747; 10963; 7222; 1351;
   11029; 9198; 1673; 1305; 8907; 7484; 4354; 2625; 11560; 1635; 6498; 9094; 4890; 1170; 3748; 4591].

(** test_ntt_red_tables.c 421-454 *)
Definition shoup_sred_scaled_ntt256_12289 : list Z := [
   0; (-493); (-2381); (-5444); 4337; 1378; 435; 1912; 3248; (-2143); 1168; (-4645); 1207; (-1065); 5277; 404;
   (-4284); 2437; 3780; 2187; 1002; 6022; (-1607); (-2422); (-5088); (-3646); 875; (-2566); 5011; 2987; 4976; 6039;
   (-2481); (-4143); (-2401); (-27); 2912; (-5019); (-773); 5084; 1045; 1537; (-5101); (-3763); 4861; 3704; 3778; (-1017);
   (-5012); (-4714); (-442); 3066; (-5698); 545; 390; 1632; 2859; 242; (-1067); (-1440); (-354); 2678; 3833; 4885;
   2865; (-2780); (-3136); 4437; (-4048); (-3364); 5559; 1426; 3978; (-4053); (-3016); (-3915); 2126; 4414; (-4905); (-2704);
   (-3510); (-1484); (-2399); (-160); (-1153); 4057; (-2178); 1663; (-2686); (-2305); 671; (-4919); 3186; 4372; 476; (-3636);
   2370; (-5195); 5191; 3; 2249; (-1689); (-420); 4654; 2969; (-2645); (-243); 2166; 1630; (-2847); 3985; 5291;
   5332; (-4895); (-3400); 3149; (-2884); (-3271); 1544; (-1777); 3247; 5042; 3000; 113; (-5407); (-2174); (-3531); (-4938);
   334; (-4896); (-3584); 4043; (-3707); 3712; 2396; (-2744); (-2089); (-726); 2842; (-3542); (-3637); 3201; (-2476); 3328;
   (-4632); 4320; 5331; (-5736); 2548; 1062; (-2837); (-2639); 3289; 4255; (-339); (-1212); 3932; 790; (-5767); (-5828);
   (-1696); (-2366); 2525; 1; (-3694); 4846; 3949; (-563); 2881; (-140); 1022; (-2545); 145; 5086; 2197; (-4978);
   4388; (-81); 4278; 722; (-355); (-3553); 130; (-949); 3241; (-2768); 544; 5860; (-5911); (-2319); 953; (-5728);
   (-2426); 2963; 4177; 5146; 1759; 3135; (-4452); 3006; 5092; 4611; (-480); 3504; (-3459); (-3014); (-118); 5777;
   5755; 1000; 4989; 4134; 4231; 2294; 5374; (-4821); 2013; (-1177); (-2468); (-1646); (-2731); (-955); 827; 5023;
   1428; (-3051); 1381; (-1479); (-5179); (-2747); (-3296); (-2975); 3284; (-1853); 9; 3621; (-5542); (-1326); (-5067); 1351;
   (-1260); (-3091); 1673; 1305; (-3382); (-4805); 4354; 2625; (-729); 1635; (-5791); (-3195); 4890; 1170; 3748; 4591].

(** test_ntt_red_tables.c 456-489 *)
Definition rev_shoup_red_scaled_ntt256_12289 : list Z := [
   0; 11796; 9908; 6845; 4337; 435; 1378; 1912; 3248; 1207; 1168; 5277; 10146; 11224; 7644; 404;
   8005; 7201; 1002; 5011; 3780; 875; 10682; 4976; 2437; 8643; 6022; 2987; 2187; 9723; 9867; 6039;
   9808; 7277; 1045; 2859; 2912; 6591; 4861; 11935; 9888; 11847; 7188; 11222; 11516; 390; 3778; 3833;
   8146; 7575; 1537; 242; 7270; 545; 3704; 2678; 12262; 3066; 8526; 10849; 5084; 1632; 11272; 4885;
   2865; 2370; 8779; 5332; 3978; 2969; 9603; 3247; 8241; 2249; 11136; 9405; 2126; 1630; 3186; 6882;
   9153; 5191; 9890; 8889; 9273; 12046; 671; 3000; 5559; 11869; 10111; 1544; 7384; 3985; 476; 8758;
   9509; 7094; 10805; 7394; 8236; 9644; 9984; 5042; 8925; 10600; 4057; 9018; 4414; 9442; 4372; 10115;
   4437; 3; 12129; 3149; 8374; 2166; 7370; 113; 1426; 4654; 1663; 10512; 9585; 5291; 8653; 7351;
   334; 9863; 10593; 1428; 7657; 5755; 4388; 11029; 10200; 5092; 2881; 3284; 3289; 2013; 3241; 11560;
   8582; 1759; 8595; 7110; 2548; 4231; 11934; 8907; 8652; 8830; 145; 6747; 3932; 9558; 6378; 4890;
   8705; 4177; 2525; 1381; 5331; 4989; 4278; 1673; 2842; 11809; 1022; 9; 11950; 9821; 544; 6498;
   2396; 7837; 3949; 8993; 9452; 5374; 130; 4354; 9813; 12171; 2197; 7222; 6522; 827; 953; 3748;
   7393; 2963; 9923; 9238; 4320; 1000; 12208; 9198; 11563; 4611; 12149; 10436; 4255; 11112; 9521; 1635;
   3712; 3135; 4846; 9542; 1062; 2294; 8736; 7484; 3201; 9275; 5086; 10963; 790; 11334; 9970; 1170;
   4043; 5146; 1; 10810; 6553; 4134; 722; 1305; 8747; 3504; 9744; 3621; 11077; 10643; 5860; 9094;
   9545; 3006; 11726; 9314; 9650; 7468; 11340; 2625; 3328; 5777; 7311; 1351; 6461; 5023; 6561; 4591].

(** test_ntt_red_tables.c 491-524 *)
Definition rev_shoup_sred_scaled_ntt256_12289 : list Z := [
   0; (-493); (-2381); (-5444); 4337; 435; 1378; 1912; 3248; 1207; 1168; 5277; (-2143); (-1065); (-4645); 404;
   (-4284); (-5088); 1002; 5011; 3780; 875; (-1607); 4976; 2437; (-3646); 6022; 2987; 2187; (-2566); (-2422); 6039;
   (-2481); (-5012); 1045; 2859; 2912; (-5698); 4861; (-354); (-2401); (-442); (-5101); (-1067); (-773); 390; 3778; 3833;
   (-4143); (-4714); 1537; 242; (-5019); 545; 3704; 2678; (-27); 3066; (-3763); (-1440); 5084; 1632; (-1017); 4885;
   2865; 2370; (-3510); 5332; 3978; 2969; (-2686); 3247; (-4048); 2249; (-1153); (-2884); 2126; 1630; 3186; (-5407);
   (-3136); 5191; (-2399); (-3400); (-3016); (-243); 671; 3000; 5559; (-420); (-2178); 1544; (-4905); 3985; 476; (-3531);
   (-2780); (-5195); (-1484); (-4895); (-4053); (-2645); (-2305); 5042; (-3364); (-1689); 4057; (-3271); 4414; (-2847); 4372; (-2174);
   4437; 3; (-160); 3149; (-3915); 2166; (-4919); 113; 1426; 4654; 1663; (-1777); (-2704); 5291; (-3636); (-4938);
   334; (-2426); (-1696); 1428; (-4632); 5755; 4388; (-1260); (-2089); 5092; 2881; 3284; 3289; 2013; 3241; (-729);
   (-3707); 1759; (-3694); (-5179); 2548; 4231; (-355); (-3382); (-3637); (-3459); 145; (-5542); 3932; (-2731); (-5911); 4890;
   (-3584); 4177; 2525; 1381; 5331; 4989; 4278; 1673; 2842; (-480); 1022; 9; (-339); (-2468); 544; (-5791);
   2396; (-4452); 3949; (-3296); (-2837); 5374; 130; 4354; (-2476); (-118); 2197; (-5067); (-5767); 827; 953; 3748;
   (-4896); 2963; (-2366); (-3051); 4320; 1000; (-81); (-3091); (-726); 4611; (-140); (-1853); 4255; (-1177); (-2768); 1635;
   3712; 3135; 4846; (-2747); 1062; 2294; (-3553); (-4805); 3201; (-3014); 5086; (-1326); 790; (-955); (-2319); 1170;
   4043; 5146; 1; (-1479); (-5736); 4134; 722; 1305; (-3542); 3504; (-2545); 3621; (-1212); (-1646); 5860; (-3195);
   (-2744); 3006; (-563); (-2975); (-2639); (-4821); (-949); 2625; 3328; 5777; (-4978); 1351; (-5828); 5023; (-5728); 4591].

(** test_ntt_red_tables.c 537-602 *)
Definition shoup_red_ntt512_12289 : list Z := [
   0; 8193; 8193; 493; 8193; 5444; 493; 2381; 8193; 10377; 5444; 11854; 493; 10911; 2381; 7952;
   8193; 404; 10377; 5277; 5444; 11224; 11854; 1207; 493; 7644; 10911; 1168; 2381; 10146; 7952; 3248;
   8193; 9867; 404; 1607; 10377; 6022; 5277; 11287; 5444; 2187; 11224; 8509; 11854; 2437; 1207; 4284;
   493; 6250; 7644; 4976; 10911; 9302; 1168; 5011; 2381; 2566; 10146; 875; 7952; 3646; 3248; 7201;
   8193; 7205; 9867; 11899; 404; 7270; 1607; 6591; 10377; 27; 6022; 442; 5277; 8146; 11287; 7277;
   5444; 4885; 2187; 8511; 11224; 9611; 8509; 4861; 11854; 10849; 2437; 5101; 1207; 12047; 4284; 1045;
   493; 1632; 6250; 773; 7644; 11744; 4976; 2912; 10911; 3066; 9302; 2401; 1168; 4714; 5011; 9808;
   2381; 11272; 2566; 3833; 10146; 8585; 875; 354; 7952; 8526; 3646; 11222; 3248; 10752; 7201; 9430;
   8193; 4654; 7205; 10745; 9867; 3364; 11899; 11136; 404; 12286; 7270; 8889; 1607; 9509; 6591; 3510;
   10377; 8653; 27; 8304; 6022; 10115; 442; 2126; 5277; 4919; 8146; 12046; 11287; 7247; 7277; 8311;
   5444; 1663; 4885; 420; 2187; 9018; 8511; 8241; 11224; 160; 9611; 5191; 8509; 4895; 4861; 9424;
   11854; 9585; 10849; 11813; 2437; 9442; 5101; 5407; 1207; 3915; 12047; 671; 4284; 2645; 1045; 3247;
   493; 1426; 1632; 2178; 6250; 10600; 773; 2884; 7644; 7852; 11744; 9890; 4976; 5195; 2912; 5332;
   10911; 4938; 3066; 4905; 9302; 4372; 2401; 10659; 1168; 113; 4714; 9273; 5011; 2305; 9808; 2969;
   2381; 1777; 11272; 6730; 2566; 4057; 3833; 10040; 10146; 3149; 8585; 9153; 875; 1484; 354; 2370;
   7952; 6998; 8526; 8758; 3646; 4414; 11222; 9103; 3248; 2166; 10752; 9289; 7201; 4053; 9430; 9603;
   8193; 11726; 4654; 4354; 7205; 9154; 10745; 2548; 9867; 10810; 3364; 8011; 11899; 7393; 11136; 5755;
   404; 5828; 12286; 5067; 7270; 9970; 8889; 3637; 1607; 1646; 9509; 1022; 6591; 1635; 3510; 7197;
   10377; 9650; 8653; 8993; 27; 3553; 8304; 8582; 6022; 4134; 10115; 9764; 442; 3091; 2126; 9863;
   5277; 8961; 4919; 11462; 8146; 5086; 12046; 4890; 11287; 8785; 7247; 11950; 7277; 10436; 8311; 9048;
   5444; 9545; 1663; 5374; 4885; 7443; 420; 3382; 2187; 5146; 9018; 6958; 8511; 3051; 8241; 4388;
   11224; 4591; 160; 118; 9611; 790; 5191; 6747; 8509; 6429; 4895; 2842; 4861; 11112; 9424; 9408;
   11854; 9664; 9585; 7837; 10849; 11227; 11813; 5179; 2437; 722; 9442; 3584; 5101; 11289; 5407; 10593;
   1207; 1351; 3915; 11336; 12047; 3201; 671; 9558; 4284; 2545; 2645; 5791; 1045; 4611; 3247; 9000;
   493; 2975; 1426; 130; 1632; 8577; 2178; 8058; 6250; 1; 10600; 1673; 773; 9326; 2884; 7657;
   7644; 5023; 7852; 10092; 11744; 11119; 9890; 8830; 4976; 1212; 5195; 12280; 2912; 9521; 5332; 2089;
   10911; 4821; 4938; 3949; 3066; 7484; 4905; 10530; 9302; 6553; 4372; 1381; 2401; 81; 10659; 334;
   1168; 5777; 113; 5767; 4714; 1326; 9273; 6378; 5011; 3542; 2305; 2468; 9808; 12149; 2969; 11560;
   2381; 9283; 1777; 9452; 11272; 9542; 6730; 355; 2566; 4043; 4057; 4989; 3833; 2366; 10040; 1260;
   10146; 6561; 3149; 2476; 8585; 955; 9153; 145; 875; 9094; 1484; 480; 354; 4255; 2370; 3284;
   7952; 949; 6998; 2396; 8526; 2294; 8758; 3694; 3646; 10984; 4414; 4177; 11222; 7969; 9103; 10861;
   3248; 7311; 2166; 3748; 10752; 3014; 9289; 3932; 7201; 3621; 4053; 11745; 9430; 11563; 9603; 2013].

(** test_ntt_red_tables.c 604-669 *)
Definition shoup_sred_ntt512_12289 : list Z := [
   0; (-4096); (-4096); 493; (-4096); 5444; 493; 2381; (-4096); (-1912); 5444; (-435); 493; (-1378); 2381; (-4337);
   (-4096); 404; (-1912); 5277; 5444; (-1065); (-435); 1207; 493; (-4645); (-1378); 1168; 2381; (-2143); (-4337); 3248;
   (-4096); (-2422); 404; 1607; (-1912); 6022; 5277; (-1002); 5444; 2187; (-1065); (-3780); (-435); 2437; 1207; 4284;
   493; (-6039); (-4645); 4976; (-1378); (-2987); 1168; 5011; 2381; 2566; (-2143); 875; (-4337); 3646; 3248; (-5088);
   (-4096); (-5084); (-2422); (-390); 404; (-5019); 1607; (-5698); (-1912); 27; 6022; 442; 5277; (-4143); (-1002); (-5012);
   5444; 4885; 2187; (-3778); (-1065); (-2678); (-3780); 4861; (-435); (-1440); 2437; 5101; 1207; (-242); 4284; 1045;
   493; 1632; (-6039); 773; (-4645); (-545); 4976; 2912; (-1378); 3066; (-2987); 2401; 1168; 4714; 5011; (-2481);
   2381; (-1017); 2566; 3833; (-2143); (-3704); 875; 354; (-4337); (-3763); 3646; (-1067); 3248; (-1537); (-5088); (-2859);
   (-4096); 4654; (-5084); (-1544); (-2422); 3364; (-390); (-1153); 404; (-3); (-5019); (-3400); 1607; (-2780); (-5698); 3510;
   (-1912); (-3636); 27; (-3985); 6022; (-2174); 442; 2126; 5277; 4919; (-4143); (-243); (-1002); (-5042); (-5012); (-3978);
   5444; 1663; 4885; 420; 2187; (-3271); (-3778); (-4048); (-1065); 160; (-2678); 5191; (-3780); 4895; 4861; (-2865);
   (-435); (-2704); (-1440); (-476); 2437; (-2847); 5101; 5407; 1207; 3915; (-242); 671; 4284; 2645; 1045; 3247;
   493; 1426; 1632; 2178; (-6039); (-1689); 773; 2884; (-4645); (-4437); (-545); (-2399); 4976; 5195; 2912; 5332;
   (-1378); 4938; 3066; 4905; (-2987); 4372; 2401; (-1630); 1168; 113; 4714; (-3016); 5011; 2305; (-2481); 2969;
   2381; 1777; (-1017); (-5559); 2566; 4057; 3833; (-2249); (-2143); 3149; (-3704); (-3136); 875; 1484; 354; 2370;
   (-4337); (-5291); (-3763); (-3531); 3646; 4414; (-1067); (-3186); 3248; 2166; (-1537); (-3000); (-5088); 4053; (-2859); (-2686);
   (-4096); (-563); 4654; 4354; (-5084); (-3135); (-1544); 2548; (-2422); (-1479); 3364; (-4278); (-390); (-4896); (-1153); 5755;
   404; 5828; (-3); 5067; (-5019); (-2319); (-3400); 3637; 1607; 1646; (-2780); 1022; (-5698); 1635; 3510; (-5092);
   (-1912); (-2639); (-3636); (-3296); 27; 3553; (-3985); (-3707); 6022; 4134; (-2174); (-2525); 442; 3091; 2126; (-2426);
   5277; (-3328); 4919; (-827); (-4143); 5086; (-243); 4890; (-1002); (-3504); (-5042); (-339); (-5012); (-1853); (-3978); (-3241);
   5444; (-2744); 1663; 5374; 4885; (-4846); 420; 3382; 2187; 5146; (-3271); (-5331); (-3778); 3051; (-4048); 4388;
   (-1065); 4591; 160; 118; (-2678); 790; 5191; (-5542); (-3780); (-5860); 4895; 2842; 4861; (-1177); (-2865); (-2881);
   (-435); (-2625); (-2704); (-4452); (-1440); (-1062); (-476); 5179; 2437; 722; (-2847); 3584; 5101; (-1000); 5407; (-1696);
   1207; 1351; 3915; (-953); (-242); 3201; 671; (-2731); 4284; 2545; 2645; 5791; 1045; 4611; 3247; (-3289);
   493; 2975; 1426; 130; 1632; (-3712); 2178; (-4231); (-6039); 1; (-1689); 1673; 773; (-2963); 2884; (-4632);
   (-4645); 5023; (-4437); (-2197); (-545); (-1170); (-2399); (-3459); 4976; 1212; 5195; (-9); 2912; (-2768); 5332; 2089;
   (-1378); 4821; 4938; 3949; 3066; (-4805); 4905; (-1759); (-2987); (-5736); 4372; 1381; 2401; 81; (-1630); 334;
   1168; 5777; 113; 5767; 4714; 1326; (-3016); (-5911); 5011; 3542; 2305; 2468; (-2481); (-140); 2969; (-729);
   2381; (-3006); 1777; (-2837); (-1017); (-2747); (-5559); 355; 2566; 4043; 4057; 4989; 3833; 2366; (-2249); 1260;
   (-2143); (-5728); 3149; 2476; (-3704); 955; (-3136); 145; 875; (-3195); 1484; 480; 354; 4255; 2370; 3284;
   (-4337); 949; (-5291); 2396; (-3763); 2294; (-3531); 3694; 3646; (-1305); 4414; 4177; (-1067); (-4320); (-3186); (-1428);
   3248; (-4978); 2166; 3748; (-1537); 3014; (-3000); 3932; (-5088); 3621; 4053; (-544); (-2859); (-726); (-2686); 2013].

(** test_ntt_red_tables.c 671-736 *)
Definition rev_shoup_red_ntt512_12289 : list Z := [
   0; 8193; 8193; 493; 8193; 493; 5444; 2381; 8193; 493; 5444; 2381; 10377; 10911; 11854; 7952;
   8193; 493; 5444; 2381; 10377; 10911; 11854; 7952; 404; 7644; 11224; 10146; 5277; 1168; 1207; 3248;
   8193; 493; 5444; 2381; 10377; 10911; 11854; 7952; 404; 7644; 11224; 10146; 5277; 1168; 1207; 3248;
   9867; 6250; 2187; 2566; 6022; 9302; 2437; 3646; 1607; 4976; 8509; 875; 11287; 5011; 4284; 7201;
   8193; 493; 5444; 2381; 10377; 10911; 11854; 7952; 404; 7644; 11224; 10146; 5277; 1168; 1207; 3248;
   9867; 6250; 2187; 2566; 6022; 9302; 2437; 3646; 1607; 4976; 8509; 875; 11287; 5011; 4284; 7201;
   7205; 1632; 4885; 11272; 27; 3066; 10849; 8526; 7270; 11744; 9611; 8585; 8146; 4714; 12047; 10752;
   11899; 773; 8511; 3833; 442; 2401; 5101; 11222; 6591; 2912; 4861; 354; 7277; 9808; 1045; 9430;
   8193; 493; 5444; 2381; 10377; 10911; 11854; 7952; 404; 7644; 11224; 10146; 5277; 1168; 1207; 3248;
   9867; 6250; 2187; 2566; 6022; 9302; 2437; 3646; 1607; 4976; 8509; 875; 11287; 5011; 4284; 7201;
   7205; 1632; 4885; 11272; 27; 3066; 10849; 8526; 7270; 11744; 9611; 8585; 8146; 4714; 12047; 10752;
   11899; 773; 8511; 3833; 442; 2401; 5101; 11222; 6591; 2912; 4861; 354; 7277; 9808; 1045; 9430;
   4654; 1426; 1663; 1777; 8653; 4938; 9585; 6998; 12286; 7852; 160; 3149; 4919; 113; 3915; 2166;
   3364; 10600; 9018; 4057; 10115; 4372; 9442; 4414; 9509; 5195; 4895; 1484; 7247; 2305; 2645; 4053;
   10745; 2178; 420; 6730; 8304; 4905; 11813; 8758; 8889; 9890; 5191; 9153; 12046; 9273; 671; 9289;
   11136; 2884; 8241; 10040; 2126; 10659; 5407; 9103; 3510; 5332; 9424; 2370; 8311; 2969; 3247; 9603;
   8193; 493; 5444; 2381; 10377; 10911; 11854; 7952; 404; 7644; 11224; 10146; 5277; 1168; 1207; 3248;
   9867; 6250; 2187; 2566; 6022; 9302; 2437; 3646; 1607; 4976; 8509; 875; 11287; 5011; 4284; 7201;
   7205; 1632; 4885; 11272; 27; 3066; 10849; 8526; 7270; 11744; 9611; 8585; 8146; 4714; 12047; 10752;
   11899; 773; 8511; 3833; 442; 2401; 5101; 11222; 6591; 2912; 4861; 354; 7277; 9808; 1045; 9430;
   4654; 1426; 1663; 1777; 8653; 4938; 9585; 6998; 12286; 7852; 160; 3149; 4919; 113; 3915; 2166;
   3364; 10600; 9018; 4057; 10115; 4372; 9442; 4414; 9509; 5195; 4895; 1484; 7247; 2305; 2645; 4053;
   10745; 2178; 420; 6730; 8304; 4905; 11813; 8758; 8889; 9890; 5191; 9153; 12046; 9273; 671; 9289;
   11136; 2884; 8241; 10040; 2126; 10659; 5407; 9103; 3510; 5332; 9424; 2370; 8311; 2969; 3247; 9603;
   11726; 2975; 9545; 9283; 9650; 4821; 9664; 949; 5828; 5023; 4591; 6561; 8961; 5777; 1351; 7311;
   10810; 1; 5146; 4043; 4134; 6553; 722; 10984; 1646; 1212; 6429; 9094; 8785; 3542; 2545; 3621;
   9154; 8577; 7443; 9542; 3553; 7484; 11227; 2294; 9970; 11119; 790; 955; 5086; 1326; 3201; 3014;
   7393; 9326; 3051; 2366; 3091; 81; 11289; 7969; 1635; 9521; 11112; 4255; 10436; 12149; 4611; 11563;
   4354; 130; 5374; 9452; 8993; 3949; 7837; 2396; 5067; 10092; 118; 2476; 11462; 5767; 11336; 3748;
   8011; 1673; 6958; 4989; 9764; 1381; 3584; 4177; 1022; 12280; 2842; 480; 11950; 2468; 5791; 11745;
   2548; 8058; 3382; 355; 8582; 10530; 5179; 3694; 3637; 8830; 6747; 145; 4890; 6378; 9558; 3932;
   5755; 7657; 4388; 1260; 9863; 334; 10593; 10861; 7197; 2089; 9408; 3284; 9048; 11560; 9000; 2013].

(** test_ntt_red_tables.c 738-803 *)
Definition rev_shoup_sred_ntt512_12289 : list Z := [
   0; (-4096); (-4096); 493; (-4096); 493; 5444; 2381; (-4096); 493; 5444; 2381; (-1912); (-1378); (-435); (-4337);
   (-4096); 493; 5444; 2381; (-1912); (-1378); (-435); (-4337); 404; (-4645); (-1065); (-2143); 5277; 1168; 1207; 3248;
   (-4096); 493; 5444; 2381; (-1912); (-1378); (-435); (-4337); 404; (-4645); (-1065); (-2143); 5277; 1168; 1207; 3248;
   (-2422); (-6039); 2187; 2566; 6022; (-2987); 2437; 3646; 1607; 4976; (-3780); 875; (-1002); 5011; 4284; (-5088);
   (-4096); 493; 5444; 2381; (-1912); (-1378); (-435); (-4337); 404; (-4645); (-1065); (-2143); 5277; 1168; 1207; 3248;
   (-2422); (-6039); 2187; 2566; 6022; (-2987); 2437; 3646; 1607; 4976; (-3780); 875; (-1002); 5011; 4284; (-5088);
   (-5084); 1632; 4885; (-1017); 27; 3066; (-1440); (-3763); (-5019); (-545); (-2678); (-3704); (-4143); 4714; (-242); (-1537);
   (-390); 773; (-3778); 3833; 442; 2401; 5101; (-1067); (-5698); 2912; 4861; 354; (-5012); (-2481); 1045; (-2859);
   (-4096); 493; 5444; 2381; (-1912); (-1378); (-435); (-4337); 404; (-4645); (-1065); (-2143); 5277; 1168; 1207; 3248;
   (-2422); (-6039); 2187; 2566; 6022; (-2987); 2437; 3646; 1607; 4976; (-3780); 875; (-1002); 5011; 4284; (-5088);
   (-5084); 1632; 4885; (-1017); 27; 3066; (-1440); (-3763); (-5019); (-545); (-2678); (-3704); (-4143); 4714; (-242); (-1537);
   (-390); 773; (-3778); 3833; 442; 2401; 5101; (-1067); (-5698); 2912; 4861; 354; (-5012); (-2481); 1045; (-2859);
   4654; 1426; 1663; 1777; (-3636); 4938; (-2704); (-5291); (-3); (-4437); 160; 3149; 4919; 113; 3915; 2166;
   3364; (-1689); (-3271); 4057; (-2174); 4372; (-2847); 4414; (-2780); 5195; 4895; 1484; (-5042); 2305; 2645; 4053;
   (-1544); 2178; 420; (-5559); (-3985); 4905; (-476); (-3531); (-3400); (-2399); 5191; (-3136); (-243); (-3016); 671; (-3000);
   (-1153); 2884; (-4048); (-2249); 2126; (-1630); 5407; (-3186); 3510; 5332; (-2865); 2370; (-3978); 2969; 3247; (-2686);
   (-4096); 493; 5444; 2381; (-1912); (-1378); (-435); (-4337); 404; (-4645); (-1065); (-2143); 5277; 1168; 1207; 3248;
   (-2422); (-6039); 2187; 2566; 6022; (-2987); 2437; 3646; 1607; 4976; (-3780); 875; (-1002); 5011; 4284; (-5088);
   (-5084); 1632; 4885; (-1017); 27; 3066; (-1440); (-3763); (-5019); (-545); (-2678); (-3704); (-4143); 4714; (-242); (-1537);
   (-390); 773; (-3778); 3833; 442; 2401; 5101; (-1067); (-5698); 2912; 4861; 354; (-5012); (-2481); 1045; (-2859);
   4654; 1426; 1663; 1777; (-3636); 4938; (-2704); (-5291); (-3); (-4437); 160; 3149; 4919; 113; 3915; 2166;
   3364; (-1689); (-3271); 4057; (-2174); 4372; (-2847); 4414; (-2780); 5195; 4895; 1484; (-5042); 2305; 2645; 4053;
   (-1544); 2178; 420; (-5559); (-3985); 4905; (-476); (-3531); (-3400); (-2399); 5191; (-3136); (-243); (-3016); 671; (-3000);
   (-1153); 2884; (-4048); (-2249); 2126; (-1630); 5407; (-3186); 3510; 5332; (-2865); 2370; (-3978); 2969; 3247; (-2686);
   (-563); 2975; (-2744); (-3006); (-2639); 4821; (-2625); 949; 5828; 5023; 4591; (-5728); (-3328); 5777; 1351; (-4978);
   (-1479); 1; 5146; 4043; 4134; (-5736); 722; (-1305); 1646; 1212; (-5860); (-3195); (-3504); 3542; 2545; 3621;
   (-3135); (-3712); (-4846); (-2747); 3553; (-4805); (-1062); 2294; (-2319); (-1170); 790; 955; 5086; 1326; 3201; 3014;
   (-4896); (-2963); 3051; 2366; 3091; 81; (-1000); (-4320); 1635; (-2768); (-1177); 4255; (-1853); (-140); 4611; (-726);
   4354; 130; 5374; (-2837); (-3296); 3949; (-4452); 2396; 5067; (-2197); 118; 2476; (-827); 5767; (-953); 3748;
   (-4278); 1673; (-5331); 4989; (-2525); 1381; 3584; 4177; 1022; (-9); 2842; 480; (-339); 2468; 5791; (-544);
   2548; (-4231); 3382; 355; (-3707); (-1759); 5179; 3694; 3637; (-3459); (-5542); 145; 4890; (-5911); (-2731); 3932;
   5755; (-4632); 4388; 1260; (-2426); 334; (-1696); (-1428); (-5092); 2089; (-2881); 3284; (-3241); (-729); (-3289); 2013].

(** test_ntt_red_tables.c 805-870 *)
Definition shoup_red_scaled_ntt512_12289 : list Z := [
   0; 493; 5444; 2381; 10377; 11854; 10911; 7952; 404; 5277; 11224; 1207; 7644; 1168; 10146; 3248;
   9867; 1607; 6022; 11287; 2187; 8509; 2437; 4284; 6250; 4976; 9302; 5011; 2566; 875; 3646; 7201;
   7205; 11899; 7270; 6591; 27; 442; 8146; 7277; 4885; 8511; 9611; 4861; 10849; 5101; 12047; 1045;
   1632; 773; 11744; 2912; 3066; 2401; 4714; 9808; 11272; 3833; 8585; 354; 8526; 11222; 10752; 9430;
   4654; 10745; 3364; 11136; 12286; 8889; 9509; 3510; 8653; 8304; 10115; 2126; 4919; 12046; 7247; 8311;
   1663; 420; 9018; 8241; 160; 5191; 4895; 9424; 9585; 11813; 9442; 5407; 3915; 671; 2645; 3247;
   1426; 2178; 10600; 2884; 7852; 9890; 5195; 5332; 4938; 4905; 4372; 10659; 113; 9273; 2305; 2969;
   1777; 6730; 4057; 10040; 3149; 9153; 1484; 2370; 6998; 8758; 4414; 9103; 2166; 9289; 4053; 9603;
   11726; 4354; 9154; 2548; 10810; 8011; 7393; 5755; 5828; 5067; 9970; 3637; 1646; 1022; 1635; 7197;
   9650; 8993; 3553; 8582; 4134; 9764; 3091; 9863; 8961; 11462; 5086; 4890; 8785; 11950; 10436; 9048;
   9545; 5374; 7443; 3382; 5146; 6958; 3051; 4388; 4591; 118; 790; 6747; 6429; 2842; 11112; 9408;
   9664; 7837; 11227; 5179; 722; 3584; 11289; 10593; 1351; 11336; 3201; 9558; 2545; 5791; 4611; 9000;
   2975; 130; 8577; 8058; 1; 1673; 9326; 7657; 5023; 10092; 11119; 8830; 1212; 12280; 9521; 2089;
   4821; 3949; 7484; 10530; 6553; 1381; 81; 334; 5777; 5767; 1326; 6378; 3542; 2468; 12149; 11560;
   9283; 9452; 9542; 355; 4043; 4989; 2366; 1260; 6561; 2476; 955; 145; 9094; 480; 4255; 3284;
   949; 2396; 2294; 3694; 10984; 4177; 7969; 10861; 7311; 3748; 3014; 3932; 3621; 11745; 11563; 2013;
   8527; 605; 10431; 4467; 683; 1579; 12071; 11821; 3956; 3532; 6906; 10316; 2078; 4912; 10996; 8724;
   11964; 8209; 9280; 6844; 4433; 8953; 6142; 10367; 1962; 4212; 1263; 5079; 11580; 5468; 5876; 4948;
   11637; 7507; 2925; 12142; 2503; 12138; 9259; 5446; 6167; 5009; 6920; 11248; 922; 3445; 6381; 12233;
   8561; 4624; 5868; 6171; 10542; 1323; 2051; 1359; 2692; 142; 5942; 4075; 11454; 9369; 3991; 5862;
   4016; 504; 8974; 7540; 8633; 5906; 3434; 382; 6119; 58; 350; 11011; 7967; 192; 7515; 1702;
   948; 8687; 723; 7753; 5257; 5874; 8326; 8291; 5961; 8851; 6374; 11767; 9139; 11502; 2031; 10561;
   6099; 9260; 3757; 7840; 5782; 3957; 1843; 8579; 11089; 11404; 7796; 6364; 4079; 4698; 3772; 7083;
   6299; 3263; 6554; 2683; 3054; 3174; 9407; 1254; 7991; 8812; 10800; 7965; 3570; 4169; 156; 6874;
   2919; 9987; 4754; 7500; 2459; 431; 9381; 8301; 1360; 1003; 1815; 6715; 1112; 2049; 4737; 11635;
   10885; 11868; 10596; 8429; 6370; 6234; 2447; 8410; 1594; 11314; 49; 3262; 8243; 1010; 2281; 6137;
   6523; 5886; 347; 3789; 2948; 10162; 4115; 5339; 2555; 10333; 10232; 8775; 11848; 7509; 11836; 3199;
   4049; 6212; 2738; 8471; 9166; 2766; 10335; 6854; 12121; 1105; 1583; 5315; 6224; 7048; 3969; 6153;
   4077; 8076; 426; 5537; 12225; 9784; 3529; 11973; 5297; 12048; 1512; 2344; 10331; 1321; 5429; 10302;
   1146; 6068; 174; 1050; 8455; 11612; 576; 10256; 5106; 2844; 1483; 2169; 10970; 3482; 5333; 400;
   295; 5594; 1975; 6833; 10723; 2839; 9928; 6093; 7105; 6008; 3202; 11271; 11231; 5057; 11871; 5529;
   1159; 8689; 9634; 11099; 6803; 12237; 1805; 11316; 8960; 6608; 9789; 7373; 8049; 9162; 9522; 3643].

(** test_ntt_red_tables.c 872-937 *)
Definition shoup_sred_scaled_ntt512_12289 : list Z := [
   0; 493; 5444; 2381; (-1912); (-435); (-1378); (-4337); 404; 5277; (-1065); 1207; (-4645); 1168; (-2143); 3248;
   (-2422); 1607; 6022; (-1002); 2187; (-3780); 2437; 4284; (-6039); 4976; (-2987); 5011; 2566; 875; 3646; (-5088);
   (-5084); (-390); (-5019); (-5698); 27; 442; (-4143); (-5012); 4885; (-3778); (-2678); 4861; (-1440); 5101; (-242); 1045;
   1632; 773; (-545); 2912; 3066; 2401; 4714; (-2481); (-1017); 3833; (-3704); 354; (-3763); (-1067); (-1537); (-2859);
   4654; (-1544); 3364; (-1153); (-3); (-3400); (-2780); 3510; (-3636); (-3985); (-2174); 2126; 4919; (-243); (-5042); (-3978);
   1663; 420; (-3271); (-4048); 160; 5191; 4895; (-2865); (-2704); (-476); (-2847); 5407; 3915; 671; 2645; 3247;
   1426; 2178; (-1689); 2884; (-4437); (-2399); 5195; 5332; 4938; 4905; 4372; (-1630); 113; (-3016); 2305; 2969;
   1777; (-5559); 4057; (-2249); 3149; (-3136); 1484; 2370; (-5291); (-3531); 4414; (-3186); 2166; (-3000); 4053; (-2686);
   (-563); 4354; (-3135); 2548; (-1479); (-4278); (-4896); 5755; 5828; 5067; (-2319); 3637; 1646; 1022; 1635; (-5092);
   (-2639); (-3296); 3553; (-3707); 4134; (-2525); 3091; (-2426); (-3328); (-827); 5086; 4890; (-3504); (-339); (-1853); (-3241);
   (-2744); 5374; (-4846); 3382; 5146; (-5331); 3051; 4388; 4591; 118; 790; (-5542); (-5860); 2842; (-1177); (-2881);
   (-2625); (-4452); (-1062); 5179; 722; 3584; (-1000); (-1696); 1351; (-953); 3201; (-2731); 2545; 5791; 4611; (-3289);
   2975; 130; (-3712); (-4231); 1; 1673; (-2963); (-4632); 5023; (-2197); (-1170); (-3459); 1212; (-9); (-2768); 2089;
   4821; 3949; (-4805); (-1759); (-5736); 1381; 81; 334; 5777; 5767; 1326; (-5911); 3542; 2468; (-140); (-729);
   (-3006); (-2837); (-2747); 355; 4043; 4989; 2366; 1260; (-5728); 2476; 955; 145; (-3195); 480; 4255; 3284;
   949; 2396; 2294; 3694; (-1305); 4177; (-4320); (-1428); (-4978); 3748; 3014; 3932; 3621; (-544); (-726); 2013;
   (-3762); 605; (-1858); 4467; 683; 1579; (-218); (-468); 3956; 3532; (-5383); (-1973); 2078; 4912; (-1293); (-3565);
   (-325); (-4080); (-3009); (-5445); 4433; (-3336); 6142; (-1922); 1962; 4212; 1263; 5079; (-709); 5468; 5876; 4948;
   (-652); (-4782); 2925; (-147); 2503; (-151); (-3030); 5446; (-6122); 5009; (-5369); (-1041); 922; 3445; (-5908); (-56);
   (-3728); 4624; 5868; (-6118); (-1747); 1323; 2051; 1359; 2692; 142; 5942; 4075; (-835); (-2920); 3991; 5862;
   4016; 504; (-3315); (-4749); (-3656); 5906; 3434; 382; 6119; 58; 350; (-1278); (-4322); 192; (-4774); 1702;
   948; (-3602); 723; (-4536); 5257; 5874; (-3963); (-3998); 5961; (-3438); (-5915); (-522); (-3150); (-787); 2031; (-1728);
   6099; (-3029); 3757; (-4449); 5782; 3957; 1843; (-3710); (-1200); (-885); (-4493); (-5925); 4079; 4698; 3772; (-5206);
   (-5990); 3263; (-5735); 2683; 3054; 3174; (-2882); 1254; (-4298); (-3477); (-1489); (-4324); 3570; 4169; 156; (-5415);
   2919; (-2302); 4754; (-4789); 2459; 431; (-2908); (-3988); 1360; 1003; 1815; (-5574); 1112; 2049; 4737; (-654);
   (-1404); (-421); (-1693); (-3860); (-5919); (-6055); 2447; (-3879); 1594; (-975); 49; 3262; (-4046); 1010; 2281; 6137;
   (-5766); 5886; 347; 3789; 2948; (-2127); 4115; 5339; 2555; (-1956); (-2057); (-3514); (-441); (-4780); (-453); 3199;
   4049; (-6077); 2738; (-3818); (-3123); 2766; (-1954); (-5435); (-168); 1105; 1583; 5315; (-6065); (-5241); 3969; (-6136);
   4077; (-4213); 426; 5537; (-64); (-2505); 3529; (-316); 5297; (-241); 1512; 2344; (-1958); 1321; 5429; (-1987);
   1146; 6068; 174; 1050; (-3834); (-677); 576; (-2033); 5106; 2844; 1483; 2169; (-1319); 3482; 5333; 400;
   295; 5594; 1975; (-5456); (-1566); 2839; (-2361); 6093; (-5184); 6008; 3202; (-1018); (-1058); 5057; (-418); 5529;
   1159; (-3600); (-2655); (-1190); (-5486); (-52); 1805; (-973); (-3329); (-5681); (-2500); (-4916); (-4240); (-3127); (-2767); 3643].

(** test_ntt_red_tables.c 939-1004 *)
Definition rev_shoup_red_scaled_ntt512_12289 : list Z := [
   0; 493; 5444; 2381; 10377; 10911; 11854; 7952; 404; 7644; 11224; 10146; 5277; 1168; 1207; 3248;
   9867; 6250; 2187; 2566; 6022; 9302; 2437; 3646; 1607; 4976; 8509; 875; 11287; 5011; 4284; 7201;
   7205; 1632; 4885; 11272; 27; 3066; 10849; 8526; 7270; 11744; 9611; 8585; 8146; 4714; 12047; 10752;
   11899; 773; 8511; 3833; 442; 2401; 5101; 11222; 6591; 2912; 4861; 354; 7277; 9808; 1045; 9430;
   4654; 1426; 1663; 1777; 8653; 4938; 9585; 6998; 12286; 7852; 160; 3149; 4919; 113; 3915; 2166;
   3364; 10600; 9018; 4057; 10115; 4372; 9442; 4414; 9509; 5195; 4895; 1484; 7247; 2305; 2645; 4053;
   10745; 2178; 420; 6730; 8304; 4905; 11813; 8758; 8889; 9890; 5191; 9153; 12046; 9273; 671; 9289;
   11136; 2884; 8241; 10040; 2126; 10659; 5407; 9103; 3510; 5332; 9424; 2370; 8311; 2969; 3247; 9603;
   11726; 2975; 9545; 9283; 9650; 4821; 9664; 949; 5828; 5023; 4591; 6561; 8961; 5777; 1351; 7311;
   10810; 1; 5146; 4043; 4134; 6553; 722; 10984; 1646; 1212; 6429; 9094; 8785; 3542; 2545; 3621;
   9154; 8577; 7443; 9542; 3553; 7484; 11227; 2294; 9970; 11119; 790; 955; 5086; 1326; 3201; 3014;
   7393; 9326; 3051; 2366; 3091; 81; 11289; 7969; 1635; 9521; 11112; 4255; 10436; 12149; 4611; 11563;
   4354; 130; 5374; 9452; 8993; 3949; 7837; 2396; 5067; 10092; 118; 2476; 11462; 5767; 11336; 3748;
   8011; 1673; 6958; 4989; 9764; 1381; 3584; 4177; 1022; 12280; 2842; 480; 11950; 2468; 5791; 11745;
   2548; 8058; 3382; 355; 8582; 10530; 5179; 3694; 3637; 8830; 6747; 145; 4890; 6378; 9558; 3932;
   5755; 7657; 4388; 1260; 9863; 334; 10593; 10861; 7197; 2089; 9408; 3284; 9048; 11560; 9000; 2013;
   8527; 2919; 4016; 4077; 11637; 6523; 6099; 295; 11964; 10885; 948; 1146; 8561; 4049; 6299; 1159;
   3956; 1360; 6119; 5297; 6167; 2555; 11089; 7105; 1962; 1594; 5961; 5106; 2692; 12121; 7991; 8960;
   683; 2459; 8633; 12225; 2503; 2948; 5782; 10723; 4433; 6370; 5257; 8455; 10542; 9166; 3054; 6803;
   2078; 1112; 7967; 10331; 922; 11848; 4079; 11231; 11580; 8243; 9139; 10970; 11454; 6224; 3570; 8049;
   10431; 4754; 8974; 426; 2925; 347; 3757; 1975; 9280; 10596; 723; 174; 5868; 2738; 6554; 9634;
   6906; 1815; 350; 1512; 6920; 10232; 7796; 3202; 1263; 49; 6374; 1483; 5942; 1583; 10800; 9789;
   12071; 9381; 3434; 3529; 9259; 4115; 1843; 9928; 6142; 2447; 8326; 576; 2051; 10335; 9407; 1805;
   10996; 4737; 7515; 5429; 6381; 11836; 3772; 11871; 5876; 2281; 2031; 5333; 3991; 3969; 156; 9522;
   605; 9987; 504; 8076; 7507; 5886; 9260; 5594; 8209; 11868; 8687; 6068; 4624; 6212; 3263; 8689;
   3532; 1003; 58; 12048; 5009; 10333; 11404; 6008; 4212; 11314; 8851; 2844; 142; 1105; 8812; 6608;
   1579; 431; 5906; 9784; 12138; 10162; 3957; 2839; 8953; 6234; 5874; 11612; 1323; 2766; 3174; 12237;
   4912; 2049; 192; 1321; 3445; 7509; 4698; 5057; 5468; 1010; 11502; 3482; 9369; 7048; 4169; 9162;
   4467; 7500; 7540; 5537; 12142; 3789; 7840; 6833; 6844; 8429; 7753; 1050; 6171; 8471; 2683; 11099;
   10316; 6715; 11011; 2344; 11248; 8775; 6364; 11271; 5079; 3262; 11767; 2169; 4075; 5315; 7965; 7373;
   11821; 8301; 382; 11973; 5446; 5339; 8579; 6093; 10367; 8410; 8291; 10256; 1359; 6854; 1254; 11316;
   8724; 11635; 1702; 10302; 12233; 3199; 7083; 5529; 4948; 6137; 10561; 400; 5862; 6153; 6874; 3643].

(** test_ntt_red_tables.c 1006-1071 *)
Definition rev_shoup_sred_scaled_ntt512_12289 : list Z := [
   0; 493; 5444; 2381; (-1912); (-1378); (-435); (-4337); 404; (-4645); (-1065); (-2143); 5277; 1168; 1207; 3248;
   (-2422); (-6039); 2187; 2566; 6022; (-2987); 2437; 3646; 1607; 4976; (-3780); 875; (-1002); 5011; 4284; (-5088);
   (-5084); 1632; 4885; (-1017); 27; 3066; (-1440); (-3763); (-5019); (-545); (-2678); (-3704); (-4143); 4714; (-242); (-1537);
   (-390); 773; (-3778); 3833; 442; 2401; 5101; (-1067); (-5698); 2912; 4861; 354; (-5012); (-2481); 1045; (-2859);
   4654; 1426; 1663; 1777; (-3636); 4938; (-2704); (-5291); (-3); (-4437); 160; 3149; 4919; 113; 3915; 2166;
   3364; (-1689); (-3271); 4057; (-2174); 4372; (-2847); 4414; (-2780); 5195; 4895; 1484; (-5042); 2305; 2645; 4053;
   (-1544); 2178; 420; (-5559); (-3985); 4905; (-476); (-3531); (-3400); (-2399); 5191; (-3136); (-243); (-3016); 671; (-3000);
   (-1153); 2884; (-4048); (-2249); 2126; (-1630); 5407; (-3186); 3510; 5332; (-2865); 2370; (-3978); 2969; 3247; (-2686);
   (-563); 2975; (-2744); (-3006); (-2639); 4821; (-2625); 949; 5828; 5023; 4591; (-5728); (-3328); 5777; 1351; (-4978);
   (-1479); 1; 5146; 4043; 4134; (-5736); 722; (-1305); 1646; 1212; (-5860); (-3195); (-3504); 3542; 2545; 3621;
   (-3135); (-3712); (-4846); (-2747); 3553; (-4805); (-1062); 2294; (-2319); (-1170); 790; 955; 5086; 1326; 3201; 3014;
   (-4896); (-2963); 3051; 2366; 3091; 81; (-1000); (-4320); 1635; (-2768); (-1177); 4255; (-1853); (-140); 4611; (-726);
   4354; 130; 5374; (-2837); (-3296); 3949; (-4452); 2396; 5067; (-2197); 118; 2476; (-827); 5767; (-953); 3748;
   (-4278); 1673; (-5331); 4989; (-2525); 1381; 3584; 4177; 1022; (-9); 2842; 480; (-339); 2468; 5791; (-544);
   2548; (-4231); 3382; 355; (-3707); (-1759); 5179; 3694; 3637; (-3459); (-5542); 145; 4890; (-5911); (-2731); 3932;
   5755; (-4632); 4388; 1260; (-2426); 334; (-1696); (-1428); (-5092); 2089; (-2881); 3284; (-3241); (-729); (-3289); 2013;
   (-3762); 2919; 4016; 4077; (-652); (-5766); 6099; 295; (-325); (-1404); 948; 1146; (-3728); 4049; (-5990); 1159;
   3956; 1360; 6119; 5297; (-6122); 2555; (-1200); (-5184); 1962; 1594; 5961; 5106; 2692; (-168); (-4298); (-3329);
   683; 2459; (-3656); (-64); 2503; 2948; 5782; (-1566); 4433; (-5919); 5257; (-3834); (-1747); (-3123); 3054; (-5486);
   2078; 1112; (-4322); (-1958); 922; (-441); 4079; (-1058); (-709); (-4046); (-3150); (-1319); (-835); (-6065); 3570; (-4240);
   (-1858); 4754; (-3315); 426; 2925; 347; 3757; 1975; (-3009); (-1693); 723; 174; 5868; 2738; (-5735); (-2655);
   (-5383); 1815; 350; 1512; (-5369); (-2057); (-4493); 3202; 1263; 49; (-5915); 1483; 5942; 1583; (-1489); (-2500);
   (-218); (-2908); 3434; 3529; (-3030); 4115; 1843; (-2361); 6142; 2447; (-3963); 576; 2051; (-1954); (-2882); 1805;
   (-1293); 4737; (-4774); 5429; (-5908); (-453); 3772; (-418); 5876; 2281; 2031; 5333; 3991; 3969; 156; (-2767);
   605; (-2302); 504; (-4213); (-4782); 5886; (-3029); 5594; (-4080); (-421); (-3602); 6068; 4624; (-6077); 3263; (-3600);
   3532; 1003; 58; (-241); 5009; (-1956); (-885); 6008; 4212; (-975); (-3438); 2844; 142; 1105; (-3477); (-5681);
   1579; 431; 5906; (-2505); (-151); (-2127); 3957; 2839; (-3336); (-6055); 5874; (-677); 1323; 2766; 3174; (-52);
   4912; 2049; 192; 1321; 3445; (-4780); 4698; 5057; 5468; 1010; (-787); 3482; (-2920); (-5241); 4169; (-3127);
   4467; (-4789); (-4749); 5537; (-147); 3789; (-4449); (-5456); (-5445); (-3860); (-4536); 1050; (-6118); (-3818); 2683; (-1190);
   (-1973); (-5574); (-1278); 2344; (-1041); (-3514); (-5925); (-1018); 5079; 3262; (-522); 2169; 4075; 5315; (-4324); (-4916);
   (-468); (-3988); 382; (-316); 5446; 5339; (-3710); 6093; (-1922); (-3879); (-3998); (-2033); 1359; (-5435); 1254; (-973);
   (-3565); (-654); 1702; (-1987); (-56); 3199; (-5206); 5529; 4948; 6137; (-1728); 400; 5862; (-6136); (-5415); 3643].

(** test_ntt_red_tables.c 1084-1213 *)
Definition shoup_red_ntt1024_12289 : list Z := [
   0; 8193; 8193; 493; 8193; 5444; 493; 2381; 8193; 10377; 5444; 11854; 493; 10911; 2381; 7952;
   8193; 11885; 10377; 7012; 5444; 1065; 11854; 11082; 493; 4645; 10911; 11121; 2381; 2143; 7952; 9041;
   8193; 6250; 11885; 7313; 10377; 9302; 7012; 7278; 5444; 2566; 1065; 11414; 11854; 3646; 11082; 5088;
   493; 2422; 4645; 1607; 10911; 6267; 11121; 11287; 2381; 10102; 2143; 8509; 7952; 9852; 9041; 4284;
   8193; 4885; 6250; 3833; 11885; 2678; 7313; 11935; 10377; 10849; 9302; 11222; 7012; 242; 7278; 2859;
   5444; 1632; 2566; 390; 1065; 545; 11414; 6591; 11854; 3066; 3646; 11847; 11082; 7575; 5088; 7277;
   493; 11272; 2422; 3778; 4645; 3704; 1607; 4861; 10911; 8526; 6267; 7188; 11121; 1537; 11287; 1045;
   2381; 5084; 10102; 11516; 2143; 7270; 8509; 2912; 7952; 12262; 9852; 9888; 9041; 8146; 4284; 9808;
   8193; 8653; 4885; 11813; 6250; 4372; 3833; 9103; 11885; 7370; 2678; 11618; 7313; 9984; 11935; 2686;
   10377; 1663; 10849; 2178; 9302; 4057; 11222; 1153; 7012; 12129; 242; 2399; 7278; 10805; 2859; 3510;
   5444; 9585; 1632; 4905; 2566; 4414; 390; 10163; 1065; 8374; 545; 3016; 11414; 8236; 6591; 8311;
   11854; 1426; 3066; 6730; 3646; 8925; 11847; 4048; 11082; 4437; 7575; 3136; 5088; 9509; 7277; 9424;
   493; 4938; 11272; 8758; 2422; 2174; 3778; 6882; 4645; 12176; 3704; 3000; 1607; 7247; 4861; 3247;
   10911; 1777; 8526; 1544; 6267; 3271; 7188; 9405; 11121; 9140; 1537; 8889; 11287; 4895; 1045; 5332;
   2381; 6998; 5084; 3985; 10102; 2847; 11516; 1630; 2143; 10123; 7270; 12046; 8509; 2645; 2912; 2969;
   7952; 7635; 12262; 11869; 9852; 1689; 9888; 2249; 9041; 12286; 8146; 5191; 4284; 5195; 9808; 2370;
   8193; 6461; 8653; 827; 4885; 11499; 11813; 2731; 6250; 11077; 4372; 9821; 3833; 8034; 9103; 10276;
   11885; 9650; 7370; 5374; 2678; 11227; 11618; 8058; 7313; 6553; 9984; 4989; 11935; 7969; 2686; 6534;
   10377; 3328; 1663; 12171; 10849; 9088; 2178; 3459; 9302; 8747; 4057; 11809; 11222; 726; 1153; 7197;
   7012; 9545; 12129; 7837; 242; 8577; 2399; 10530; 7278; 4043; 10805; 4177; 2859; 4896; 3510; 2426;
   5444; 7698; 9585; 953; 1632; 1170; 4905; 5911; 2566; 3195; 4414; 544; 390; 1635; 10163; 9048;
   1065; 9664; 8374; 130; 545; 7484; 3016; 355; 11414; 10984; 8236; 4278; 6591; 9198; 8311; 7901;
   11854; 10938; 1426; 2197; 3066; 10963; 6730; 12144; 3646; 8668; 8925; 1022; 11847; 10436; 4048; 9408;
   11082; 2975; 4437; 3949; 7575; 9542; 3136; 3694; 5088; 1479; 9509; 2525; 7277; 9238; 9424; 1696;
   493; 7266; 4938; 6522; 11272; 11334; 8758; 8357; 2422; 1646; 2174; 11950; 3778; 11112; 6882; 9000;
   4645; 4821; 12176; 9452; 3704; 2294; 3000; 9741; 1607; 8155; 7247; 5331; 4861; 1000; 3247; 4632;
   10911; 6512; 1777; 9813; 8526; 9275; 1544; 3637; 6267; 8785; 3271; 2842; 7188; 4611; 9405; 2089;
   11121; 9283; 9140; 2396; 1537; 3135; 8889; 3707; 11287; 7143; 4895; 8705; 1045; 2963; 5332; 11955;
   2381; 5728; 6998; 8541; 5084; 9970; 3985; 4890; 10102; 6429; 2847; 5791; 11516; 9521; 1630; 11560;
   2143; 949; 10123; 7935; 7270; 8736; 12046; 8907; 8509; 11567; 2645; 10616; 2912; 12208; 2969; 11029;
   7952; 4978; 7635; 5067; 12262; 5086; 11869; 6747; 9852; 2545; 1689; 12280; 9888; 12149; 2249; 3284;
   9041; 563; 12286; 3296; 8146; 4846; 5191; 7110; 4284; 12288; 5195; 10908; 9808; 9923; 2370; 1428;
   8193; 10929; 6461; 11314; 8653; 2057; 827; 5315; 4885; 1958; 11499; 3482; 11813; 418; 2731; 3643;
   6250; 11964; 11077; 4782; 4372; 5868; 9821; 4749; 3833; 5257; 8034; 8332; 9103; 9407; 10276; 3988;
   11885; 1594; 9650; 1956; 7370; 1583; 5374; 9945; 2678; 10970; 11227; 7232; 11618; 9522; 8058; 8724;
   7313; 652; 6553; 4624; 9984; 3315; 4989; 7753; 11935; 6507; 7969; 3174; 2686; 2908; 6534; 8410;
   10377; 9734; 3328; 1105; 1663; 10777; 12171; 2169; 10849; 1058; 9088; 9162; 2178; 10996; 3459; 7341;
   9302; 8561; 8747; 11785; 4057; 723; 11809; 4449; 11222; 3054; 726; 11858; 1153; 2447; 7197; 6950;
   7012; 12121; 9545; 241; 12129; 1483; 7837; 1018; 242; 8049; 8577; 4912; 2399; 6413; 10530; 12233;
   7278; 8273; 4043; 8687; 10805; 8532; 4177; 2683; 2859; 9830; 4896; 6234; 3510; 8174; 2426; 6854;
   5444; 6992; 7698; 2844; 9585; 9087; 953; 7373; 1632; 2078; 1170; 6821; 4905; 6381; 5911; 6427;
   2566; 948; 3195; 3029; 4414; 6554; 544; 4789; 390; 6370; 1635; 2127; 10163; 10335; 9048; 316;
   1065; 5106; 9664; 6281; 8374; 9789; 130; 10316; 545; 709; 7484; 3445; 3016; 8298; 355; 1702;
   11414; 6190; 10984; 3263; 8236; 7535; 4278; 8429; 6591; 9341; 9198; 2766; 8311; 8760; 7901; 10256;
   11854; 5184; 10938; 6608; 1426; 6906; 2197; 7210; 3066; 922; 10963; 2920; 6730; 7515; 12144; 1728;
   3646; 6299; 8668; 2302; 8925; 10596; 1022; 8500; 11847; 9166; 10436; 2505; 4048; 576; 9408; 6196;
   11082; 8960; 2975; 3532; 4437; 11026; 3949; 11248; 7575; 835; 9542; 192; 3136; 10258; 3694; 7083;
   5088; 9370; 1479; 11868; 9509; 11942; 2525; 8471; 7277; 64; 9238; 11612; 9424; 2361; 1696; 11316;
   493; 3956; 7266; 8077; 4938; 6920; 6522; 8214; 11272; 7967; 11334; 787; 8758; 3772; 8357; 5415;
   2422; 10885; 1646; 6403; 2174; 2738; 11950; 6752; 3778; 8455; 11112; 9450; 6882; 1805; 9000; 11821;
   4645; 10327; 4821; 5009; 12176; 6347; 9452; 11011; 3704; 3150; 2294; 4698; 3000; 12133; 9741; 11635;
   1607; 5766; 8155; 6212; 7247; 11863; 5331; 1050; 4861; 1566; 1000; 12237; 3247; 12071; 4632; 1922;
   10911; 6167; 6512; 12147; 1777; 350; 9813; 522; 8526; 4079; 9275; 8120; 1544; 4737; 3637; 6152;
   6267; 4049; 8785; 4213; 3271; 174; 2842; 5456; 7188; 6803; 4611; 1579; 9405; 6147; 2089; 5446;
   11121; 9597; 9283; 58; 9140; 5915; 2396; 6364; 1537; 8719; 3135; 2049; 8889; 10008; 3707; 3199;
   11287; 8212; 7143; 6068; 4895; 10314; 8705; 11099; 1045; 683; 2963; 3336; 5332; 9259; 11955; 10930;
   2381; 6119; 5728; 3438; 6998; 7796; 8541; 4324; 5084; 1112; 9970; 11279; 3985; 11836; 4890; 6136;
   10102; 1146; 6429; 6695; 2847; 9634; 5791; 4467; 11516; 7856; 9521; 12138; 1630; 10238; 11560; 382;
   2143; 6328; 949; 11404; 10123; 1489; 7935; 6715; 7270; 4046; 8736; 7509; 12046; 8320; 8907; 10302;
   8509; 11994; 11567; 8689; 2645; 10431; 10616; 5445; 2912; 2503; 12208; 10966; 2969; 3434; 11029; 3998;
   7952; 11089; 4978; 3477; 7635; 1815; 5067; 9027; 12262; 11848; 5086; 5241; 11869; 5429; 6747; 11889;
   9852; 1159; 2545; 605; 1689; 3009; 12280; 12142; 9888; 1747; 12149; 5906; 2249; 3963; 3284; 8579;
   9041; 4298; 563; 1003; 12286; 12240; 3296; 8775; 8146; 6065; 4846; 1321; 5191; 6956; 7110; 5529;
   4284; 8527; 12288; 4080; 5195; 2925; 10908; 6118; 9808; 8633; 9923; 6415; 2370; 1843; 1428; 11035].

(** test_ntt_red_tables.c 1215-1344 *)
Definition shoup_sred_ntt1024_12289 : list Z := [
   0; (-4096); (-4096); 493; (-4096); 5444; 493; 2381; (-4096); (-1912); 5444; (-435); 493; (-1378); 2381; (-4337);
   (-4096); (-404); (-1912); (-5277); 5444; 1065; (-435); (-1207); 493; 4645; (-1378); (-1168); 2381; 2143; (-4337); (-3248);
   (-4096); (-6039); (-404); (-4976); (-1912); (-2987); (-5277); (-5011); 5444; 2566; 1065; (-875); (-435); 3646; (-1207); 5088;
   493; 2422; 4645; 1607; (-1378); (-6022); (-1168); (-1002); 2381; (-2187); 2143; (-3780); (-4337); (-2437); (-3248); 4284;
   (-4096); 4885; (-6039); 3833; (-404); 2678; (-4976); (-354); (-1912); (-1440); (-2987); (-1067); (-5277); 242; (-5011); 2859;
   5444; 1632; 2566; 390; 1065; 545; (-875); (-5698); (-435); 3066; 3646; (-442); (-1207); (-4714); 5088; (-5012);
   493; (-1017); 2422; 3778; 4645; 3704; 1607; 4861; (-1378); (-3763); (-6022); (-5101); (-1168); 1537; (-1002); 1045;
   2381; 5084; (-2187); (-773); 2143; (-5019); (-3780); 2912; (-4337); (-27); (-2437); (-2401); (-3248); (-4143); 4284; (-2481);
   (-4096); (-3636); 4885; (-476); (-6039); 4372; 3833; (-3186); (-404); (-4919); 2678; (-671); (-4976); (-2305); (-354); 2686;
   (-1912); 1663; (-1440); 2178; (-2987); 4057; (-1067); 1153; (-5277); (-160); 242; 2399; (-5011); (-1484); 2859; 3510;
   5444; (-2704); 1632; 4905; 2566; 4414; 390; (-2126); 1065; (-3915); 545; 3016; (-875); (-4053); (-5698); (-3978);
   (-435); 1426; 3066; (-5559); 3646; (-3364); (-442); 4048; (-1207); 4437; (-4714); 3136; 5088; (-2780); (-5012); (-2865);
   493; 4938; (-1017); (-3531); 2422; 2174; 3778; (-5407); 4645; (-113); 3704; 3000; 1607; (-5042); 4861; 3247;
   (-1378); 1777; (-3763); 1544; (-6022); 3271; (-5101); (-2884); (-1168); (-3149); 1537; (-3400); (-1002); 4895; 1045; 5332;
   2381; (-5291); 5084; 3985; (-2187); 2847; (-773); 1630; 2143; (-2166); (-5019); (-243); (-3780); 2645; 2912; 2969;
   (-4337); (-4654); (-27); (-420); (-2437); 1689; (-2401); 2249; (-3248); (-3); (-4143); 5191; 4284; 5195; (-2481); 2370;
   (-4096); (-5828); (-3636); 827; 4885; (-790); (-476); 2731; (-6039); (-1212); 4372; (-2468); 3833; (-4255); (-3186); (-2013);
   (-404); (-2639); (-4919); 5374; 2678; (-1062); (-671); (-4231); (-4976); (-5736); (-2305); 4989; (-354); (-4320); 2686; (-5755);
   (-1912); 3328; 1663; (-118); (-1440); (-3201); 2178; 3459; (-2987); (-3542); 4057; (-480); (-1067); 726; 1153; (-5092);
   (-5277); (-2744); (-160); (-4452); 242; (-3712); 2399; (-1759); (-5011); 4043; (-1484); 4177; 2859; 4896; 3510; 2426;
   5444; (-4591); (-2704); 953; 1632; 1170; 4905; 5911; 2566; 3195; 4414; 544; 390; 1635; (-2126); (-3241);
   1065; (-2625); (-3915); 130; 545; (-4805); 3016; 355; (-875); (-1305); (-4053); 4278; (-5698); (-3091); (-3978); (-4388);
   (-435); (-1351); 1426; 2197; 3066; (-1326); (-5559); (-145); 3646; (-3621); (-3364); 1022; (-442); (-1853); 4048; (-2881);
   (-1207); 2975; 4437; 3949; (-4714); (-2747); 3136; 3694; 5088; 1479; (-2780); 2525; (-5012); (-3051); (-2865); 1696;
   493; (-5023); 4938; (-5767); (-1017); (-955); (-3531); (-3932); 2422; 1646; 2174; (-339); 3778; (-1177); (-5407); (-3289);
   4645; 4821; (-113); (-2837); 3704; 2294; 3000; (-2548); 1607; (-4134); (-5042); 5331; 4861; 1000; 3247; 4632;
   (-1378); (-5777); 1777; (-2476); (-3763); (-3014); 1544; 3637; (-6022); (-3504); 3271; 2842; (-5101); 4611; (-2884); 2089;
   (-1168); (-3006); (-3149); 2396; 1537; 3135; (-3400); 3707; (-1002); (-5146); 4895; (-3584); 1045; 2963; 5332; (-334);
   2381; 5728; (-5291); (-3748); 5084; (-2319); 3985; 4890; (-2187); (-5860); 2847; 5791; (-773); (-2768); 1630; (-729);
   2143; 949; (-2166); (-4354); (-5019); (-3553); (-243); (-3382); (-3780); (-722); 2645; (-1673); 2912; (-81); 2969; (-1260);
   (-4337); 4978; (-4654); 5067; (-27); 5086; (-420); (-5542); (-2437); 2545; 1689; (-9); (-2401); (-140); 2249; 3284;
   (-3248); 563; (-3); 3296; (-4143); 4846; 5191; (-5179); 4284; (-1); 5195; (-1381); (-2481); (-2366); 2370; 1428;
   (-4096); (-1360); (-5828); (-975); (-3636); 2057; 827; 5315; 4885; 1958; (-790); 3482; (-476); 418; 2731; 3643;
   (-6039); (-325); (-1212); 4782; 4372; 5868; (-2468); 4749; 3833; 5257; (-4255); (-3957); (-3186); (-2882); (-2013); 3988;
   (-404); 1594; (-2639); 1956; (-4919); 1583; 5374; (-2344); 2678; (-1319); (-1062); (-5057); (-671); (-2767); (-4231); (-3565);
   (-4976); 652; (-5736); 4624; (-2305); 3315; 4989; (-4536); (-354); (-5782); (-4320); 3174; 2686; 2908; (-5755); (-3879);
   (-1912); (-2555); 3328; 1105; 1663; (-1512); (-118); 2169; (-1440); 1058; (-3201); (-3127); 2178; (-1293); 3459; (-4948);
   (-2987); (-3728); (-3542); (-504); 4057; 723; (-480); 4449; (-1067); 3054; 726; (-431); 1153; 2447; (-5092); (-5339);
   (-5277); (-168); (-2744); 241; (-160); 1483; (-4452); 1018; 242; (-4240); (-3712); 4912; 2399; (-5876); (-1759); (-56);
   (-5011); (-4016); 4043; (-3602); (-1484); (-3757); 4177; 2683; 2859; (-2459); 4896; (-6055); 3510; (-4115); 2426; (-5435);
   5444; (-5297); (-4591); 2844; (-2704); (-3202); 953; (-4916); 1632; 2078; 1170; (-5468); 4905; (-5908); 5911; (-5862);
   2566; 948; 3195; 3029; 4414; (-5735); 544; 4789; 390; (-5919); 1635; 2127; (-2126); (-1954); (-3241); 316;
   1065; 5106; (-2625); (-6008); (-3915); (-2500); 130; (-1973); 545; 709; (-4805); 3445; 3016; (-3991); 355; 1702;
   (-875); (-6099); (-1305); 3263; (-4053); (-4754); 4278; (-3860); (-5698); (-2948); (-3091); 2766; (-3978); (-3529); (-4388); (-2033);
   (-435); 5184; (-1351); (-5681); 1426; (-5383); 2197; (-5079); 3066; 922; (-1326); 2920; (-5559); (-4774); (-145); 1728;
   3646; (-5990); (-3621); 2302; (-3364); (-1693); 1022; (-3789); (-442); (-3123); (-1853); 2505; 4048; 576; (-2881); (-6093);
   (-1207); (-3329); 2975; 3532; 4437; (-1263); 3949; (-1041); (-4714); 835; (-2747); 192; 3136; (-2031); 3694; (-5206);
   5088; (-2919); 1479; (-421); (-2780); (-347); 2525; (-3818); (-5012); 64; (-3051); (-677); (-2865); 2361; 1696; (-973);
   493; 3956; (-5023); (-4212); 4938; (-5369); (-5767); (-4075); (-1017); (-4322); (-955); 787; (-3531); 3772; (-3932); 5415;
   2422; (-1404); 1646; (-5886); 2174; 2738; (-339); (-5537); 3778; (-3834); (-1177); (-2839); (-5407); 1805; (-3289); (-468);
   4645; (-1962); 4821; 5009; (-113); (-5942); (-2837); (-1278); 3704; 3150; 2294; 4698; 3000; (-156); (-2548); (-654);
   1607; 5766; (-4134); (-6077); (-5042); (-426); 5331; 1050; 4861; 1566; 1000; (-52); 3247; (-218); 4632; 1922;
   (-1378); (-6122); (-5777); (-142); 1777; 350; (-2476); 522; (-3763); 4079; (-3014); (-4169); 1544; 4737; 3637; (-6137);
   (-6022); 4049; (-3504); 4213; 3271; 174; 2842; 5456; (-5101); (-5486); 4611; 1579; (-2884); (-6142); 2089; 5446;
   (-1168); (-2692); (-3006); 58; (-3149); 5915; 2396; (-5925); 1537; (-3570); 3135; 2049; (-3400); (-2281); 3707; 3199;
   (-1002); (-4077); (-5146); 6068; 4895; (-1975); (-3584); (-1190); 1045; 683; 2963; 3336; 5332; (-3030); (-334); (-1359);
   2381; 6119; 5728; 3438; (-5291); (-4493); (-3748); 4324; 5084; 1112; (-2319); (-1010); 3985; (-453); 4890; 6136;
   (-2187); 1146; (-5860); (-5594); 2847; (-2655); 5791; 4467; (-773); (-4433); (-2768); (-151); 1630; (-2051); (-729); 382;
   2143; (-5961); 949; (-885); (-2166); 1489; (-4354); (-5574); (-5019); 4046; (-3553); (-4780); (-243); (-3969); (-3382); (-1987);
   (-3780); (-295); (-722); (-3600); 2645; (-1858); (-1673); 5445; 2912; 2503; (-81); (-1323); 2969; 3434; (-1260); 3998;
   (-4337); (-1200); 4978; 3477; (-4654); 1815; 5067; (-3262); (-27); (-441); 5086; 5241; (-420); 5429; (-5542); (-400);
   (-2437); 1159; 2545; 605; 1689; 3009; (-9); (-147); (-2401); 1747; (-140); 5906; 2249; 3963; 3284; (-3710);
   (-3248); 4298; 563; 1003; (-3); (-49); 3296; (-3514); (-4143); 6065; 4846; 1321; 5191; (-5333); (-5179); 5529;
   4284; (-3762); (-1); 4080; 5195; 2925; (-1381); 6118; (-2481); (-3656); (-2366); (-5874); 2370; 1843; 1428; (-1254)].

(** test_ntt_red_tables.c 1346-1475 *)
Definition rev_shoup_red_ntt1024_12289 : list Z := [
   0; 8193; 8193; 493; 8193; 493; 5444; 2381; 8193; 493; 5444; 2381; 10377; 10911; 11854; 7952;
   8193; 493; 5444; 2381; 10377; 10911; 11854; 7952; 11885; 4645; 1065; 2143; 7012; 11121; 11082; 9041;
   8193; 493; 5444; 2381; 10377; 10911; 11854; 7952; 11885; 4645; 1065; 2143; 7012; 11121; 11082; 9041;
   6250; 2422; 2566; 10102; 9302; 6267; 3646; 9852; 7313; 1607; 11414; 8509; 7278; 11287; 5088; 4284;
   8193; 493; 5444; 2381; 10377; 10911; 11854; 7952; 11885; 4645; 1065; 2143; 7012; 11121; 11082; 9041;
   6250; 2422; 2566; 10102; 9302; 6267; 3646; 9852; 7313; 1607; 11414; 8509; 7278; 11287; 5088; 4284;
   4885; 11272; 1632; 5084; 10849; 8526; 3066; 12262; 2678; 3704; 545; 7270; 242; 1537; 7575; 8146;
   3833; 3778; 390; 11516; 11222; 7188; 11847; 9888; 11935; 4861; 6591; 2912; 2859; 1045; 7277; 9808;
   8193; 493; 5444; 2381; 10377; 10911; 11854; 7952; 11885; 4645; 1065; 2143; 7012; 11121; 11082; 9041;
   6250; 2422; 2566; 10102; 9302; 6267; 3646; 9852; 7313; 1607; 11414; 8509; 7278; 11287; 5088; 4284;
   4885; 11272; 1632; 5084; 10849; 8526; 3066; 12262; 2678; 3704; 545; 7270; 242; 1537; 7575; 8146;
   3833; 3778; 390; 11516; 11222; 7188; 11847; 9888; 11935; 4861; 6591; 2912; 2859; 1045; 7277; 9808;
   8653; 4938; 9585; 6998; 1663; 1777; 1426; 7635; 7370; 12176; 8374; 10123; 12129; 9140; 4437; 12286;
   4372; 2174; 4414; 2847; 4057; 3271; 8925; 1689; 9984; 7247; 8236; 2645; 10805; 4895; 9509; 5195;
   11813; 8758; 4905; 3985; 2178; 1544; 6730; 11869; 11618; 3000; 3016; 12046; 2399; 8889; 3136; 5191;
   9103; 6882; 10163; 1630; 1153; 9405; 4048; 2249; 2686; 3247; 8311; 2969; 3510; 5332; 9424; 2370;
   8193; 493; 5444; 2381; 10377; 10911; 11854; 7952; 11885; 4645; 1065; 2143; 7012; 11121; 11082; 9041;
   6250; 2422; 2566; 10102; 9302; 6267; 3646; 9852; 7313; 1607; 11414; 8509; 7278; 11287; 5088; 4284;
   4885; 11272; 1632; 5084; 10849; 8526; 3066; 12262; 2678; 3704; 545; 7270; 242; 1537; 7575; 8146;
   3833; 3778; 390; 11516; 11222; 7188; 11847; 9888; 11935; 4861; 6591; 2912; 2859; 1045; 7277; 9808;
   8653; 4938; 9585; 6998; 1663; 1777; 1426; 7635; 7370; 12176; 8374; 10123; 12129; 9140; 4437; 12286;
   4372; 2174; 4414; 2847; 4057; 3271; 8925; 1689; 9984; 7247; 8236; 2645; 10805; 4895; 9509; 5195;
   11813; 8758; 4905; 3985; 2178; 1544; 6730; 11869; 11618; 3000; 3016; 12046; 2399; 8889; 3136; 5191;
   9103; 6882; 10163; 1630; 1153; 9405; 4048; 2249; 2686; 3247; 8311; 2969; 3510; 5332; 9424; 2370;
   6461; 7266; 7698; 5728; 3328; 6512; 10938; 4978; 9650; 4821; 9664; 949; 9545; 9283; 2975; 563;
   11077; 1646; 3195; 6429; 8747; 8785; 8668; 2545; 6553; 8155; 10984; 11567; 4043; 7143; 1479; 12288;
   11499; 11334; 1170; 9970; 9088; 9275; 10963; 5086; 11227; 2294; 7484; 8736; 8577; 3135; 9542; 4846;
   8034; 11112; 1635; 9521; 726; 4611; 10436; 12149; 7969; 1000; 9198; 12208; 4896; 2963; 9238; 9923;
   827; 6522; 953; 8541; 12171; 9813; 2197; 5067; 5374; 9452; 130; 7935; 7837; 2396; 3949; 3296;
   9821; 11950; 544; 5791; 11809; 2842; 1022; 12280; 4989; 5331; 4278; 10616; 4177; 8705; 2525; 10908;
   2731; 8357; 5911; 4890; 3459; 3637; 12144; 6747; 8058; 9741; 355; 8907; 10530; 3707; 3694; 7110;
   10276; 9000; 9048; 11560; 7197; 2089; 9408; 3284; 6534; 4632; 7901; 11029; 2426; 11955; 1696; 1428;
   8193; 493; 5444; 2381; 10377; 10911; 11854; 7952; 11885; 4645; 1065; 2143; 7012; 11121; 11082; 9041;
   6250; 2422; 2566; 10102; 9302; 6267; 3646; 9852; 7313; 1607; 11414; 8509; 7278; 11287; 5088; 4284;
   4885; 11272; 1632; 5084; 10849; 8526; 3066; 12262; 2678; 3704; 545; 7270; 242; 1537; 7575; 8146;
   3833; 3778; 390; 11516; 11222; 7188; 11847; 9888; 11935; 4861; 6591; 2912; 2859; 1045; 7277; 9808;
   8653; 4938; 9585; 6998; 1663; 1777; 1426; 7635; 7370; 12176; 8374; 10123; 12129; 9140; 4437; 12286;
   4372; 2174; 4414; 2847; 4057; 3271; 8925; 1689; 9984; 7247; 8236; 2645; 10805; 4895; 9509; 5195;
   11813; 8758; 4905; 3985; 2178; 1544; 6730; 11869; 11618; 3000; 3016; 12046; 2399; 8889; 3136; 5191;
   9103; 6882; 10163; 1630; 1153; 9405; 4048; 2249; 2686; 3247; 8311; 2969; 3510; 5332; 9424; 2370;
   6461; 7266; 7698; 5728; 3328; 6512; 10938; 4978; 9650; 4821; 9664; 949; 9545; 9283; 2975; 563;
   11077; 1646; 3195; 6429; 8747; 8785; 8668; 2545; 6553; 8155; 10984; 11567; 4043; 7143; 1479; 12288;
   11499; 11334; 1170; 9970; 9088; 9275; 10963; 5086; 11227; 2294; 7484; 8736; 8577; 3135; 9542; 4846;
   8034; 11112; 1635; 9521; 726; 4611; 10436; 12149; 7969; 1000; 9198; 12208; 4896; 2963; 9238; 9923;
   827; 6522; 953; 8541; 12171; 9813; 2197; 5067; 5374; 9452; 130; 7935; 7837; 2396; 3949; 3296;
   9821; 11950; 544; 5791; 11809; 2842; 1022; 12280; 4989; 5331; 4278; 10616; 4177; 8705; 2525; 10908;
   2731; 8357; 5911; 4890; 3459; 3637; 12144; 6747; 8058; 9741; 355; 8907; 10530; 3707; 3694; 7110;
   10276; 9000; 9048; 11560; 7197; 2089; 9408; 3284; 6534; 4632; 7901; 11029; 2426; 11955; 1696; 1428;
   10929; 3956; 6992; 6119; 9734; 6167; 5184; 11089; 1594; 10327; 5106; 6328; 12121; 9597; 8960; 4298;
   11964; 10885; 948; 1146; 8561; 4049; 6299; 1159; 652; 5766; 6190; 11994; 8273; 8212; 9370; 8527;
   1958; 7967; 2078; 1112; 1058; 4079; 922; 11848; 10970; 3150; 709; 4046; 8049; 8719; 835; 6065;
   5257; 8455; 6370; 7856; 3054; 6803; 9166; 1747; 6507; 1566; 9341; 2503; 9830; 683; 64; 8633;
   2057; 6920; 9087; 7796; 10777; 350; 6906; 1815; 1583; 6347; 9789; 1489; 1483; 5915; 11026; 12240;
   5868; 2738; 6554; 9634; 723; 174; 10596; 3009; 3315; 11863; 7535; 10431; 8532; 10314; 11942; 2925;
   418; 3772; 6381; 11836; 10996; 4737; 7515; 5429; 9522; 12133; 8298; 8320; 6413; 10008; 10258; 6956;
   9407; 1805; 10335; 10238; 2447; 6147; 576; 3963; 2908; 12071; 8760; 3434; 8174; 9259; 2361; 1843;
   11314; 8077; 2844; 3438; 1105; 12147; 6608; 3477; 1956; 5009; 6281; 11404; 241; 58; 3532; 1003;
   4782; 6403; 3029; 6695; 11785; 4213; 2302; 605; 4624; 6212; 3263; 8689; 8687; 6068; 11868; 4080;
   3482; 787; 6821; 11279; 9162; 8120; 2920; 5241; 7232; 4698; 3445; 7509; 4912; 2049; 192; 1321;
   8332; 9450; 2127; 12138; 11858; 1579; 2505; 5906; 3174; 12237; 2766; 10966; 6234; 3336; 11612; 6415;
   5315; 8214; 7373; 4324; 2169; 522; 7210; 9027; 9945; 11011; 10316; 6715; 1018; 6364; 11248; 8775;
   4749; 6752; 4789; 4467; 4449; 5456; 8500; 12142; 7753; 1050; 8429; 5445; 2683; 11099; 8471; 6118;
   3643; 5415; 6427; 6136; 7341; 6152; 1728; 11889; 8724; 11635; 1702; 10302; 12233; 3199; 7083; 5529;
   3988; 11821; 316; 382; 6950; 5446; 6196; 8579; 8410; 1922; 10256; 3998; 6854; 10930; 11316; 11035].

(** test_ntt_red_tables.c 1477-1606 *)
Definition rev_shoup_sred_ntt1024_12289 : list Z := [
   0; (-4096); (-4096); 493; (-4096); 493; 5444; 2381; (-4096); 493; 5444; 2381; (-1912); (-1378); (-435); (-4337);
   (-4096); 493; 5444; 2381; (-1912); (-1378); (-435); (-4337); (-404); 4645; 1065; 2143; (-5277); (-1168); (-1207); (-3248);
   (-4096); 493; 5444; 2381; (-1912); (-1378); (-435); (-4337); (-404); 4645; 1065; 2143; (-5277); (-1168); (-1207); (-3248);
   (-6039); 2422; 2566; (-2187); (-2987); (-6022); 3646; (-2437); (-4976); 1607; (-875); (-3780); (-5011); (-1002); 5088; 4284;
   (-4096); 493; 5444; 2381; (-1912); (-1378); (-435); (-4337); (-404); 4645; 1065; 2143; (-5277); (-1168); (-1207); (-3248);
   (-6039); 2422; 2566; (-2187); (-2987); (-6022); 3646; (-2437); (-4976); 1607; (-875); (-3780); (-5011); (-1002); 5088; 4284;
   4885; (-1017); 1632; 5084; (-1440); (-3763); 3066; (-27); 2678; 3704; 545; (-5019); 242; 1537; (-4714); (-4143);
   3833; 3778; 390; (-773); (-1067); (-5101); (-442); (-2401); (-354); 4861; (-5698); 2912; 2859; 1045; (-5012); (-2481);
   (-4096); 493; 5444; 2381; (-1912); (-1378); (-435); (-4337); (-404); 4645; 1065; 2143; (-5277); (-1168); (-1207); (-3248);
   (-6039); 2422; 2566; (-2187); (-2987); (-6022); 3646; (-2437); (-4976); 1607; (-875); (-3780); (-5011); (-1002); 5088; 4284;
   4885; (-1017); 1632; 5084; (-1440); (-3763); 3066; (-27); 2678; 3704; 545; (-5019); 242; 1537; (-4714); (-4143);
   3833; 3778; 390; (-773); (-1067); (-5101); (-442); (-2401); (-354); 4861; (-5698); 2912; 2859; 1045; (-5012); (-2481);
   (-3636); 4938; (-2704); (-5291); 1663; 1777; 1426; (-4654); (-4919); (-113); (-3915); (-2166); (-160); (-3149); 4437; (-3);
   4372; 2174; 4414; 2847; 4057; 3271; (-3364); 1689; (-2305); (-5042); (-4053); 2645; (-1484); 4895; (-2780); 5195;
   (-476); (-3531); 4905; 3985; 2178; 1544; (-5559); (-420); (-671); 3000; 3016; (-243); 2399; (-3400); 3136; 5191;
   (-3186); (-5407); (-2126); 1630; 1153; (-2884); 4048; 2249; 2686; 3247; (-3978); 2969; 3510; 5332; (-2865); 2370;
   (-4096); 493; 5444; 2381; (-1912); (-1378); (-435); (-4337); (-404); 4645; 1065; 2143; (-5277); (-1168); (-1207); (-3248);
   (-6039); 2422; 2566; (-2187); (-2987); (-6022); 3646; (-2437); (-4976); 1607; (-875); (-3780); (-5011); (-1002); 5088; 4284;
   4885; (-1017); 1632; 5084; (-1440); (-3763); 3066; (-27); 2678; 3704; 545; (-5019); 242; 1537; (-4714); (-4143);
   3833; 3778; 390; (-773); (-1067); (-5101); (-442); (-2401); (-354); 4861; (-5698); 2912; 2859; 1045; (-5012); (-2481);
   (-3636); 4938; (-2704); (-5291); 1663; 1777; 1426; (-4654); (-4919); (-113); (-3915); (-2166); (-160); (-3149); 4437; (-3);
   4372; 2174; 4414; 2847; 4057; 3271; (-3364); 1689; (-2305); (-5042); (-4053); 2645; (-1484); 4895; (-2780); 5195;
   (-476); (-3531); 4905; 3985; 2178; 1544; (-5559); (-420); (-671); 3000; 3016; (-243); 2399; (-3400); 3136; 5191;
   (-3186); (-5407); (-2126); 1630; 1153; (-2884); 4048; 2249; 2686; 3247; (-3978); 2969; 3510; 5332; (-2865); 2370;
   (-5828); (-5023); (-4591); 5728; 3328; (-5777); (-1351); 4978; (-2639); 4821; (-2625); 949; (-2744); (-3006); 2975; 563;
   (-1212); 1646; 3195; (-5860); (-3542); (-3504); (-3621); 2545; (-5736); (-4134); (-1305); (-722); 4043; (-5146); 1479; (-1);
   (-790); (-955); 1170; (-2319); (-3201); (-3014); (-1326); 5086; (-1062); 2294; (-4805); (-3553); (-3712); 3135; (-2747); 4846;
   (-4255); (-1177); 1635; (-2768); 726; 4611; (-1853); (-140); (-4320); 1000; (-3091); (-81); 4896; 2963; (-3051); (-2366);
   827; (-5767); 953; (-3748); (-118); (-2476); 2197; 5067; 5374; (-2837); 130; (-4354); (-4452); 2396; 3949; 3296;
   (-2468); (-339); 544; 5791; (-480); 2842; 1022; (-9); 4989; 5331; 4278; (-1673); 4177; (-3584); 2525; (-1381);
   2731; (-3932); 5911; 4890; 3459; 3637; (-145); (-5542); (-4231); (-2548); 355; (-3382); (-1759); 3707; 3694; (-5179);
   (-2013); (-3289); (-3241); (-729); (-5092); 2089; (-2881); 3284; (-5755); 4632; (-4388); (-1260); 2426; (-334); 1696; 1428;
   (-4096); 493; 5444; 2381; (-1912); (-1378); (-435); (-4337); (-404); 4645; 1065; 2143; (-5277); (-1168); (-1207); (-3248);
   (-6039); 2422; 2566; (-2187); (-2987); (-6022); 3646; (-2437); (-4976); 1607; (-875); (-3780); (-5011); (-1002); 5088; 4284;
   4885; (-1017); 1632; 5084; (-1440); (-3763); 3066; (-27); 2678; 3704; 545; (-5019); 242; 1537; (-4714); (-4143);
   3833; 3778; 390; (-773); (-1067); (-5101); (-442); (-2401); (-354); 4861; (-5698); 2912; 2859; 1045; (-5012); (-2481);
   (-3636); 4938; (-2704); (-5291); 1663; 1777; 1426; (-4654); (-4919); (-113); (-3915); (-2166); (-160); (-3149); 4437; (-3);
   4372; 2174; 4414; 2847; 4057; 3271; (-3364); 1689; (-2305); (-5042); (-4053); 2645; (-1484); 4895; (-2780); 5195;
   (-476); (-3531); 4905; 3985; 2178; 1544; (-5559); (-420); (-671); 3000; 3016; (-243); 2399; (-3400); 3136; 5191;
   (-3186); (-5407); (-2126); 1630; 1153; (-2884); 4048; 2249; 2686; 3247; (-3978); 2969; 3510; 5332; (-2865); 2370;
   (-5828); (-5023); (-4591); 5728; 3328; (-5777); (-1351); 4978; (-2639); 4821; (-2625); 949; (-2744); (-3006); 2975; 563;
   (-1212); 1646; 3195; (-5860); (-3542); (-3504); (-3621); 2545; (-5736); (-4134); (-1305); (-722); 4043; (-5146); 1479; (-1);
   (-790); (-955); 1170; (-2319); (-3201); (-3014); (-1326); 5086; (-1062); 2294; (-4805); (-3553); (-3712); 3135; (-2747); 4846;
   (-4255); (-1177); 1635; (-2768); 726; 4611; (-1853); (-140); (-4320); 1000; (-3091); (-81); 4896; 2963; (-3051); (-2366);
   827; (-5767); 953; (-3748); (-118); (-2476); 2197; 5067; 5374; (-2837); 130; (-4354); (-4452); 2396; 3949; 3296;
   (-2468); (-339); 544; 5791; (-480); 2842; 1022; (-9); 4989; 5331; 4278; (-1673); 4177; (-3584); 2525; (-1381);
   2731; (-3932); 5911; 4890; 3459; 3637; (-145); (-5542); (-4231); (-2548); 355; (-3382); (-1759); 3707; 3694; (-5179);
   (-2013); (-3289); (-3241); (-729); (-5092); 2089; (-2881); 3284; (-5755); 4632; (-4388); (-1260); 2426; (-334); 1696; 1428;
   (-1360); 3956; (-5297); 6119; (-2555); (-6122); 5184; (-1200); 1594; (-1962); 5106; (-5961); (-168); (-2692); (-3329); 4298;
   (-325); (-1404); 948; 1146; (-3728); 4049; (-5990); 1159; 652; 5766; (-6099); (-295); (-4016); (-4077); (-2919); (-3762);
   1958; (-4322); 2078; 1112; 1058; 4079; 922; (-441); (-1319); 3150; 709; 4046; (-4240); (-3570); 835; 6065;
   5257; (-3834); (-5919); (-4433); 3054; (-5486); (-3123); 1747; (-5782); 1566; (-2948); 2503; (-2459); 683; 64; (-3656);
   2057; (-5369); (-3202); (-4493); (-1512); 350; (-5383); 1815; 1583; (-5942); (-2500); 1489; 1483; 5915; (-1263); (-49);
   5868; 2738; (-5735); (-2655); 723; 174; (-1693); 3009; 3315; (-426); (-4754); (-1858); (-3757); (-1975); (-347); 2925;
   418; 3772; (-5908); (-453); (-1293); 4737; (-4774); 5429; (-2767); (-156); (-3991); (-3969); (-5876); (-2281); (-2031); (-5333);
   (-2882); 1805; (-1954); (-2051); 2447; (-6142); 576; 3963; 2908; (-218); (-3529); 3434; (-4115); (-3030); 2361; 1843;
   (-975); (-4212); 2844; 3438; 1105; (-142); (-5681); 3477; 1956; 5009; (-6008); (-885); 241; 58; 3532; 1003;
   4782; (-5886); 3029; (-5594); (-504); 4213; 2302; 605; 4624; (-6077); 3263; (-3600); (-3602); 6068; (-421); 4080;
   3482; 787; (-5468); (-1010); (-3127); (-4169); 2920; 5241; (-5057); 4698; 3445; (-4780); 4912; 2049; 192; 1321;
   (-3957); (-2839); 2127; (-151); (-431); 1579; 2505; 5906; 3174; (-52); 2766; (-1323); (-6055); 3336; (-677); (-5874);
   5315; (-4075); (-4916); 4324; 2169; 522; (-5079); (-3262); (-2344); (-1278); (-1973); (-5574); 1018; (-5925); (-1041); (-3514);
   4749; (-5537); 4789; 4467; 4449; 5456; (-3789); (-147); (-4536); 1050; (-3860); 5445; 2683; (-1190); (-3818); 6118;
   3643; 5415; (-5862); 6136; (-4948); (-6137); 1728; (-400); (-3565); (-654); 1702; (-1987); (-56); 3199; (-5206); 5529;
   3988; (-468); 316; 382; (-5339); 5446; (-6093); (-3710); (-3879); 1922; (-2033); 3998; (-5435); (-1359); (-973); (-1254)].

(** test_ntt_red_tables.c 1608-1737 *)
Definition shoup_red_scaled_ntt1024_12289 : list Z := [
   0; 493; 5444; 2381; 10377; 11854; 10911; 7952; 11885; 7012; 1065; 11082; 4645; 11121; 2143; 9041;
   6250; 7313; 9302; 7278; 2566; 11414; 3646; 5088; 2422; 1607; 6267; 11287; 10102; 8509; 9852; 4284;
   4885; 3833; 2678; 11935; 10849; 11222; 242; 2859; 1632; 390; 545; 6591; 3066; 11847; 7575; 7277;
   11272; 3778; 3704; 4861; 8526; 7188; 1537; 1045; 5084; 11516; 7270; 2912; 12262; 9888; 8146; 9808;
   8653; 11813; 4372; 9103; 7370; 11618; 9984; 2686; 1663; 2178; 4057; 1153; 12129; 2399; 10805; 3510;
   9585; 4905; 4414; 10163; 8374; 3016; 8236; 8311; 1426; 6730; 8925; 4048; 4437; 3136; 9509; 9424;
   4938; 8758; 2174; 6882; 12176; 3000; 7247; 3247; 1777; 1544; 3271; 9405; 9140; 8889; 4895; 5332;
   6998; 3985; 2847; 1630; 10123; 12046; 2645; 2969; 7635; 11869; 1689; 2249; 12286; 5191; 5195; 2370;
   6461; 827; 11499; 2731; 11077; 9821; 8034; 10276; 9650; 5374; 11227; 8058; 6553; 4989; 7969; 6534;
   3328; 12171; 9088; 3459; 8747; 11809; 726; 7197; 9545; 7837; 8577; 10530; 4043; 4177; 4896; 2426;
   7698; 953; 1170; 5911; 3195; 544; 1635; 9048; 9664; 130; 7484; 355; 10984; 4278; 9198; 7901;
   10938; 2197; 10963; 12144; 8668; 1022; 10436; 9408; 2975; 3949; 9542; 3694; 1479; 2525; 9238; 1696;
   7266; 6522; 11334; 8357; 1646; 11950; 11112; 9000; 4821; 9452; 2294; 9741; 8155; 5331; 1000; 4632;
   6512; 9813; 9275; 3637; 8785; 2842; 4611; 2089; 9283; 2396; 3135; 3707; 7143; 8705; 2963; 11955;
   5728; 8541; 9970; 4890; 6429; 5791; 9521; 11560; 949; 7935; 8736; 8907; 11567; 10616; 12208; 11029;
   4978; 5067; 5086; 6747; 2545; 12280; 12149; 3284; 563; 3296; 4846; 7110; 12288; 10908; 9923; 1428;
   10929; 11314; 2057; 5315; 1958; 3482; 418; 3643; 11964; 4782; 5868; 4749; 5257; 8332; 9407; 3988;
   1594; 1956; 1583; 9945; 10970; 7232; 9522; 8724; 652; 4624; 3315; 7753; 6507; 3174; 2908; 8410;
   9734; 1105; 10777; 2169; 1058; 9162; 10996; 7341; 8561; 11785; 723; 4449; 3054; 11858; 2447; 6950;
   12121; 241; 1483; 1018; 8049; 4912; 6413; 12233; 8273; 8687; 8532; 2683; 9830; 6234; 8174; 6854;
   6992; 2844; 9087; 7373; 2078; 6821; 6381; 6427; 948; 3029; 6554; 4789; 6370; 2127; 10335; 316;
   5106; 6281; 9789; 10316; 709; 3445; 8298; 1702; 6190; 3263; 7535; 8429; 9341; 2766; 8760; 10256;
   5184; 6608; 6906; 7210; 922; 2920; 7515; 1728; 6299; 2302; 10596; 8500; 9166; 2505; 576; 6196;
   8960; 3532; 11026; 11248; 835; 192; 10258; 7083; 9370; 11868; 11942; 8471; 64; 11612; 2361; 11316;
   3956; 8077; 6920; 8214; 7967; 787; 3772; 5415; 10885; 6403; 2738; 6752; 8455; 9450; 1805; 11821;
   10327; 5009; 6347; 11011; 3150; 4698; 12133; 11635; 5766; 6212; 11863; 1050; 1566; 12237; 12071; 1922;
   6167; 12147; 350; 522; 4079; 8120; 4737; 6152; 4049; 4213; 174; 5456; 6803; 1579; 6147; 5446;
   9597; 58; 5915; 6364; 8719; 2049; 10008; 3199; 8212; 6068; 10314; 11099; 683; 3336; 9259; 10930;
   6119; 3438; 7796; 4324; 1112; 11279; 11836; 6136; 1146; 6695; 9634; 4467; 7856; 12138; 10238; 382;
   6328; 11404; 1489; 6715; 4046; 7509; 8320; 10302; 11994; 8689; 10431; 5445; 2503; 10966; 3434; 3998;
   11089; 3477; 1815; 9027; 11848; 5241; 5429; 11889; 1159; 605; 3009; 12142; 1747; 5906; 3963; 8579;
   4298; 1003; 12240; 8775; 6065; 1321; 6956; 5529; 8527; 4080; 2925; 6118; 8633; 6415; 1843; 11035;
   338; 9617; 1417; 6759; 12085; 8957; 2926; 6828; 923; 6883; 10014; 3805; 8896; 6026; 4209; 7302;
   8665; 2253; 12221; 7082; 9168; 2276; 4404; 10487; 3338; 9461; 11158; 6105; 1403; 2434; 11081; 751;
   8170; 6457; 3056; 4855; 1468; 7592; 5209; 7250; 11912; 2035; 4564; 9004; 7790; 8443; 10916; 10345;
   5115; 9811; 8682; 6627; 9929; 6513; 8067; 8871; 9714; 11194; 6693; 11007; 7735; 11641; 1705; 11463;
   2894; 2209; 7406; 2171; 2689; 2957; 3238; 11924; 2231; 3669; 10771; 12073; 8761; 3821; 5061; 8929;
   6565; 4820; 9089; 5082; 9272; 8071; 4840; 1223; 11783; 12217; 11113; 5370; 1687; 11169; 10381; 5703;
   7126; 1694; 7187; 10883; 9806; 4504; 8024; 12265; 11897; 1790; 8755; 3723; 11653; 1901; 10568; 4661;
   6492; 7724; 7365; 9694; 6771; 12281; 8062; 4693; 11111; 1241; 12077; 4730; 7619; 5650; 2164; 6671;
   2455; 11424; 2257; 8190; 10880; 9757; 7800; 4510; 8122; 5673; 6636; 10076; 8914; 6320; 9011; 3808;
   8945; 2730; 7723; 11445; 2600; 9696; 10900; 1891; 2212; 7455; 11164; 6203; 7100; 9462; 7078; 910;
   10767; 3815; 4963; 3232; 11826; 8823; 8930; 2485; 11914; 6164; 6463; 3154; 10552; 8496; 3589; 5368;
   9847; 9270; 3942; 2941; 7073; 9021; 12164; 6151; 10347; 9244; 11710; 2832; 9389; 9982; 11475; 3090;
   1314; 9173; 6454; 3007; 8151; 10243; 3449; 11274; 12096; 944; 7226; 11520; 3825; 1030; 438; 7154;
   10344; 9195; 2717; 11607; 5246; 3758; 4032; 4411; 6505; 3840; 1275; 8536; 146; 6481; 3448; 3065;
   5002; 3869; 5845; 5349; 1344; 9663; 10361; 1280; 425; 11038; 4145; 10353; 9342; 5118; 9860; 5386;
   10141; 1783; 448; 3221; 7550; 4523; 4238; 11872; 5478; 3451; 3114; 1706; 7383; 9988; 11573; 8787;
   8342; 5170; 6613; 5604; 5509; 12150; 1826; 9343; 1038; 4665; 2461; 11522; 7954; 2929; 6877; 9916;
   10397; 1868; 10029; 4050; 4705; 11307; 346; 1555; 9013; 7937; 10844; 9169; 10485; 11498; 7562; 4719;
   3343; 1350; 9761; 3769; 8308; 8711; 11197; 6742; 7711; 11249; 3495; 7929; 6617; 1573; 9307; 450;
   7350; 9449; 10962; 7000; 11925; 10440; 10763; 7846; 1165; 2643; 6302; 8717; 11295; 150; 2450; 7246;
   3654; 10526; 3975; 3480; 7684; 10808; 8581; 881; 6197; 7002; 3765; 50; 4913; 10608; 1218; 7605;
   1325; 1160; 10754; 7699; 11053; 4390; 6162; 2334; 1255; 4113; 5734; 3536; 406; 2535; 4538; 4483;
   7681; 10759; 11877; 9656; 2054; 778; 8611; 1371; 10104; 5275; 8328; 845; 5609; 9687; 10753; 11779;
   3959; 7315; 4781; 8452; 11063; 457; 3368; 9951; 2776; 4378; 5966; 3229; 11777; 12119; 5416; 10631;
   5690; 11010; 7784; 8345; 5219; 3317; 9118; 9652; 6085; 9269; 8022; 8136; 9998; 7640; 5993; 3670;
   6691; 6878; 5836; 5202; 11232; 11410; 10221; 7186; 2674; 2712; 7429; 6643; 6094; 9416; 10423; 6389;
   10138; 1734; 3744; 11996; 3407; 10588; 9084; 904; 10669; 10407; 10224; 7235; 11667; 6226; 11572; 578;
   1248; 8095; 5232; 11722; 3028; 8494; 11749; 3469; 3408; 6508; 3889; 10268; 12050; 4289; 416; 10891;
   1744; 12100; 9202; 11024; 12109; 9349; 1136; 10362; 9489; 7519; 8113; 5526; 4235; 11823; 8774; 12226;
   11260; 7771; 12229; 11309; 4475; 3454; 3163; 10699; 10897; 1842; 5508; 3941; 7021; 12268; 11946; 10783;
   12269; 7866; 5588; 9344; 9247; 11759; 11825; 614; 1836; 5410; 10533; 12282; 3982; 11787; 8186; 2622;
   5959; 7211; 11275; 8016; 8038; 4301; 612; 9996; 3511; 4094; 9520; 3929; 6825; 874; 10179; 6500].

(** test_ntt_red_tables.c 1739-1868 *)
Definition shoup_sred_scaled_ntt1024_12289 : list Z := [
   0; 493; 5444; 2381; (-1912); (-435); (-1378); (-4337); (-404); (-5277); 1065; (-1207); 4645; (-1168); 2143; (-3248);
   (-6039); (-4976); (-2987); (-5011); 2566; (-875); 3646; 5088; 2422; 1607; (-6022); (-1002); (-2187); (-3780); (-2437); 4284;
   4885; 3833; 2678; (-354); (-1440); (-1067); 242; 2859; 1632; 390; 545; (-5698); 3066; (-442); (-4714); (-5012);
   (-1017); 3778; 3704; 4861; (-3763); (-5101); 1537; 1045; 5084; (-773); (-5019); 2912; (-27); (-2401); (-4143); (-2481);
   (-3636); (-476); 4372; (-3186); (-4919); (-671); (-2305); 2686; 1663; 2178; 4057; 1153; (-160); 2399; (-1484); 3510;
   (-2704); 4905; 4414; (-2126); (-3915); 3016; (-4053); (-3978); 1426; (-5559); (-3364); 4048; 4437; 3136; (-2780); (-2865);
   4938; (-3531); 2174; (-5407); (-113); 3000; (-5042); 3247; 1777; 1544; 3271; (-2884); (-3149); (-3400); 4895; 5332;
   (-5291); 3985; 2847; 1630; (-2166); (-243); 2645; 2969; (-4654); (-420); 1689; 2249; (-3); 5191; 5195; 2370;
   (-5828); 827; (-790); 2731; (-1212); (-2468); (-4255); (-2013); (-2639); 5374; (-1062); (-4231); (-5736); 4989; (-4320); (-5755);
   3328; (-118); (-3201); 3459; (-3542); (-480); 726; (-5092); (-2744); (-4452); (-3712); (-1759); 4043; 4177; 4896; 2426;
   (-4591); 953; 1170; 5911; 3195; 544; 1635; (-3241); (-2625); 130; (-4805); 355; (-1305); 4278; (-3091); (-4388);
   (-1351); 2197; (-1326); (-145); (-3621); 1022; (-1853); (-2881); 2975; 3949; (-2747); 3694; 1479; 2525; (-3051); 1696;
   (-5023); (-5767); (-955); (-3932); 1646; (-339); (-1177); (-3289); 4821; (-2837); 2294; (-2548); (-4134); 5331; 1000; 4632;
   (-5777); (-2476); (-3014); 3637; (-3504); 2842; 4611; 2089; (-3006); 2396; 3135; 3707; (-5146); (-3584); 2963; (-334);
   5728; (-3748); (-2319); 4890; (-5860); 5791; (-2768); (-729); 949; (-4354); (-3553); (-3382); (-722); (-1673); (-81); (-1260);
   4978; 5067; 5086; (-5542); 2545; (-9); (-140); 3284; 563; 3296; 4846; (-5179); (-1); (-1381); (-2366); 1428;
   (-1360); (-975); 2057; 5315; 1958; 3482; 418; 3643; (-325); 4782; 5868; 4749; 5257; (-3957); (-2882); 3988;
   1594; 1956; 1583; (-2344); (-1319); (-5057); (-2767); (-3565); 652; 4624; 3315; (-4536); (-5782); 3174; 2908; (-3879);
   (-2555); 1105; (-1512); 2169; 1058; (-3127); (-1293); (-4948); (-3728); (-504); 723; 4449; 3054; (-431); 2447; (-5339);
   (-168); 241; 1483; 1018; (-4240); 4912; (-5876); (-56); (-4016); (-3602); (-3757); 2683; (-2459); (-6055); (-4115); (-5435);
   (-5297); 2844; (-3202); (-4916); 2078; (-5468); (-5908); (-5862); 948; 3029; (-5735); 4789; (-5919); 2127; (-1954); 316;
   5106; (-6008); (-2500); (-1973); 709; 3445; (-3991); 1702; (-6099); 3263; (-4754); (-3860); (-2948); 2766; (-3529); (-2033);
   5184; (-5681); (-5383); (-5079); 922; 2920; (-4774); 1728; (-5990); 2302; (-1693); (-3789); (-3123); 2505; 576; (-6093);
   (-3329); 3532; (-1263); (-1041); 835; 192; (-2031); (-5206); (-2919); (-421); (-347); (-3818); 64; (-677); 2361; (-973);
   3956; (-4212); (-5369); (-4075); (-4322); 787; 3772; 5415; (-1404); (-5886); 2738; (-5537); (-3834); (-2839); 1805; (-468);
   (-1962); 5009; (-5942); (-1278); 3150; 4698; (-156); (-654); 5766; (-6077); (-426); 1050; 1566; (-52); (-218); 1922;
   (-6122); (-142); 350; 522; 4079; (-4169); 4737; (-6137); 4049; 4213; 174; 5456; (-5486); 1579; (-6142); 5446;
   (-2692); 58; 5915; (-5925); (-3570); 2049; (-2281); 3199; (-4077); 6068; (-1975); (-1190); 683; 3336; (-3030); (-1359);
   6119; 3438; (-4493); 4324; 1112; (-1010); (-453); 6136; 1146; (-5594); (-2655); 4467; (-4433); (-151); (-2051); 382;
   (-5961); (-885); 1489; (-5574); 4046; (-4780); (-3969); (-1987); (-295); (-3600); (-1858); 5445; 2503; (-1323); 3434; 3998;
   (-1200); 3477; 1815; (-3262); (-441); 5241; 5429; (-400); 1159; 605; 3009; (-147); 1747; 5906; 3963; (-3710);
   4298; 1003; (-49); (-3514); 6065; 1321; (-5333); 5529; (-3762); 4080; 2925; 6118; (-3656); (-5874); 1843; (-1254);
   338; (-2672); 1417; (-5530); (-204); (-3332); 2926; (-5461); 923; (-5406); (-2275); 3805; (-3393); 6026; 4209; (-4987);
   (-3624); 2253; (-68); (-5207); (-3121); 2276; 4404; (-1802); 3338; (-2828); (-1131); 6105; 1403; 2434; (-1208); 751;
   (-4119); (-5832); 3056; 4855; 1468; (-4697); 5209; (-5039); (-377); 2035; 4564; (-3285); (-4499); (-3846); (-1373); (-1944);
   5115; (-2478); (-3607); (-5662); (-2360); (-5776); (-4222); (-3418); (-2575); (-1095); (-5596); (-1282); (-4554); (-648); 1705; (-826);
   2894; 2209; (-4883); 2171; 2689; 2957; 3238; (-365); 2231; 3669; (-1518); (-216); (-3528); 3821; 5061; (-3360);
   (-5724); 4820; (-3200); 5082; (-3017); (-4218); 4840; 1223; (-506); (-72); (-1176); 5370; 1687; (-1120); (-1908); 5703;
   (-5163); 1694; (-5102); (-1406); (-2483); 4504; (-4265); (-24); (-392); 1790; (-3534); 3723; (-636); 1901; (-1721); 4661;
   (-5797); (-4565); (-4924); (-2595); (-5518); (-8); (-4227); 4693; (-1178); 1241; (-212); 4730; (-4670); 5650; 2164; (-5618);
   2455; (-865); 2257; (-4099); (-1409); (-2532); (-4489); 4510; (-4167); 5673; (-5653); (-2213); (-3375); (-5969); (-3278); 3808;
   (-3344); 2730; (-4566); (-844); 2600; (-2593); (-1389); 1891; 2212; (-4834); (-1125); (-6086); (-5189); (-2827); (-5211); 910;
   (-1522); 3815; 4963; 3232; (-463); (-3466); (-3359); 2485; (-375); (-6125); (-5826); 3154; (-1737); (-3793); 3589; 5368;
   (-2442); (-3019); 3942; 2941; (-5216); (-3268); (-125); (-6138); (-1942); (-3045); (-579); 2832; (-2900); (-2307); (-814); 3090;
   1314; (-3116); (-5835); 3007; (-4138); (-2046); 3449; (-1015); (-193); 944; (-5063); (-769); 3825; 1030; 438; (-5135);
   (-1945); (-3094); 2717; (-682); 5246; 3758; 4032; 4411; (-5784); 3840; 1275; (-3753); 146; (-5808); 3448; 3065;
   5002; 3869; 5845; 5349; 1344; (-2626); (-1928); 1280; 425; (-1251); 4145; (-1936); (-2947); 5118; (-2429); 5386;
   (-2148); 1783; 448; 3221; (-4739); 4523; 4238; (-417); 5478; 3451; 3114; 1706; (-4906); (-2301); (-716); (-3502);
   (-3947); 5170; (-5676); 5604; 5509; (-139); 1826; (-2946); 1038; 4665; 2461; (-767); (-4335); 2929; (-5412); (-2373);
   (-1892); 1868; (-2260); 4050; 4705; (-982); 346; 1555; (-3276); (-4352); (-1445); (-3120); (-1804); (-791); (-4727); 4719;
   3343; 1350; (-2528); 3769; (-3981); (-3578); (-1092); (-5547); (-4578); (-1040); 3495; (-4360); (-5672); 1573; (-2982); 450;
   (-4939); (-2840); (-1327); (-5289); (-364); (-1849); (-1526); (-4443); 1165; 2643; (-5987); (-3572); (-994); 150; 2450; (-5043);
   3654; (-1763); 3975; 3480; (-4605); (-1481); (-3708); 881; (-6092); (-5287); 3765; 50; 4913; (-1681); 1218; (-4684);
   1325; 1160; (-1535); (-4590); (-1236); 4390; (-6127); 2334; 1255; 4113; 5734; 3536; 406; 2535; 4538; 4483;
   (-4608); (-1530); (-412); (-2633); 2054; 778; (-3678); 1371; (-2185); 5275; (-3961); 845; 5609; (-2602); (-1536); (-510);
   3959; (-4974); 4781; (-3837); (-1226); 457; 3368; (-2338); 2776; 4378; 5966; 3229; (-512); (-170); 5416; (-1658);
   5690; (-1279); (-4505); (-3944); 5219; 3317; (-3171); (-2637); 6085; (-3020); (-4267); (-4153); (-2291); (-4649); 5993; 3670;
   (-5598); (-5411); 5836; 5202; (-1057); (-879); (-2068); (-5103); 2674; 2712; (-4860); (-5646); 6094; (-2873); (-1866); (-5900);
   (-2151); 1734; 3744; (-293); 3407; (-1701); (-3205); 904; (-1620); (-1882); (-2065); (-5054); (-622); (-6063); (-717); 578;
   1248; (-4194); 5232; (-567); 3028; (-3795); (-540); 3469; 3408; (-5781); 3889; (-2021); (-239); 4289; 416; (-1398);
   1744; (-189); (-3087); (-1265); (-180); (-2940); 1136; (-1927); (-2800); (-4770); (-4176); 5526; 4235; (-466); (-3515); (-63);
   (-1029); (-4518); (-60); (-980); 4475; 3454; 3163; (-1590); (-1392); 1842; 5508; 3941; (-5268); (-21); (-343); (-1506);
   (-20); (-4423); 5588; (-2945); (-3042); (-530); (-464); 614; 1836; 5410; (-1756); (-7); 3982; (-502); (-4103); 2622;
   5959; (-5078); (-1014); (-4273); (-4251); 4301; 612; (-2293); 3511; 4094; (-2769); 3929; (-5464); 874; (-2110); (-5789)].

(** test_ntt_red_tables.c 1870-1999 *)
Definition rev_shoup_red_scaled_ntt1024_12289 : list Z := [
   0; 493; 5444; 2381; 10377; 10911; 11854; 7952; 11885; 4645; 1065; 2143; 7012; 11121; 11082; 9041;
   6250; 2422; 2566; 10102; 9302; 6267; 3646; 9852; 7313; 1607; 11414; 8509; 7278; 11287; 5088; 4284;
   4885; 11272; 1632; 5084; 10849; 8526; 3066; 12262; 2678; 3704; 545; 7270; 242; 1537; 7575; 8146;
   3833; 3778; 390; 11516; 11222; 7188; 11847; 9888; 11935; 4861; 6591; 2912; 2859; 1045; 7277; 9808;
   8653; 4938; 9585; 6998; 1663; 1777; 1426; 7635; 7370; 12176; 8374; 10123; 12129; 9140; 4437; 12286;
   4372; 2174; 4414; 2847; 4057; 3271; 8925; 1689; 9984; 7247; 8236; 2645; 10805; 4895; 9509; 5195;
   11813; 8758; 4905; 3985; 2178; 1544; 6730; 11869; 11618; 3000; 3016; 12046; 2399; 8889; 3136; 5191;
   9103; 6882; 10163; 1630; 1153; 9405; 4048; 2249; 2686; 3247; 8311; 2969; 3510; 5332; 9424; 2370;
   6461; 7266; 7698; 5728; 3328; 6512; 10938; 4978; 9650; 4821; 9664; 949; 9545; 9283; 2975; 563;
   11077; 1646; 3195; 6429; 8747; 8785; 8668; 2545; 6553; 8155; 10984; 11567; 4043; 7143; 1479; 12288;
   11499; 11334; 1170; 9970; 9088; 9275; 10963; 5086; 11227; 2294; 7484; 8736; 8577; 3135; 9542; 4846;
   8034; 11112; 1635; 9521; 726; 4611; 10436; 12149; 7969; 1000; 9198; 12208; 4896; 2963; 9238; 9923;
   827; 6522; 953; 8541; 12171; 9813; 2197; 5067; 5374; 9452; 130; 7935; 7837; 2396; 3949; 3296;
   9821; 11950; 544; 5791; 11809; 2842; 1022; 12280; 4989; 5331; 4278; 10616; 4177; 8705; 2525; 10908;
   2731; 8357; 5911; 4890; 3459; 3637; 12144; 6747; 8058; 9741; 355; 8907; 10530; 3707; 3694; 7110;
   10276; 9000; 9048; 11560; 7197; 2089; 9408; 3284; 6534; 4632; 7901; 11029; 2426; 11955; 1696; 1428;
   10929; 3956; 6992; 6119; 9734; 6167; 5184; 11089; 1594; 10327; 5106; 6328; 12121; 9597; 8960; 4298;
   11964; 10885; 948; 1146; 8561; 4049; 6299; 1159; 652; 5766; 6190; 11994; 8273; 8212; 9370; 8527;
   1958; 7967; 2078; 1112; 1058; 4079; 922; 11848; 10970; 3150; 709; 4046; 8049; 8719; 835; 6065;
   5257; 8455; 6370; 7856; 3054; 6803; 9166; 1747; 6507; 1566; 9341; 2503; 9830; 683; 64; 8633;
   2057; 6920; 9087; 7796; 10777; 350; 6906; 1815; 1583; 6347; 9789; 1489; 1483; 5915; 11026; 12240;
   5868; 2738; 6554; 9634; 723; 174; 10596; 3009; 3315; 11863; 7535; 10431; 8532; 10314; 11942; 2925;
   418; 3772; 6381; 11836; 10996; 4737; 7515; 5429; 9522; 12133; 8298; 8320; 6413; 10008; 10258; 6956;
   9407; 1805; 10335; 10238; 2447; 6147; 576; 3963; 2908; 12071; 8760; 3434; 8174; 9259; 2361; 1843;
   11314; 8077; 2844; 3438; 1105; 12147; 6608; 3477; 1956; 5009; 6281; 11404; 241; 58; 3532; 1003;
   4782; 6403; 3029; 6695; 11785; 4213; 2302; 605; 4624; 6212; 3263; 8689; 8687; 6068; 11868; 4080;
   3482; 787; 6821; 11279; 9162; 8120; 2920; 5241; 7232; 4698; 3445; 7509; 4912; 2049; 192; 1321;
   8332; 9450; 2127; 12138; 11858; 1579; 2505; 5906; 3174; 12237; 2766; 10966; 6234; 3336; 11612; 6415;
   5315; 8214; 7373; 4324; 2169; 522; 7210; 9027; 9945; 11011; 10316; 6715; 1018; 6364; 11248; 8775;
   4749; 6752; 4789; 4467; 4449; 5456; 8500; 12142; 7753; 1050; 8429; 5445; 2683; 11099; 8471; 6118;
   3643; 5415; 6427; 6136; 7341; 6152; 1728; 11889; 8724; 11635; 1702; 10302; 12233; 3199; 7083; 5529;
   3988; 11821; 316; 382; 6950; 5446; 6196; 8579; 8410; 1922; 10256; 3998; 6854; 10930; 11316; 11035;
   338; 8342; 2455; 5690; 2894; 3654; 1314; 1744; 8170; 3343; 10767; 10138; 7126; 7681; 5002; 12269;
   8665; 10397; 8945; 6691; 6565; 1325; 10344; 11260; 5115; 7350; 9847; 1248; 6492; 3959; 10141; 5959;
   923; 1038; 8122; 6085; 2231; 6197; 12096; 9489; 11912; 7711; 11914; 10669; 11897; 10104; 425; 1836;
   3338; 9013; 2212; 2674; 11783; 1255; 6505; 10897; 9714; 1165; 10347; 3408; 11111; 2776; 5478; 3511;
   12085; 5509; 10880; 5219; 2689; 7684; 8151; 12109; 1468; 8308; 11826; 3407; 9806; 2054; 1344; 9247;
   9168; 4705; 2600; 11232; 9272; 11053; 5246; 4475; 9929; 11925; 7073; 3028; 6771; 11063; 7550; 8038;
   8896; 7954; 8914; 9998; 8761; 4913; 3825; 4235; 7790; 6617; 10552; 11667; 11653; 5609; 9342; 3982;
   1403; 10485; 7100; 6094; 1687; 406; 146; 7021; 7735; 11295; 9389; 12050; 7619; 11777; 7383; 6825;
   1417; 6613; 2257; 7784; 7406; 3975; 6454; 9202; 3056; 9761; 4963; 3744; 7187; 11877; 5845; 5588;
   12221; 10029; 7723; 5836; 9089; 10754; 2717; 12229; 8682; 10962; 3942; 5232; 7365; 4781; 448; 11275;
   10014; 2461; 6636; 8022; 10771; 3765; 7226; 8113; 4564; 3495; 6463; 10224; 8755; 8328; 4145; 10533;
   11158; 10844; 11164; 7429; 11113; 5734; 1275; 5508; 6693; 6302; 11710; 3889; 12077; 5966; 3114; 9520;
   2926; 1826; 7800; 9118; 3238; 8581; 3449; 1136; 5209; 11197; 8930; 9084; 8024; 8611; 10361; 11825;
   4404; 346; 10900; 10221; 4840; 6162; 4032; 3163; 8067; 10763; 12164; 11749; 8062; 3368; 4238; 612;
   4209; 6877; 9011; 5993; 5061; 1218; 438; 8774; 10916; 9307; 3589; 11572; 10568; 10753; 9860; 8186;
   11081; 7562; 7078; 10423; 10381; 4538; 3448; 11946; 1705; 2450; 11475; 416; 2164; 5416; 11573; 10179;
   9617; 5170; 11424; 11010; 2209; 10526; 9173; 12100; 6457; 1350; 3815; 1734; 1694; 10759; 3869; 7866;
   2253; 1868; 2730; 6878; 4820; 1160; 9195; 7771; 9811; 9449; 9270; 8095; 7724; 7315; 1783; 7211;
   6883; 4665; 5673; 9269; 3669; 7002; 944; 7519; 2035; 11249; 6164; 10407; 1790; 5275; 11038; 5410;
   9461; 7937; 7455; 2712; 12217; 4113; 3840; 1842; 11194; 2643; 9244; 6508; 1241; 4378; 3451; 4094;
   8957; 12150; 9757; 3317; 2957; 10808; 10243; 9349; 7592; 8711; 8823; 10588; 4504; 778; 9663; 11759;
   2276; 11307; 9696; 11410; 8071; 4390; 3758; 3454; 6513; 10440; 9021; 8494; 12281; 457; 4523; 4301;
   6026; 2929; 6320; 7640; 3821; 10608; 1030; 11823; 8443; 1573; 8496; 6226; 1901; 9687; 5118; 11787;
   2434; 11498; 9462; 9416; 11169; 2535; 6481; 12268; 11641; 150; 9982; 4289; 5650; 12119; 9988; 874;
   6759; 5604; 8190; 8345; 2171; 3480; 3007; 11024; 4855; 3769; 3232; 11996; 10883; 9656; 5349; 9344;
   7082; 4050; 11445; 5202; 5082; 7699; 11607; 11309; 6627; 7000; 2941; 11722; 9694; 8452; 3221; 8016;
   3805; 11522; 10076; 8136; 12073; 50; 11520; 5526; 9004; 7929; 3154; 7235; 3723; 845; 10353; 12282;
   6105; 9169; 6203; 6643; 5370; 3536; 8536; 3941; 11007; 8717; 2832; 10268; 4730; 3229; 1706; 3929;
   6828; 9343; 4510; 9652; 11924; 881; 11274; 10362; 7250; 6742; 2485; 904; 12265; 1371; 1280; 614;
   10487; 1555; 1891; 7186; 1223; 2334; 4411; 10699; 8871; 7846; 6151; 3469; 4693; 9951; 11872; 9996;
   7302; 9916; 3808; 3670; 8929; 7605; 7154; 12226; 10345; 450; 5368; 578; 4661; 11779; 5386; 2622;
   751; 4719; 910; 6389; 5703; 4483; 3065; 10783; 11463; 7246; 3090; 10891; 6671; 10631; 8787; 6500].

(** test_ntt_red_tables.c 2001-2130 *)
Definition rev_shoup_sred_scaled_ntt1024_12289 : list Z := [
   0; 493; 5444; 2381; (-1912); (-1378); (-435); (-4337); (-404); 4645; 1065; 2143; (-5277); (-1168); (-1207); (-3248);
   (-6039); 2422; 2566; (-2187); (-2987); (-6022); 3646; (-2437); (-4976); 1607; (-875); (-3780); (-5011); (-1002); 5088; 4284;
   4885; (-1017); 1632; 5084; (-1440); (-3763); 3066; (-27); 2678; 3704; 545; (-5019); 242; 1537; (-4714); (-4143);
   3833; 3778; 390; (-773); (-1067); (-5101); (-442); (-2401); (-354); 4861; (-5698); 2912; 2859; 1045; (-5012); (-2481);
   (-3636); 4938; (-2704); (-5291); 1663; 1777; 1426; (-4654); (-4919); (-113); (-3915); (-2166); (-160); (-3149); 4437; (-3);
   4372; 2174; 4414; 2847; 4057; 3271; (-3364); 1689; (-2305); (-5042); (-4053); 2645; (-1484); 4895; (-2780); 5195;
   (-476); (-3531); 4905; 3985; 2178; 1544; (-5559); (-420); (-671); 3000; 3016; (-243); 2399; (-3400); 3136; 5191;
   (-3186); (-5407); (-2126); 1630; 1153; (-2884); 4048; 2249; 2686; 3247; (-3978); 2969; 3510; 5332; (-2865); 2370;
   (-5828); (-5023); (-4591); 5728; 3328; (-5777); (-1351); 4978; (-2639); 4821; (-2625); 949; (-2744); (-3006); 2975; 563;
   (-1212); 1646; 3195; (-5860); (-3542); (-3504); (-3621); 2545; (-5736); (-4134); (-1305); (-722); 4043; (-5146); 1479; (-1);
   (-790); (-955); 1170; (-2319); (-3201); (-3014); (-1326); 5086; (-1062); 2294; (-4805); (-3553); (-3712); 3135; (-2747); 4846;
   (-4255); (-1177); 1635; (-2768); 726; 4611; (-1853); (-140); (-4320); 1000; (-3091); (-81); 4896; 2963; (-3051); (-2366);
   827; (-5767); 953; (-3748); (-118); (-2476); 2197; 5067; 5374; (-2837); 130; (-4354); (-4452); 2396; 3949; 3296;
   (-2468); (-339); 544; 5791; (-480); 2842; 1022; (-9); 4989; 5331; 4278; (-1673); 4177; (-3584); 2525; (-1381);
   2731; (-3932); 5911; 4890; 3459; 3637; (-145); (-5542); (-4231); (-2548); 355; (-3382); (-1759); 3707; 3694; (-5179);
   (-2013); (-3289); (-3241); (-729); (-5092); 2089; (-2881); 3284; (-5755); 4632; (-4388); (-1260); 2426; (-334); 1696; 1428;
   (-1360); 3956; (-5297); 6119; (-2555); (-6122); 5184; (-1200); 1594; (-1962); 5106; (-5961); (-168); (-2692); (-3329); 4298;
   (-325); (-1404); 948; 1146; (-3728); 4049; (-5990); 1159; 652; 5766; (-6099); (-295); (-4016); (-4077); (-2919); (-3762);
   1958; (-4322); 2078; 1112; 1058; 4079; 922; (-441); (-1319); 3150; 709; 4046; (-4240); (-3570); 835; 6065;
   5257; (-3834); (-5919); (-4433); 3054; (-5486); (-3123); 1747; (-5782); 1566; (-2948); 2503; (-2459); 683; 64; (-3656);
   2057; (-5369); (-3202); (-4493); (-1512); 350; (-5383); 1815; 1583; (-5942); (-2500); 1489; 1483; 5915; (-1263); (-49);
   5868; 2738; (-5735); (-2655); 723; 174; (-1693); 3009; 3315; (-426); (-4754); (-1858); (-3757); (-1975); (-347); 2925;
   418; 3772; (-5908); (-453); (-1293); 4737; (-4774); 5429; (-2767); (-156); (-3991); (-3969); (-5876); (-2281); (-2031); (-5333);
   (-2882); 1805; (-1954); (-2051); 2447; (-6142); 576; 3963; 2908; (-218); (-3529); 3434; (-4115); (-3030); 2361; 1843;
   (-975); (-4212); 2844; 3438; 1105; (-142); (-5681); 3477; 1956; 5009; (-6008); (-885); 241; 58; 3532; 1003;
   4782; (-5886); 3029; (-5594); (-504); 4213; 2302; 605; 4624; (-6077); 3263; (-3600); (-3602); 6068; (-421); 4080;
   3482; 787; (-5468); (-1010); (-3127); (-4169); 2920; 5241; (-5057); 4698; 3445; (-4780); 4912; 2049; 192; 1321;
   (-3957); (-2839); 2127; (-151); (-431); 1579; 2505; 5906; 3174; (-52); 2766; (-1323); (-6055); 3336; (-677); (-5874);
   5315; (-4075); (-4916); 4324; 2169; 522; (-5079); (-3262); (-2344); (-1278); (-1973); (-5574); 1018; (-5925); (-1041); (-3514);
   4749; (-5537); 4789; 4467; 4449; 5456; (-3789); (-147); (-4536); 1050; (-3860); 5445; 2683; (-1190); (-3818); 6118;
   3643; 5415; (-5862); 6136; (-4948); (-6137); 1728; (-400); (-3565); (-654); 1702; (-1987); (-56); 3199; (-5206); 5529;
   3988; (-468); 316; 382; (-5339); 5446; (-6093); (-3710); (-3879); 1922; (-2033); 3998; (-5435); (-1359); (-973); (-1254);
   338; (-3947); 2455; 5690; 2894; 3654; 1314; 1744; (-4119); 3343; (-1522); (-2151); (-5163); (-4608); 5002; (-20);
   (-3624); (-1892); (-3344); (-5598); (-5724); 1325; (-1945); (-1029); 5115; (-4939); (-2442); 1248; (-5797); 3959; (-2148); 5959;
   923; 1038; (-4167); 6085; 2231; (-6092); (-193); (-2800); (-377); (-4578); (-375); (-1620); (-392); (-2185); 425; 1836;
   3338; (-3276); 2212; 2674; (-506); 1255; (-5784); (-1392); (-2575); 1165; (-1942); 3408; (-1178); 2776; 5478; 3511;
   (-204); 5509; (-1409); 5219; 2689; (-4605); (-4138); (-180); 1468; (-3981); (-463); 3407; (-2483); 2054; 1344; (-3042);
   (-3121); 4705; 2600; (-1057); (-3017); (-1236); 5246; 4475; (-2360); (-364); (-5216); 3028; (-5518); (-1226); (-4739); (-4251);
   (-3393); (-4335); (-3375); (-2291); (-3528); 4913; 3825; 4235; (-4499); (-5672); (-1737); (-622); (-636); 5609; (-2947); 3982;
   1403; (-1804); (-5189); 6094; 1687; 406; 146; (-5268); (-4554); (-994); (-2900); (-239); (-4670); (-512); (-4906); (-5464);
   1417; (-5676); 2257; (-4505); (-4883); 3975; (-5835); (-3087); 3056; (-2528); 4963; 3744; (-5102); (-412); 5845; 5588;
   (-68); (-2260); (-4566); 5836; (-3200); (-1535); 2717; (-60); (-3607); (-1327); 3942; 5232; (-4924); 4781; 448; (-1014);
   (-2275); 2461; (-5653); (-4267); (-1518); 3765; (-5063); (-4176); 4564; 3495; (-5826); (-2065); (-3534); (-3961); 4145; (-1756);
   (-1131); (-1445); (-1125); (-4860); (-1176); 5734; 1275; 5508; (-5596); (-5987); (-579); 3889; (-212); 5966; 3114; (-2769);
   2926; 1826; (-4489); (-3171); 3238; (-3708); 3449; 1136; 5209; (-1092); (-3359); (-3205); (-4265); (-3678); (-1928); (-464);
   4404; 346; (-1389); (-2068); 4840; (-6127); 4032; 3163; (-4222); (-1526); (-125); (-540); (-4227); 3368; 4238; 612;
   4209; (-5412); (-3278); 5993; 5061; 1218; 438; (-3515); (-1373); (-2982); 3589; (-717); (-1721); (-1536); (-2429); (-4103);
   (-1208); (-4727); (-5211); (-1866); (-1908); 4538; 3448; (-343); 1705; 2450; (-814); 416; 2164; 5416; (-716); (-2110);
   (-2672); 5170; (-865); (-1279); 2209; (-1763); (-3116); (-189); (-5832); 1350; 3815; 1734; 1694; (-1530); 3869; (-4423);
   2253; 1868; 2730; (-5411); 4820; 1160; (-3094); (-4518); (-2478); (-2840); (-3019); (-4194); (-4565); (-4974); 1783; (-5078);
   (-5406); 4665; 5673; (-3020); 3669; (-5287); 944; (-4770); 2035; (-1040); (-6125); (-1882); 1790; 5275; (-1251); 5410;
   (-2828); (-4352); (-4834); 2712; (-72); 4113; 3840; 1842; (-1095); 2643; (-3045); (-5781); 1241; 4378; 3451; 4094;
   (-3332); (-139); (-2532); 3317; 2957; (-1481); (-2046); (-2940); (-4697); (-3578); (-3466); (-1701); 4504; 778; (-2626); (-530);
   2276; (-982); (-2593); (-879); (-4218); 4390; 3758; 3454; (-5776); (-1849); (-3268); (-3795); (-8); 457; 4523; 4301;
   6026; 2929; (-5969); (-4649); 3821; (-1681); 1030; (-466); (-3846); 1573; (-3793); (-6063); 1901; (-2602); 5118; (-502);
   2434; (-791); (-2827); (-2873); (-1120); 2535; (-5808); (-21); (-648); 150; (-2307); 4289; 5650; (-170); (-2301); 874;
   (-5530); 5604; (-4099); (-3944); 2171; 3480; 3007; (-1265); 4855; 3769; 3232; (-293); (-1406); (-2633); 5349; (-2945);
   (-5207); 4050; (-844); 5202; 5082; (-4590); (-682); (-980); (-5662); (-5289); 2941; (-567); (-2595); (-3837); 3221; (-4273);
   3805; (-767); (-2213); (-4153); (-216); 50; (-769); 5526; (-3285); (-4360); 3154; (-5054); 3723; 845; (-1936); (-7);
   6105; (-3120); (-6086); (-5646); 5370; 3536; (-3753); 3941; (-1282); (-3572); 2832; (-2021); 4730; 3229; 1706; 3929;
   (-5461); (-2946); 4510; (-2637); (-365); 881; (-1015); (-1927); (-5039); (-5547); 2485; 904; (-24); 1371; 1280; 614;
   (-1802); 1555; 1891; (-5103); 1223; 2334; 4411; (-1590); (-3418); (-4443); (-6138); 3469; 4693; (-2338); (-417); (-2293);
   (-4987); (-2373); 3808; 3670; (-3360); (-4684); (-5135); (-63); (-1944); 450; 5368; 578; 4661; (-510); 5386; 2622;
   751; 4719; 910; (-5900); 5703; 4483; 3065; (-1506); (-826); (-5043); 3090; (-1398); (-5618); (-1658); (-3502); (-5789)].

(** test_ntt_red_tables.c 2143-2400 *)
Definition shoup_red_ntt2048_12289 : list Z := [
   0; 8193; 8193; 493; 8193; 6845; 493; 9908; 8193; 1378; 6845; 7952; 493; 10377; 9908; 435;
   8193; 10146; 1378; 1207; 6845; 404; 7952; 11121; 493; 1065; 10377; 3248; 9908; 7644; 435; 5277;
   8193; 9852; 10146; 11287; 1378; 2422; 1207; 11414; 6845; 9302; 404; 8005; 7952; 2187; 11121; 10682;
   493; 8643; 1065; 5011; 10377; 6039; 3248; 8509; 9908; 6267; 7644; 5088; 435; 2566; 5277; 7313;
   8193; 4714; 9852; 6591; 10146; 10657; 11287; 11222; 1378; 9611; 2422; 2481; 1207; 12262; 11414; 773;
   6845; 1537; 9302; 7428; 404; 11272; 8005; 442; 7952; 545; 2187; 9430; 11121; 10849; 10682; 8456;
   493; 4143; 8643; 2912; 1065; 7205; 5011; 7188; 10377; 8585; 6039; 7277; 3248; 9223; 8509; 390;
   9908; 12047; 6267; 11935; 7644; 7404; 5088; 2401; 435; 7270; 2566; 11244; 5277; 8526; 7313; 8511;
   8193; 7394; 4714; 11136; 9852; 1777; 6591; 11618; 10146; 10115; 10657; 2370; 11287; 4437; 11222; 420;
   1378; 4053; 9611; 1630; 2422; 9585; 2481; 3400; 1207; 8232; 12262; 3247; 11414; 7370; 773; 3531;
   6845; 5195; 1537; 4048; 9302; 4654; 7428; 9273; 404; 2847; 11272; 3510; 8005; 3149; 442; 10111;
   7952; 7247; 545; 9103; 2187; 7351; 9430; 5191; 11121; 8925; 10849; 9320; 10682; 3915; 8456; 3985;
   493; 10805; 4143; 2884; 8643; 10626; 2912; 3000; 1065; 4372; 7205; 2865; 5011; 12286; 7188; 6730;
   10377; 9644; 8585; 2126; 6039; 6998; 7277; 2399; 3248; 9018; 9223; 9603; 8509; 12176; 390; 11813;
   9908; 2780; 12047; 2249; 6267; 1426; 11935; 243; 7644; 7875; 7404; 5332; 5088; 12129; 2401; 10745;
   435; 2305; 7270; 6882; 2566; 8653; 11244; 9153; 5277; 1689; 8526; 8311; 7313; 2166; 8511; 7384;
   8193; 81; 7394; 2548; 4714; 2625; 11136; 2468; 9852; 9970; 1777; 1696; 6591; 4043; 11618; 8993;
   10146; 7678; 10115; 145; 10657; 8961; 2370; 10616; 11287; 2294; 4437; 9048; 11222; 11077; 420; 3748;
   1378; 3051; 4053; 1759; 9611; 563; 1630; 2842; 2422; 10963; 9585; 6534; 2481; 722; 3400; 2837;
   1207; 10654; 8232; 9558; 12262; 5728; 3247; 2525; 11414; 8577; 7370; 9005; 773; 3504; 3531; 10092;
   6845; 4320; 5195; 8907; 1537; 4821; 4048; 544; 9302; 11499; 4654; 334; 7428; 10810; 9273; 4452;
   404; 12149; 2847; 3637; 11272; 10938; 3510; 4989; 8005; 3553; 3149; 3289; 442; 9094; 10111; 11462;
   7952; 2963; 7247; 3694; 545; 9545; 9103; 9; 2187; 3014; 7351; 4388; 9430; 5736; 5191; 7935;
   11121; 11112; 8925; 5911; 10849; 6461; 9320; 3584; 10682; 2747; 3915; 5092; 8456; 2545; 3985; 9813;
   493; 9198; 10805; 8058; 4143; 11340; 2884; 339; 8643; 11119; 10626; 1428; 2912; 7143; 3000; 3949;
   1065; 726; 4372; 5542; 7205; 5777; 2865; 8011; 5011; 1062; 12286; 11560; 7188; 1646; 6730; 953;
   10377; 2366; 9644; 8582; 8585; 9314; 2126; 480; 6039; 5086; 6998; 4632; 7277; 10984; 2399; 5374;
   3248; 2768; 9018; 3932; 9223; 4591; 9603; 10908; 8509; 3135; 12176; 9408; 390; 8747; 11813; 7222;
   9908; 11289; 2780; 11934; 12047; 2639; 2249; 5791; 6267; 11334; 1426; 2426; 11935; 1; 243; 9893;
   7644; 1853; 7875; 8830; 7404; 4978; 5332; 5331; 5088; 7484; 12129; 10276; 2401; 5860; 10745; 5767;
   435; 7393; 2305; 7110; 7270; 9283; 6882; 1022; 2566; 9088; 8653; 1260; 11244; 4134; 9153; 12159;
   5277; 4255; 1689; 4890; 8526; 7266; 8311; 4177; 7313; 7443; 2166; 10200; 8511; 3621; 7384; 118;
   8193; 8326; 81; 7822; 7394; 8240; 2548; 11502; 4714; 5383; 2625; 5435; 11136; 5782; 2468; 4080;
   9852; 8320; 9970; 6364; 1777; 10327; 1696; 2505; 6591; 6554; 4043; 7341; 11618; 1958; 8993; 8812;
   10146; 3030; 7678; 11239; 10115; 2919; 145; 8844; 10657; 10806; 8961; 8301; 2370; 1747; 10616; 6695;
   11287; 4737; 2294; 8214; 4437; 5184; 9048; 6234; 11222; 3315; 11077; 6760; 420; 8243; 3748; 12231;
   1378; 10484; 3051; 3789; 4053; 11341; 1759; 3127; 9611; 10232; 563; 3998; 1630; 683; 2842; 6212;
   2422; 10258; 10963; 10316; 9585; 12121; 6534; 8332; 2481; 9280; 722; 6153; 3400; 8210; 2837; 4212;
   1207; 3529; 10654; 9606; 8232; 11637; 9558; 1321; 12262; 1489; 5728; 5446; 3247; 8455; 2525; 2302;
   11414; 6381; 8577; 2169; 7370; 10929; 9005; 1323; 773; 1975; 3504; 654; 3531; 11454; 10092; 6008;
   6845; 9842; 4320; 7540; 5195; 1159; 8907; 11279; 1537; 350; 4821; 11316; 4048; 9341; 544; 8687;
   9302; 9522; 11499; 3514; 4654; 5961; 334; 10710; 7428; 9551; 10810; 10561; 9273; 10211; 4452; 11184;
   404; 1843; 12149; 5445; 2847; 8212; 3637; 4698; 11272; 11026; 10938; 316; 3510; 3054; 4989; 4782;
   8005; 6860; 3553; 7965; 3149; 6122; 3289; 677; 442; 4754; 9094; 56; 10111; 1319; 11462; 1003;
   7952; 10238; 2963; 5456; 7247; 10885; 3694; 2920; 545; 9087; 9545; 8410; 9103; 3656; 9; 3600;
   2187; 2281; 3014; 1278; 7351; 3329; 4388; 10162; 9430; 11566; 5736; 8646; 5191; 11848; 7935; 3438;
   11121; 12071; 11112; 8471; 8925; 6190; 5911; 4912; 10849; 1583; 6461; 3710; 9320; 4433; 3584; 8076;
   10682; 8517; 2747; 5079; 3915; 5297; 5092; 9115; 8456; 2925; 2545; 10302; 3985; 8719; 9813; 5009;
   493; 576; 9198; 4789; 10805; 8561; 8058; 3482; 4143; 10474; 11340; 1359; 2884; 10723; 339; 421;
   8643; 3991; 11119; 11271; 10626; 10695; 1428; 5906; 2912; 9634; 7143; 6152; 3000; 7967; 3949; 6608;
   1065; 8174; 726; 7753; 4372; 3762; 5542; 4780; 7205; 6374; 5777; 468; 2865; 3123; 8011; 9260;
   5011; 1293; 1062; 6974; 12286; 11089; 11560; 3336; 7188; 11863; 1646; 7083; 6730; 709; 953; 241;
   10377; 9407; 2366; 147; 9644; 11143; 8582; 4169; 8585; 5369; 9314; 2033; 2126; 2459; 480; 7665;
   6039; 6956; 5086; 6715; 6998; 9597; 4632; 9450; 7277; 10596; 10984; 6427; 2399; 1058; 5374; 11314;
   3248; 8855; 2768; 1190; 9018; 6523; 3932; 12097; 9223; 2500; 4591; 5339; 9603; 7032; 10908; 605;
   8509; 11836; 3135; 522; 12176; 3956; 9408; 2766; 390; 8532; 8747; 8724; 11813; 6224; 7222; 885;
   9908; 6142; 11289; 5537; 2780; 5990; 11934; 5468; 12047; 1512; 2639; 11035; 2249; 2503; 5791; 6068;
   6267; 12133; 11334; 11248; 1426; 5106; 2426; 11858; 11935; 5868; 1; 400; 243; 11177; 9893; 142;
   7644; 9928; 1853; 3860; 7875; 4016; 8830; 5057; 7404; 12240; 4978; 382; 5332; 6803; 5331; 6403;
   5088; 7515; 7484; 7373; 12129; 9734; 10276; 5874; 2401; 1858; 5860; 9090; 10745; 9139; 5767; 8757;
   435; 1954; 7393; 7840; 2305; 325; 7110; 5241; 7270; 7796; 9283; 1922; 6882; 64; 1022; 3263;
   2566; 6413; 9088; 9945; 8653; 7991; 1260; 151; 11244; 12115; 4134; 6874; 9153; 11367; 12159; 9445;
   5277; 9381; 4255; 6118; 1689; 11994; 4890; 2049; 8526; 6347; 7266; 6196; 8311; 6370; 4177; 11785;
   7313; 418; 7443; 3262; 2166; 6170; 10200; 52; 8511; 347; 3621; 10587; 7384; 4240; 118; 10333;
   8193; 8186; 8326; 5526; 81; 10669; 7822; 3317; 7394; 11877; 8240; 7246; 2548; 10485; 11502; 3451;
   4714; 4032; 5383; 2941; 2625; 8945; 5435; 1901; 11136; 10771; 5782; 7250; 2468; 12085; 4080; 4423;
   9852; 11873; 8320; 5646; 9970; 9513; 6364; 7899; 1777; 1327; 10327; 2373; 1696; 2947; 2505; 11345;
   6591; 3359; 6554; 4099; 4043; 5163; 7341; 648; 11618; 1131; 1958; 9996; 8993; 4475; 8812; 8095;
   10146; 5993; 3030; 845; 7678; 6197; 11239; 8711; 10115; 6613; 2919; 3065; 145; 9389; 8844; 7455;
   10657; 8062; 10806; 5082; 8961; 5115; 8301; 6026; 2370; 1756; 1747; 1927; 10616; 8882; 6695; 1279;
   11287; 7751; 4737; 3572; 2294; 3276; 8214; 7766; 4437; 9572; 5184; 6921; 9048; 3375; 6234; 10499;
   11222; 9051; 3315; 7434; 11077; 11951; 6760; 12268; 420; 3889; 8243; 7186; 3748; 11063; 12231; 1160;
   1378; 9307; 10484; 11522; 3051; 425; 3789; 10243; 4053; 4963; 11341; 6671; 1759; 1687; 3127; 11194;
   9611; 4404; 10232; 4273; 563; 1029; 3998; 6063; 1630; 4267; 683; 10918; 2842; 4605; 6212; 10939;
   2422; 716; 10258; 3753; 10963; 1942; 10316; 2593; 9585; 4924; 12121; 3360; 6534; 4499; 8332; 5406;
   2481; 11825; 9280; 11024; 722; 10138; 6153; 12119; 3400; 5734; 8210; 7846; 2837; 4705; 4212; 1783;
   1207; 438; 3529; 3154; 10654; 8122; 9606; 4504; 8232; 7406; 11637; 751; 9558; 5464; 1321; 10447;
   12262; 540; 1489; 7087; 5728; 8330; 5446; 1681; 3247; 8794; 8455; 2946; 2525; 10945; 2302; 3116;
   11414; 5211; 6381; 7559; 8577; 506; 2169; 5776; 7370; 68; 10929; 2622; 9005; 4235; 1323; 10407;
   773; 9118; 1975; 9656; 3504; 3654; 654; 11498; 3531; 3114; 11454; 4411; 10092; 7073; 6008; 2730;
   6845; 10568; 9842; 12073; 4320; 11912; 7540; 8957; 5195; 6701; 1159; 1398; 8907; 6195; 11279; 7911;
   1537; 6127; 350; 5289; 4821; 1892; 11316; 7171; 4048; 5063; 9341; 9804; 544; 1409; 8687; 10595;
   9302; 10584; 9522; 6184; 11499; 3511; 3514; 3454; 4654; 5232; 5961; 3670; 334; 5609; 10710; 7002;
   7428; 11197; 9551; 5604; 10810; 5002; 10561; 9982; 9273; 11164; 10211; 4693; 4452; 9272; 11184; 9811;
   404; 4209; 1843; 7; 12149; 2800; 5445; 1701; 2847; 4505; 8212; 7806; 3637; 994; 4698; 4352;
   11272; 8051; 11026; 682; 10938; 2442; 316; 5969; 3510; 3534; 3054; 365; 4989; 10821; 4782; 2672;
   8005; 11946; 6860; 10268; 3553; 2674; 7965; 457; 3149; 10754; 6122; 450; 3289; 7954; 677; 11038;
   442; 3449; 4754; 3232; 9094; 2455; 56; 11169; 10111; 6693; 1319; 10487; 11462; 4251; 1003; 4518;
   7952; 717; 10238; 4153; 2963; 2185; 5456; 1481; 7247; 2528; 10885; 3502; 3694; 12143; 2920; 3045;
   545; 1389; 9087; 2595; 9545; 5724; 8410; 3846; 9103; 2275; 3656; 614; 9; 12109; 3600; 1734;
   2187; 5416; 2281; 3536; 3014; 1165; 1278; 11307; 7351; 448; 3329; 7154; 4388; 10552; 10162; 5673;
   9430; 8024; 11566; 2171; 5736; 8170; 8646; 11415; 5191; 6781; 11848; 8820; 7935; 1057; 3438; 4974;
   11121; 11071; 12071; 4360; 11112; 11251; 8471; 2626; 8925; 5835; 6190; 11379; 5911; 4670; 4912; 72;
   10849; 4222; 1583; 5207; 6461; 5959; 3710; 11823; 9320; 10224; 4433; 9652; 3584; 2054; 8076; 10526;
   10682; 7562; 8517; 1706; 2747; 6505; 5079; 9021; 3915; 7723; 5297; 4661; 5092; 8761; 9115; 2035;
   8456; 2926; 2925; 2945; 2545; 10545; 10302; 2873; 3985; 6323; 8719; 9955; 9813; 364; 5009; 10421;
   493; 2429; 576; 769; 9198; 375; 4789; 2532; 10805; 5102; 8561; 826; 8058; 10886; 3482; 4094;
   4143; 3163; 10474; 11722; 11340; 6691; 1359; 9687; 2884; 3765; 10723; 6742; 339; 5509; 421; 3869;
   8643; 11475; 3991; 6203; 11119; 11111; 11271; 8071; 10626; 8682; 10695; 7302; 1428; 8307; 5906; 4770;
   2912; 3205; 9634; 3944; 7143; 4608; 6152; 12139; 3000; 1445; 7967; 417; 3949; 7043; 6608; 3019;
   1065; 3278; 8174; 8566; 726; 10058; 7753; 4697; 4372; 10872; 3762; 10783; 5542; 12050; 4780; 2712;
   7205; 3368; 6374; 7699; 5777; 7350; 468; 2929; 2865; 4145; 3123; 11274; 8011; 11826; 9260; 11424;
   5011; 10381; 1293; 11007; 1062; 3338; 6974; 7988; 12286; 60; 11089; 11711; 11560; 2291; 3336; 7014;
   7188; 3708; 11863; 8520; 1646; 3947; 7083; 5808; 6730; 579; 709; 10398; 953; 5518; 241; 7469;
   10377; 1373; 9407; 8484; 2366; 1836; 147; 9349; 9644; 3744; 11143; 10631; 8582; 406; 4169; 2643;
   8585; 346; 5369; 3221; 9314; 10344; 2033; 8496; 2126; 6636; 2459; 12265; 480; 2689; 7665; 6457;
   6039; 2110; 6956; 8348; 5086; 8881; 6715; 879; 6998; 7508; 9597; 4684; 4632; 5672; 9450; 7624;
   7277; 1928; 10596; 9282; 10984; 1522; 6427; 6639; 2399; 1176; 1058; 3418; 5374; 3121; 11314; 7211;
   3248; 8774; 8855; 7235; 2768; 6085; 1190; 778; 9018; 3975; 6523; 4719; 3932; 7383; 12097; 3840;
   9223; 12164; 2500; 11445; 4591; 6492; 5339; 3821; 9603; 4564; 7032; 6828; 10908; 3042; 605; 189;
   8509; 1866; 11836; 9060; 3135; 11034; 522; 1849; 12176; 2260; 3956; 6903; 9408; 8464; 2766; 6125;
   390; 4489; 8532; 1406; 8747; 9395; 8724; 9855; 11813; 9520; 6224; 10699; 7222; 3028; 885; 6878;
   9908; 10753; 6142; 50; 11289; 7711; 5537; 12150; 2780; 5845; 5990; 3090; 11934; 7100; 5468; 1241;
   12047; 4840; 1512; 6627; 2639; 8665; 11035; 502; 2249; 4176; 2503; 11385; 5791; 7070; 6068; 1530;
   6267; 9839; 12133; 3120; 11334; 6811; 11248; 8531; 1426; 8347; 5106; 8481; 2426; 636; 11858; 8620;
   11935; 7080; 5868; 5530; 1; 12269; 400; 4289; 243; 7429; 11177; 9951; 9893; 11053; 142; 9449;
   7644; 6877; 9928; 10353; 1853; 12096; 3860; 8823; 7875; 2257; 4016; 5703; 8830; 7735; 5057; 9461;
   7404; 11677; 12240; 980; 4978; 11041; 382; 4649; 5332; 3961; 6803; 11408; 5331; 3981; 6403; 7119;
   5088; 8841; 7515; 9457; 7484; 10077; 7373; 8; 12129; 3200; 9734; 1944; 10276; 3393; 5874; 5410;
   2401; 1136; 1858; 11996; 5860; 5690; 9090; 2535; 10745; 6302; 9139; 1555; 5767; 7550; 8757; 9195;
   435; 3589; 1954; 10076; 7393; 11897; 7840; 2957; 2305; 3056; 325; 5789; 7110; 5268; 5241; 5781;
   7270; 2068; 7796; 3837; 9283; 10964; 1922; 10716; 6882; 9828; 64; 11009; 1022; 4138; 3263; 8474;
   2566; 10125; 6413; 6919; 9088; 2575; 9945; 10013; 8653; 11275; 7991; 12226; 1260; 11667; 151; 9269;
   11244; 8611; 12115; 3480; 4134; 3343; 6874; 9988; 9153; 1275; 11367; 6151; 12159; 2600; 9445; 7724;
   5277; 5061; 9381; 9004; 4255; 923; 6118; 530; 1689; 3087; 11994; 5900; 4890; 512; 2049; 8176;
   8526; 1526; 6347; 8239; 7266; 2148; 6196; 11259; 8311; 5826; 6370; 7779; 4177; 2483; 11785; 10080;
   7313; 1208; 418; 3929; 7443; 10897; 3262; 8494; 2166; 5836; 6170; 11779; 10200; 4913; 52; 11249;
   8511; 1826; 347; 5349; 3621; 1314; 10587; 9462; 7384; 12077; 4240; 1223; 118; 9929; 10333; 2253].

(** test_ntt_red_tables.c 2403-2660 *)
Definition shoup_sred_ntt2048_12289 : list Z := [
   0; (-4096); (-4096); 493; (-4096); (-5444); 493; (-2381); (-4096); 1378; (-5444); (-4337); 493; (-1912); (-2381); 435;
   (-4096); (-2143); 1378; 1207; (-5444); 404; (-4337); (-1168); 493; 1065; (-1912); 3248; (-2381); (-4645); 435; 5277;
   (-4096); (-2437); (-2143); (-1002); 1378; 2422; 1207; (-875); (-5444); (-2987); 404; (-4284); (-4337); 2187; (-1168); (-1607);
   493; (-3646); 1065; 5011; (-1912); 6039; 3248; (-3780); (-2381); (-6022); (-4645); 5088; 435; 2566; 5277; (-4976);
   (-4096); 4714; (-2437); (-5698); (-2143); (-1632); (-1002); (-1067); 1378; (-2678); 2422; 2481; 1207; (-27); (-875); 773;
   (-5444); 1537; (-2987); (-4861); 404; (-1017); (-4284); 442; (-4337); 545; 2187; (-2859); (-1168); (-1440); (-1607); (-3833);
   493; 4143; (-3646); 2912; 1065; (-5084); 5011; (-5101); (-1912); (-3704); 6039; (-5012); 3248; (-3066); (-3780); 390;
   (-2381); (-242); (-6022); (-354); (-4645); (-4885); 5088; 2401; 435; (-5019); 2566; (-1045); 5277; (-3763); (-4976); (-3778);
   (-4096); (-4895); 4714; (-1153); (-2437); 1777; (-5698); (-671); (-2143); (-2174); (-1632); 2370; (-1002); 4437; (-1067); 420;
   1378; 4053; (-2678); 1630; 2422; (-2704); 2481; 3400; 1207; (-4057); (-27); 3247; (-875); (-4919); 773; 3531;
   (-5444); 5195; 1537; 4048; (-2987); 4654; (-4861); (-3016); 404; 2847; (-1017); 3510; (-4284); 3149; 442; (-2178);
   (-4337); (-5042); 545; (-3186); 2187; (-4938); (-2859); 5191; (-1168); (-3364); (-1440); (-2969); (-1607); 3915; (-3833); 3985;
   493; (-1484); 4143; 2884; (-3646); (-1663); 2912; 3000; 1065; 4372; (-5084); 2865; 5011; (-3); (-5101); (-5559);
   (-1912); (-2645); (-3704); 2126; 6039; (-5291); (-5012); 2399; 3248; (-3271); (-3066); (-2686); (-3780); (-113); 390; (-476);
   (-2381); 2780; (-242); 2249; (-6022); 1426; (-354); 243; (-4645); (-4414); (-4885); 5332; 5088; (-160); 2401; (-1544);
   435; 2305; (-5019); (-5407); 2566; (-3636); (-1045); (-3136); 5277; 1689; (-3763); (-3978); (-4976); 2166; (-3778); (-4905);
   (-4096); 81; (-4895); 2548; 4714; 2625; (-1153); 2468; (-2437); (-2319); 1777; 1696; (-5698); 4043; (-671); (-3296);
   (-2143); (-4611); (-2174); 145; (-1632); (-3328); 2370; (-1673); (-1002); 2294; 4437; (-3241); (-1067); (-1212); 420; 3748;
   1378; 3051; 4053; 1759; (-2678); 563; 1630; 2842; 2422; (-1326); (-2704); (-5755); 2481; 722; 3400; 2837;
   1207; (-1635); (-4057); (-2731); (-27); 5728; 3247; 2525; (-875); (-3712); (-4919); (-3284); 773; 3504; 3531; (-2197);
   (-5444); 4320; 5195; (-3382); 1537; 4821; 4048; 544; (-2987); (-790); 4654; 334; (-4861); (-1479); (-3016); 4452;
   404; (-140); 2847; 3637; (-1017); (-1351); 3510; 4989; (-4284); 3553; 3149; 3289; 442; (-3195); (-2178); (-827);
   (-4337); 2963; (-5042); 3694; 545; (-2744); (-3186); 9; 2187; 3014; (-4938); 4388; (-2859); 5736; 5191; (-4354);
   (-1168); (-1177); (-3364); 5911; (-1440); (-5828); (-2969); 3584; (-1607); 2747; 3915; 5092; (-3833); 2545; 3985; (-2476);
   493; (-3091); (-1484); (-4231); 4143; (-949); 2884; 339; (-3646); (-1170); (-1663); 1428; 2912; (-5146); 3000; 3949;
   1065; 726; 4372; 5542; (-5084); 5777; 2865; (-4278); 5011; 1062; (-3); (-729); (-5101); 1646; (-5559); 953;
   (-1912); 2366; (-2645); (-3707); (-3704); (-2975); 2126; 480; 6039; 5086; (-5291); 4632; (-5012); (-1305); 2399; 5374;
   3248; 2768; (-3271); 3932; (-3066); 4591; (-2686); (-1381); (-3780); 3135; (-113); (-2881); 390; (-3542); (-476); (-5067);
   (-2381); (-1000); 2780; (-355); (-242); 2639; 2249; 5791; (-6022); (-955); 1426; 2426; (-354); 1; 243; (-2396);
   (-4645); 1853; (-4414); (-3459); (-4885); 4978; 5332; 5331; 5088; (-4805); (-160); (-2013); 2401; 5860; (-1544); 5767;
   435; (-4896); 2305; (-5179); (-5019); (-3006); (-5407); 1022; 2566; (-3201); (-3636); 1260; (-1045); 4134; (-3136); (-130);
   5277; 4255; 1689; 4890; (-3763); (-5023); (-3978); 4177; (-4976); (-4846); 2166; (-2089); (-3778); 3621; (-4905); 118;
   (-4096); (-3963); 81; (-4467); (-4895); (-4049); 2548; (-787); 4714; 5383; 2625; 5435; (-1153); 5782; 2468; 4080;
   (-2437); (-3969); (-2319); (-5925); 1777; (-1962); 1696; 2505; (-5698); (-5735); 4043; (-4948); (-671); 1958; (-3296); (-3477);
   (-2143); 3030; (-4611); (-1050); (-2174); 2919; 145; (-3445); (-1632); (-1483); (-3328); (-3988); 2370; 1747; (-1673); (-5594);
   (-1002); 4737; 2294; (-4075); 4437; 5184; (-3241); (-6055); (-1067); 3315; (-1212); (-5529); 420; (-4046); 3748; (-58);
   1378; (-1805); 3051; 3789; 4053; (-948); 1759; 3127; (-2678); (-2057); 563; 3998; 1630; 683; 2842; (-6077);
   2422; (-2031); (-1326); (-1973); (-2704); (-168); (-5755); (-3957); 2481; (-3009); 722; (-6136); 3400; (-4079); 2837; 4212;
   1207; 3529; (-1635); (-2683); (-4057); (-652); (-2731); 1321; (-27); 1489; 5728; 5446; 3247; (-3834); 2525; 2302;
   (-875); (-5908); (-3712); 2169; (-4919); (-1360); (-3284); 1323; 773; 1975; 3504; 654; 3531; (-835); (-2197); 6008;
   (-5444); (-2447); 4320; (-4749); 5195; 1159; (-3382); (-1010); 1537; 350; 4821; (-973); 4048; (-2948); 544; (-3602);
   (-2987); (-2767); (-790); 3514; 4654; 5961; 334; (-1579); (-4861); (-2738); (-1479); (-1728); (-3016); (-2078); 4452; (-1105);
   404; 1843; (-140); 5445; 2847; (-4077); 3637; 4698; (-1017); (-1263); (-1351); 316; 3510; 3054; 4989; 4782;
   (-4284); (-5429); 3553; (-4324); 3149; 6122; 3289; 677; 442; 4754; (-3195); 56; (-2178); 1319; (-827); 1003;
   (-4337); (-2051); 2963; 5456; (-5042); (-1404); 3694; 2920; 545; (-3202); (-2744); (-3879); (-3186); 3656; 9; 3600;
   2187; 2281; 3014; 1278; (-4938); 3329; 4388; (-2127); (-2859); (-723); 5736; (-3643); 5191; (-441); (-4354); 3438;
   (-1168); (-218); (-1177); (-3818); (-3364); (-6099); 5911; 4912; (-1440); 1583; (-5828); 3710; (-2969); 4433; 3584; (-4213);
   (-1607); (-3772); 2747; 5079; 3915; 5297; 5092; (-3174); (-3833); 2925; 2545; (-1987); 3985; (-3570); (-2476); 5009;
   493; 576; (-3091); 4789; (-1484); (-3728); (-4231); 3482; 4143; (-1815); (-949); 1359; 2884; (-1566); 339; 421;
   (-3646); 3991; (-1170); (-1018); (-1663); (-1594); 1428; 5906; 2912; (-2655); (-5146); (-6137); 3000; (-4322); 3949; (-5681);
   1065; (-4115); 726; (-4536); 4372; 3762; 5542; 4780; (-5084); (-5915); 5777; 468; 2865; 3123; (-4278); (-3029);
   5011; 1293; 1062; (-5315); (-3); (-1200); (-729); 3336; (-5101); (-426); 1646; (-5206); (-5559); 709; 953; 241;
   (-1912); (-2882); 2366; 147; (-2645); (-1146); (-3707); 4169; (-3704); 5369; (-2975); 2033; 2126; 2459; 480; (-4624);
   6039; (-5333); 5086; (-5574); (-5291); (-2692); 4632; (-2839); (-5012); (-1693); (-1305); (-5862); 2399; 1058; 5374; (-975);
   3248; (-3434); 2768; 1190; (-3271); (-5766); 3932; (-192); (-3066); 2500; 4591; 5339; (-2686); (-5257); (-1381); 605;
   (-3780); (-453); 3135; 522; (-113); 3956; (-2881); 2766; 390; (-3757); (-3542); (-3565); (-476); (-6065); (-5067); 885;
   (-2381); 6142; (-1000); 5537; 2780; 5990; (-355); 5468; (-242); 1512; 2639; (-1254); 2249; 2503; 5791; 6068;
   (-6022); (-156); (-955); (-1041); 1426; 5106; 2426; (-431); (-354); 5868; 1; 400; 243; (-1112); (-2396); 142;
   (-4645); (-2361); 1853; 3860; (-4414); 4016; (-3459); 5057; (-4885); (-49); 4978; 382; 5332; (-5486); 5331; (-5886);
   5088; (-4774); (-4805); (-4916); (-160); (-2555); (-2013); 5874; 2401; 1858; 5860; (-3199); (-1544); (-3150); 5767; (-3532);
   435; 1954; (-4896); (-4449); 2305; 325; (-5179); 5241; (-5019); (-4493); (-3006); 1922; (-5407); 64; 1022; 3263;
   2566; (-5876); (-3201); (-2344); (-3636); (-4298); 1260; 151; (-1045); (-174); 4134; (-5415); (-3136); (-922); (-130); (-2844);
   5277; (-2908); 4255; 6118; 1689; (-295); 4890; 2049; (-3763); (-5942); (-5023); (-6093); (-3978); (-5919); 4177; (-504);
   (-4976); 418; (-4846); 3262; 2166; (-6119); (-2089); 52; (-3778); 347; 3621; (-1702); (-4905); 4240; 118; (-1956);
   (-4096); (-4103); (-3963); 5526; 81; (-1620); (-4467); 3317; (-4895); (-412); (-4049); (-5043); 2548; (-1804); (-787); 3451;
   4714; 4032; 5383; 2941; 2625; (-3344); 5435; 1901; (-1153); (-1518); 5782; (-5039); 2468; (-204); 4080; 4423;
   (-2437); (-416); (-3969); 5646; (-2319); (-2776); (-5925); (-4390); 1777; 1327; (-1962); 2373; 1696; 2947; 2505; (-944);
   (-5698); 3359; (-5735); 4099; 4043; 5163; (-4948); 648; (-671); 1131; 1958; (-2293); (-3296); 4475; (-3477); (-4194);
   (-2143); 5993; 3030; 845; (-4611); (-6092); (-1050); (-3578); (-2174); (-5676); 2919; 3065; 145; (-2900); (-3445); (-4834);
   (-1632); (-4227); (-1483); 5082; (-3328); 5115; (-3988); 6026; 2370; 1756; 1747; 1927; (-1673); (-3407); (-5594); 1279;
   (-1002); (-4538); 4737; 3572; 2294; 3276; (-4075); (-4523); 4437; (-2717); 5184; (-5368); (-3241); 3375; (-6055); (-1790);
   (-1067); (-3238); 3315; (-4855); (-1212); (-338); (-5529); (-21); 420; 3889; (-4046); (-5103); 3748; (-1226); (-58); 1160;
   1378; (-2982); (-1805); (-767); 3051; 425; 3789; (-2046); 4053; 4963; (-948); (-5618); 1759; 1687; 3127; (-1095);
   (-2678); 4404; (-2057); 4273; 563; 1029; 3998; 6063; 1630; 4267; 683; (-1371); 2842; 4605; (-6077); (-1350);
   2422; 716; (-2031); 3753; (-1326); 1942; (-1973); 2593; (-2704); 4924; (-168); 3360; (-5755); 4499; (-3957); 5406;
   2481; (-464); (-3009); (-1265); 722; (-2151); (-6136); (-170); 3400; 5734; (-4079); (-4443); 2837; 4705; 4212; 1783;
   1207; 438; 3529; 3154; (-1635); (-4167); (-2683); 4504; (-4057); (-4883); (-652); 751; (-2731); 5464; 1321; (-1842);
   (-27); 540; 1489; (-5202); 5728; (-3959); 5446; 1681; 3247; (-3495); (-3834); 2946; 2525; (-1344); 2302; 3116;
   (-875); 5211; (-5908); (-4730); (-3712); 506; 2169; 5776; (-4919); 68; (-1360); 2622; (-3284); 4235; 1323; (-1882);
   773; (-3171); 1975; (-2633); 3504; 3654; 654; (-791); 3531; 3114; (-835); 4411; (-2197); (-5216); 6008; 2730;
   (-5444); (-1721); (-2447); (-216); 4320; (-377); (-4749); (-3332); 5195; (-5588); 1159; 1398; (-3382); (-6094); (-1010); (-4378);
   1537; 6127; 350; 5289; 4821; 1892; (-973); (-5118); 4048; 5063; (-2948); (-2485); 544; 1409; (-3602); (-1694);
   (-2987); (-1705); (-2767); (-6105); (-790); 3511; 3514; 3454; 4654; 5232; 5961; 3670; 334; 5609; (-1579); (-5287);
   (-4861); (-1092); (-2738); 5604; (-1479); 5002; (-1728); (-2307); (-3016); (-1125); (-2078); 4693; 4452; (-3017); (-1105); (-2478);
   404; 4209; 1843; 7; (-140); 2800; 5445; 1701; 2847; 4505; (-4077); (-4483); 3637; 994; 4698; 4352;
   (-1017); (-4238); (-1263); 682; (-1351); 2442; 316; 5969; 3510; 3534; 3054; 365; 4989; (-1468); 4782; 2672;
   (-4284); (-343); (-5429); (-2021); 3553; 2674; (-4324); 457; 3149; (-1535); 6122; 450; 3289; (-4335); 677; (-1251);
   442; 3449; 4754; 3232; (-3195); 2455; 56; (-1120); (-2178); (-5596); 1319; (-1802); (-827); 4251; 1003; 4518;
   (-4337); 717; (-2051); 4153; 2963; 2185; 5456; 1481; (-5042); 2528; (-1404); 3502; 3694; (-146); 2920; 3045;
   545; 1389; (-3202); 2595; (-2744); 5724; (-3879); 3846; (-3186); 2275; 3656; 614; 9; (-180); 3600; 1734;
   2187; 5416; 2281; 3536; 3014; 1165; 1278; (-982); (-4938); 448; 3329; (-5135); 4388; (-1737); (-2127); 5673;
   (-2859); (-4265); (-723); 2171; 5736; (-4119); (-3643); (-874); 5191; (-5508); (-441); (-3469); (-4354); 1057; 3438; 4974;
   (-1168); (-1218); (-218); 4360; (-1177); (-1038); (-3818); 2626; (-3364); 5835; (-6099); (-910); 5911; 4670; 4912; 72;
   (-1440); 4222; 1583; 5207; (-5828); 5959; 3710; (-466); (-2969); (-2065); 4433; (-2637); 3584; 2054; (-4213); (-1763);
   (-1607); (-4727); (-3772); 1706; 2747; (-5784); 5079; (-3268); 3915; (-4566); 5297; 4661; 5092; (-3528); (-3174); 2035;
   (-3833); 2926; 2925; 2945; 2545; (-1744); (-1987); 2873; 3985; (-5966); (-3570); (-2334); (-2476); 364; 5009; (-1868);
   493; 2429; 576; 769; (-3091); 375; 4789; 2532; (-1484); 5102; (-3728); 826; (-4231); (-1403); 3482; 4094;
   4143; 3163; (-1815); (-567); (-949); (-5598); 1359; (-2602); 2884; 3765; (-1566); (-5547); 339; 5509; 421; 3869;
   (-3646); (-814); 3991; (-6086); (-1170); (-1178); (-1018); (-4218); (-1663); (-3607); (-1594); (-4987); 1428; (-3982); 5906; 4770;
   2912; 3205; (-2655); 3944; (-5146); 4608; (-6137); (-150); 3000; 1445; (-4322); 417; 3949; (-5246); (-5681); 3019;
   1065; 3278; (-4115); (-3723); 726; (-2231); (-4536); 4697; 4372; (-1417); 3762; (-1506); 5542; (-239); 4780; 2712;
   (-5084); 3368; (-5915); (-4590); 5777; (-4939); 468; 2929; 2865; 4145; 3123; (-1015); (-4278); (-463); (-3029); (-865);
   5011; (-1908); 1293; (-1282); 1062; 3338; (-5315); (-4301); (-3); 60; (-1200); (-578); (-729); 2291; 3336; (-5275);
   (-5101); 3708; (-426); (-3769); 1646; 3947; (-5206); 5808; (-5559); 579; 709; (-1891); 953; 5518; 241; (-4820);
   (-1912); 1373; (-2882); (-3805); 2366; 1836; 147; (-2940); (-2645); 3744; (-1146); (-1658); (-3707); 406; 4169; 2643;
   (-3704); 346; 5369; 3221; (-2975); (-1945); 2033; (-3793); 2126; (-5653); 2459; (-24); 480; 2689; (-4624); (-5832);
   6039; 2110; (-5333); (-3941); 5086; (-3408); (-5574); 879; (-5291); (-4781); (-2692); 4684; 4632; 5672; (-2839); (-4665);
   (-5012); 1928; (-1693); (-3007); (-1305); 1522; (-5862); (-5650); 2399; 1176; 1058; 3418; 5374; 3121; (-975); (-5078);
   3248; (-3515); (-3434); (-5054); 2768; 6085; 1190; 778; (-3271); 3975; (-5766); 4719; 3932; (-4906); (-192); 3840;
   (-3066); (-125); 2500; (-844); 4591; (-5797); 5339; 3821; (-2686); 4564; (-5257); (-5461); (-1381); 3042; 605; 189;
   (-3780); 1866; (-453); (-3229); 3135; (-1255); 522; 1849; (-113); 2260; 3956; (-5386); (-2881); (-3825); 2766; 6125;
   390; 4489; (-3757); 1406; (-3542); (-2894); (-3565); (-2434); (-476); (-2769); (-6065); (-1590); (-5067); 3028; 885; (-5411);
   (-2381); (-1536); 6142; 50; (-1000); (-4578); 5537; (-139); 2780; 5845; 5990; 3090; (-355); (-5189); 5468; 1241;
   (-242); 4840; 1512; (-5662); 2639; (-3624); (-1254); 502; 2249; 4176; 2503; (-904); 5791; (-5219); 6068; 1530;
   (-6022); (-2450); (-156); 3120; (-955); (-5478); (-1041); (-3758); 1426; (-3942); 5106; (-3808); 2426; 636; (-431); (-3669);
   (-354); (-5209); 5868; 5530; 1; (-20); 400; 4289; 243; (-4860); (-1112); (-2338); (-2396); (-1236); 142; (-2840);
   (-4645); (-5412); (-2361); (-1936); 1853; (-193); 3860; (-3466); (-4414); 2257; 4016; 5703; (-3459); (-4554); 5057; (-2828);
   (-4885); (-612); (-49); 980; 4978; (-1248); 382; 4649; 5332; 3961; (-5486); (-881); 5331; 3981; (-5886); (-5170);
   5088; (-3448); (-4774); (-2832); (-4805); (-2212); (-4916); 8; (-160); 3200; (-2555); 1944; (-2013); 3393; 5874; 5410;
   2401; 1136; 1858; (-293); 5860; 5690; (-3199); 2535; (-1544); (-5987); (-3150); 1555; 5767; (-4739); (-3532); (-3094);
   435; 3589; 1954; (-2213); (-4896); (-392); (-4449); 2957; 2305; 3056; 325; 5789; (-5179); 5268; 5241; 5781;
   (-5019); 2068; (-4493); 3837; (-3006); (-1325); 1922; (-1573); (-5407); (-2461); 64; (-1280); 1022; 4138; 3263; (-3815);
   2566; (-2164); (-5876); (-5370); (-3201); 2575; (-2344); (-2276); (-3636); (-1014); (-4298); (-63); 1260; (-622); 151; (-3020);
   (-1045); (-3678); (-174); 3480; 4134; 3343; (-5415); (-2301); (-3136); 1275; (-922); (-6138); (-130); 2600; (-2844); (-4565);
   5277; 5061; (-2908); (-3285); 4255; 923; 6118; 530; 1689; 3087; (-295); 5900; 4890; 512; 2049; (-4113);
   (-3763); 1526; (-5942); (-4050); (-5023); 2148; (-6093); (-1030); (-3978); 5826; (-5919); (-4510); 4177; 2483; (-504); (-2209);
   (-4976); 1208; 418; 3929; (-4846); (-1392); 3262; (-3795); 2166; 5836; (-6119); (-510); (-2089); 4913; 52; (-1040);
   (-3778); 1826; 347; 5349; 3621; 1314; (-1702); (-2827); (-4905); (-212); 4240; 1223; 118; (-2360); (-1956); 2253].

(** test_ntt_red_tables.c 2662-2919 *)
Definition rev_shoup_red_ntt2048_12289 : list Z := [
   0; 8193; 8193; 493; 8193; 493; 6845; 9908; 8193; 493; 6845; 9908; 1378; 10377; 7952; 435;
   8193; 493; 6845; 9908; 1378; 10377; 7952; 435; 10146; 1065; 404; 7644; 1207; 3248; 11121; 5277;
   8193; 493; 6845; 9908; 1378; 10377; 7952; 435; 10146; 1065; 404; 7644; 1207; 3248; 11121; 5277;
   9852; 8643; 9302; 6267; 2422; 6039; 2187; 2566; 11287; 5011; 8005; 5088; 11414; 8509; 10682; 7313;
   8193; 493; 6845; 9908; 1378; 10377; 7952; 435; 10146; 1065; 404; 7644; 1207; 3248; 11121; 5277;
   9852; 8643; 9302; 6267; 2422; 6039; 2187; 2566; 11287; 5011; 8005; 5088; 11414; 8509; 10682; 7313;
   4714; 4143; 1537; 12047; 9611; 8585; 545; 7270; 10657; 7205; 11272; 7404; 12262; 9223; 10849; 8526;
   6591; 2912; 7428; 11935; 2481; 7277; 9430; 11244; 11222; 7188; 442; 2401; 773; 390; 8456; 8511;
   8193; 493; 6845; 9908; 1378; 10377; 7952; 435; 10146; 1065; 404; 7644; 1207; 3248; 11121; 5277;
   9852; 8643; 9302; 6267; 2422; 6039; 2187; 2566; 11287; 5011; 8005; 5088; 11414; 8509; 10682; 7313;
   4714; 4143; 1537; 12047; 9611; 8585; 545; 7270; 10657; 7205; 11272; 7404; 12262; 9223; 10849; 8526;
   6591; 2912; 7428; 11935; 2481; 7277; 9430; 11244; 11222; 7188; 442; 2401; 773; 390; 8456; 8511;
   7394; 10805; 5195; 2780; 4053; 9644; 7247; 2305; 10115; 4372; 2847; 7875; 8232; 9018; 8925; 1689;
   1777; 10626; 4654; 1426; 9585; 6998; 7351; 8653; 4437; 12286; 3149; 12129; 7370; 12176; 3915; 2166;
   11136; 2884; 4048; 2249; 1630; 2126; 9103; 6882; 2370; 2865; 3510; 5332; 3247; 9603; 9320; 8311;
   11618; 3000; 9273; 243; 3400; 2399; 5191; 9153; 420; 6730; 10111; 10745; 3531; 11813; 3985; 7384;
   8193; 493; 6845; 9908; 1378; 10377; 7952; 435; 10146; 1065; 404; 7644; 1207; 3248; 11121; 5277;
   9852; 8643; 9302; 6267; 2422; 6039; 2187; 2566; 11287; 5011; 8005; 5088; 11414; 8509; 10682; 7313;
   4714; 4143; 1537; 12047; 9611; 8585; 545; 7270; 10657; 7205; 11272; 7404; 12262; 9223; 10849; 8526;
   6591; 2912; 7428; 11935; 2481; 7277; 9430; 11244; 11222; 7188; 442; 2401; 773; 390; 8456; 8511;
   7394; 10805; 5195; 2780; 4053; 9644; 7247; 2305; 10115; 4372; 2847; 7875; 8232; 9018; 8925; 1689;
   1777; 10626; 4654; 1426; 9585; 6998; 7351; 8653; 4437; 12286; 3149; 12129; 7370; 12176; 3915; 2166;
   11136; 2884; 4048; 2249; 1630; 2126; 9103; 6882; 2370; 2865; 3510; 5332; 3247; 9603; 9320; 8311;
   11618; 3000; 9273; 243; 3400; 2399; 5191; 9153; 420; 6730; 10111; 10745; 3531; 11813; 3985; 7384;
   81; 9198; 4320; 11289; 3051; 2366; 2963; 7393; 7678; 726; 12149; 1853; 10654; 2768; 11112; 4255;
   9970; 11119; 11499; 11334; 10963; 5086; 3014; 9088; 2294; 1062; 3553; 7484; 8577; 3135; 2747; 7443;
   2625; 11340; 4821; 2639; 563; 9314; 9545; 9283; 8961; 5777; 10938; 4978; 5728; 4591; 6461; 7266;
   4043; 7143; 10810; 1; 722; 10984; 5736; 4134; 11077; 1646; 9094; 5860; 3504; 8747; 2545; 3621;
   2548; 8058; 8907; 11934; 1759; 8582; 3694; 7110; 145; 5542; 3637; 8830; 9558; 3932; 5911; 4890;
   1696; 1428; 334; 2426; 6534; 4632; 4388; 1260; 9048; 11560; 3289; 10276; 9005; 9408; 5092; 10200;
   2468; 339; 544; 5791; 2842; 480; 9; 1022; 10616; 8011; 4989; 5331; 2525; 10908; 3584; 4177;
   8993; 3949; 4452; 9893; 2837; 5374; 7935; 12159; 3748; 953; 11462; 5767; 10092; 7222; 9813; 118;
   8193; 493; 6845; 9908; 1378; 10377; 7952; 435; 10146; 1065; 404; 7644; 1207; 3248; 11121; 5277;
   9852; 8643; 9302; 6267; 2422; 6039; 2187; 2566; 11287; 5011; 8005; 5088; 11414; 8509; 10682; 7313;
   4714; 4143; 1537; 12047; 9611; 8585; 545; 7270; 10657; 7205; 11272; 7404; 12262; 9223; 10849; 8526;
   6591; 2912; 7428; 11935; 2481; 7277; 9430; 11244; 11222; 7188; 442; 2401; 773; 390; 8456; 8511;
   7394; 10805; 5195; 2780; 4053; 9644; 7247; 2305; 10115; 4372; 2847; 7875; 8232; 9018; 8925; 1689;
   1777; 10626; 4654; 1426; 9585; 6998; 7351; 8653; 4437; 12286; 3149; 12129; 7370; 12176; 3915; 2166;
   11136; 2884; 4048; 2249; 1630; 2126; 9103; 6882; 2370; 2865; 3510; 5332; 3247; 9603; 9320; 8311;
   11618; 3000; 9273; 243; 3400; 2399; 5191; 9153; 420; 6730; 10111; 10745; 3531; 11813; 3985; 7384;
   81; 9198; 4320; 11289; 3051; 2366; 2963; 7393; 7678; 726; 12149; 1853; 10654; 2768; 11112; 4255;
   9970; 11119; 11499; 11334; 10963; 5086; 3014; 9088; 2294; 1062; 3553; 7484; 8577; 3135; 2747; 7443;
   2625; 11340; 4821; 2639; 563; 9314; 9545; 9283; 8961; 5777; 10938; 4978; 5728; 4591; 6461; 7266;
   4043; 7143; 10810; 1; 722; 10984; 5736; 4134; 11077; 1646; 9094; 5860; 3504; 8747; 2545; 3621;
   2548; 8058; 8907; 11934; 1759; 8582; 3694; 7110; 145; 5542; 3637; 8830; 9558; 3932; 5911; 4890;
   1696; 1428; 334; 2426; 6534; 4632; 4388; 1260; 9048; 11560; 3289; 10276; 9005; 9408; 5092; 10200;
   2468; 339; 544; 5791; 2842; 480; 9; 1022; 10616; 8011; 4989; 5331; 2525; 10908; 3584; 4177;
   8993; 3949; 4452; 9893; 2837; 5374; 7935; 12159; 3748; 953; 11462; 5767; 10092; 7222; 9813; 118;
   8326; 576; 9842; 6142; 10484; 9407; 10238; 1954; 3030; 8174; 1843; 9928; 3529; 8855; 12071; 9381;
   8320; 3991; 9522; 12133; 10258; 6956; 2281; 6413; 4737; 1293; 6860; 7515; 6381; 11836; 8517; 418;
   5383; 10474; 350; 1512; 10232; 5369; 9087; 7796; 10806; 6374; 11026; 12240; 1489; 2500; 1583; 6347;
   6554; 9634; 9551; 5868; 9280; 10596; 11566; 12115; 3315; 11863; 4754; 1858; 1975; 8532; 2925; 347;
   8240; 8561; 1159; 5990; 11341; 11143; 10885; 325; 2919; 3762; 8212; 4016; 11637; 6523; 6190; 11994;
   10327; 10695; 5961; 5106; 12121; 9597; 3329; 7991; 5184; 11089; 6122; 9734; 10929; 3956; 5297; 6170;
   5782; 10723; 9341; 2503; 683; 2459; 3656; 64; 1747; 3123; 3054; 6803; 8455; 7032; 4433; 6370;
   1958; 7967; 10211; 11177; 8210; 1058; 11848; 11367; 8243; 709; 1319; 9139; 11454; 6224; 8719; 4240;
   7822; 4789; 7540; 5537; 3789; 147; 5456; 7840; 11239; 7753; 5445; 3860; 9606; 1190; 8471; 6118;
   6364; 11271; 3514; 11248; 10316; 6715; 1278; 9945; 8214; 6974; 7965; 7373; 2169; 522; 5079; 3262;
   5435; 1359; 11316; 11035; 3998; 2033; 8410; 1922; 8301; 468; 316; 382; 5446; 5339; 3710; 6196;
   7341; 6152; 10561; 400; 6153; 6427; 8646; 6874; 6760; 7083; 56; 9090; 654; 8724; 10302; 10587;
   11502; 3482; 11279; 5468; 3127; 4169; 2920; 5241; 8844; 4780; 4698; 5057; 1321; 12097; 4912; 2049;
   2505; 5906; 10710; 11858; 8332; 9450; 10162; 151; 6234; 3336; 677; 5874; 1323; 2766; 9115; 52;
   4080; 421; 8687; 6068; 6212; 7665; 3600; 3263; 6695; 9260; 4782; 6403; 2302; 605; 8076; 11785;
   8812; 6608; 11184; 142; 4212; 11314; 3438; 9445; 12231; 241; 1003; 8757; 6008; 885; 5009; 10333;
   8193; 493; 6845; 9908; 1378; 10377; 7952; 435; 10146; 1065; 404; 7644; 1207; 3248; 11121; 5277;
   9852; 8643; 9302; 6267; 2422; 6039; 2187; 2566; 11287; 5011; 8005; 5088; 11414; 8509; 10682; 7313;
   4714; 4143; 1537; 12047; 9611; 8585; 545; 7270; 10657; 7205; 11272; 7404; 12262; 9223; 10849; 8526;
   6591; 2912; 7428; 11935; 2481; 7277; 9430; 11244; 11222; 7188; 442; 2401; 773; 390; 8456; 8511;
   7394; 10805; 5195; 2780; 4053; 9644; 7247; 2305; 10115; 4372; 2847; 7875; 8232; 9018; 8925; 1689;
   1777; 10626; 4654; 1426; 9585; 6998; 7351; 8653; 4437; 12286; 3149; 12129; 7370; 12176; 3915; 2166;
   11136; 2884; 4048; 2249; 1630; 2126; 9103; 6882; 2370; 2865; 3510; 5332; 3247; 9603; 9320; 8311;
   11618; 3000; 9273; 243; 3400; 2399; 5191; 9153; 420; 6730; 10111; 10745; 3531; 11813; 3985; 7384;
   81; 9198; 4320; 11289; 3051; 2366; 2963; 7393; 7678; 726; 12149; 1853; 10654; 2768; 11112; 4255;
   9970; 11119; 11499; 11334; 10963; 5086; 3014; 9088; 2294; 1062; 3553; 7484; 8577; 3135; 2747; 7443;
   2625; 11340; 4821; 2639; 563; 9314; 9545; 9283; 8961; 5777; 10938; 4978; 5728; 4591; 6461; 7266;
   4043; 7143; 10810; 1; 722; 10984; 5736; 4134; 11077; 1646; 9094; 5860; 3504; 8747; 2545; 3621;
   2548; 8058; 8907; 11934; 1759; 8582; 3694; 7110; 145; 5542; 3637; 8830; 9558; 3932; 5911; 4890;
   1696; 1428; 334; 2426; 6534; 4632; 4388; 1260; 9048; 11560; 3289; 10276; 9005; 9408; 5092; 10200;
   2468; 339; 544; 5791; 2842; 480; 9; 1022; 10616; 8011; 4989; 5331; 2525; 10908; 3584; 4177;
   8993; 3949; 4452; 9893; 2837; 5374; 7935; 12159; 3748; 953; 11462; 5767; 10092; 7222; 9813; 118;
   8326; 576; 9842; 6142; 10484; 9407; 10238; 1954; 3030; 8174; 1843; 9928; 3529; 8855; 12071; 9381;
   8320; 3991; 9522; 12133; 10258; 6956; 2281; 6413; 4737; 1293; 6860; 7515; 6381; 11836; 8517; 418;
   5383; 10474; 350; 1512; 10232; 5369; 9087; 7796; 10806; 6374; 11026; 12240; 1489; 2500; 1583; 6347;
   6554; 9634; 9551; 5868; 9280; 10596; 11566; 12115; 3315; 11863; 4754; 1858; 1975; 8532; 2925; 347;
   8240; 8561; 1159; 5990; 11341; 11143; 10885; 325; 2919; 3762; 8212; 4016; 11637; 6523; 6190; 11994;
   10327; 10695; 5961; 5106; 12121; 9597; 3329; 7991; 5184; 11089; 6122; 9734; 10929; 3956; 5297; 6170;
   5782; 10723; 9341; 2503; 683; 2459; 3656; 64; 1747; 3123; 3054; 6803; 8455; 7032; 4433; 6370;
   1958; 7967; 10211; 11177; 8210; 1058; 11848; 11367; 8243; 709; 1319; 9139; 11454; 6224; 8719; 4240;
   7822; 4789; 7540; 5537; 3789; 147; 5456; 7840; 11239; 7753; 5445; 3860; 9606; 1190; 8471; 6118;
   6364; 11271; 3514; 11248; 10316; 6715; 1278; 9945; 8214; 6974; 7965; 7373; 2169; 522; 5079; 3262;
   5435; 1359; 11316; 11035; 3998; 2033; 8410; 1922; 8301; 468; 316; 382; 5446; 5339; 3710; 6196;
   7341; 6152; 10561; 400; 6153; 6427; 8646; 6874; 6760; 7083; 56; 9090; 654; 8724; 10302; 10587;
   11502; 3482; 11279; 5468; 3127; 4169; 2920; 5241; 8844; 4780; 4698; 5057; 1321; 12097; 4912; 2049;
   2505; 5906; 10710; 11858; 8332; 9450; 10162; 151; 6234; 3336; 677; 5874; 1323; 2766; 9115; 52;
   4080; 421; 8687; 6068; 6212; 7665; 3600; 3263; 6695; 9260; 4782; 6403; 2302; 605; 8076; 11785;
   8812; 6608; 11184; 142; 4212; 11314; 3438; 9445; 12231; 241; 1003; 8757; 6008; 885; 5009; 10333;
   8186; 2429; 10568; 10753; 9307; 1373; 717; 3589; 5993; 3278; 4209; 6877; 438; 8774; 11071; 5061;
   11873; 11475; 10584; 9839; 716; 2110; 5416; 10125; 7751; 10381; 11946; 8841; 5211; 1866; 7562; 1208;
   4032; 3163; 6127; 4840; 4404; 346; 1389; 2068; 8062; 3368; 8051; 11677; 540; 12164; 4222; 1526;
   3359; 3205; 11197; 7080; 11825; 1928; 8024; 8611; 9051; 3708; 3449; 1136; 9118; 4489; 2926; 1826;
   11877; 5102; 6701; 5845; 4963; 3744; 2528; 3056; 6613; 10872; 4505; 2257; 7406; 3975; 5835; 3087;
   1327; 8682; 5232; 8347; 4924; 7508; 448; 11275; 9572; 60; 10754; 3200; 68; 2260; 7723; 5836;
   10771; 3765; 5063; 4176; 4267; 6636; 2275; 9828; 1756; 4145; 3534; 3961; 8794; 4564; 10224; 5826;
   1131; 1445; 11164; 7429; 5734; 1176; 6781; 1275; 3889; 579; 6693; 6302; 3114; 9520; 6323; 12077;
   10669; 375; 11912; 7711; 425; 1836; 2185; 11897; 6197; 10058; 2800; 12096; 8122; 6085; 11251; 923;
   9513; 11111; 3511; 6811; 1942; 8881; 1165; 2575; 3276; 3338; 2674; 10077; 506; 11034; 6505; 10897;
   8945; 6691; 1892; 8665; 1029; 10344; 5724; 10964; 5115; 7350; 2442; 11041; 8330; 6492; 5959; 2148;
   5163; 4608; 5002; 12269; 10138; 1522; 8170; 3343; 11951; 3947; 2455; 5690; 3654; 9395; 10545; 1314;
   10485; 10886; 6195; 7100; 1687; 406; 12143; 5268; 9389; 12050; 994; 7735; 5464; 7383; 4670; 512;
   2947; 8307; 5609; 636; 4499; 5672; 10552; 11667; 3375; 2291; 7954; 3393; 4235; 8464; 8761; 4913;
   12085; 5509; 1409; 7070; 4605; 2689; 12109; 4138; 8882; 11826; 10821; 3981; 10945; 3042; 2054; 2483;
   4475; 7043; 9272; 11053; 4705; 3121; 1057; 2600; 11063; 5518; 4251; 7550; 7073; 3028; 364; 9929;
   5526; 769; 12073; 50; 11522; 8484; 4153; 10076; 845; 8566; 7; 10353; 3154; 7235; 4360; 9004;
   5646; 6203; 6184; 3120; 3753; 8348; 3536; 6919; 3572; 11007; 10268; 9457; 7559; 9060; 1706; 3929;
   2941; 11722; 5289; 6627; 4273; 3221; 2595; 3837; 5082; 7699; 682; 980; 7087; 11445; 5207; 8239;
   4099; 3944; 5604; 5530; 11024; 9282; 2171; 3480; 7434; 8520; 3232; 11996; 9656; 1406; 2945; 5349;
   7246; 826; 1398; 3090; 6671; 10631; 3502; 5789; 3065; 10783; 7806; 5703; 751; 4719; 11379; 5900;
   2373; 7302; 3670; 8481; 3360; 4684; 7154; 12226; 6921; 11711; 450; 1944; 2622; 6903; 4661; 11779;
   7250; 6742; 9804; 11385; 10918; 12265; 614; 11009; 1927; 11274; 365; 11408; 2946; 6828; 9652; 7779;
   9996; 417; 4693; 9951; 7846; 3418; 8820; 6151; 7186; 10398; 10487; 1555; 4411; 10699; 9955; 1223;
   3317; 2532; 8957; 12150; 10243; 9349; 1481; 2957; 8711; 4697; 1701; 8823; 4504; 778; 2626; 530;
   7899; 8071; 3454; 8531; 2593; 879; 11307; 10013; 7766; 7988; 457; 8; 5776; 1849; 9021; 8494;
   1901; 9687; 7171; 502; 6063; 8496; 3846; 10716; 6026; 2929; 5969; 4649; 1681; 3821; 11823; 11259;
   648; 12139; 9982; 4289; 12119; 6639; 11415; 9988; 12268; 5808; 11169; 2535; 11498; 9855; 2873; 9462;
   3451; 4094; 7911; 1241; 11194; 2643; 3045; 5781; 7455; 2712; 4352; 9461; 10447; 3840; 72; 8176;
   11345; 4770; 7002; 8620; 5406; 7624; 5673; 9269; 10499; 7014; 11038; 5410; 10407; 6125; 2035; 11249;
   4423; 3869; 10595; 1530; 10939; 6457; 1734; 8474; 1279; 11424; 2672; 7119; 3116; 189; 10526; 10080;
   8095; 3019; 9811; 9449; 1783; 7211; 4974; 7724; 1160; 7469; 4518; 9195; 2730; 6878; 10421; 2253].

(** test_ntt_red_tables.c 2922-3179 *)
Definition rev_shoup_sred_ntt2048_12289 : list Z := [
   0; (-4096); (-4096); 493; (-4096); 493; (-5444); (-2381); (-4096); 493; (-5444); (-2381); 1378; (-1912); (-4337); 435;
   (-4096); 493; (-5444); (-2381); 1378; (-1912); (-4337); 435; (-2143); 1065; 404; (-4645); 1207; 3248; (-1168); 5277;
   (-4096); 493; (-5444); (-2381); 1378; (-1912); (-4337); 435; (-2143); 1065; 404; (-4645); 1207; 3248; (-1168); 5277;
   (-2437); (-3646); (-2987); (-6022); 2422; 6039; 2187; 2566; (-1002); 5011; (-4284); 5088; (-875); (-3780); (-1607); (-4976);
   (-4096); 493; (-5444); (-2381); 1378; (-1912); (-4337); 435; (-2143); 1065; 404; (-4645); 1207; 3248; (-1168); 5277;
   (-2437); (-3646); (-2987); (-6022); 2422; 6039; 2187; 2566; (-1002); 5011; (-4284); 5088; (-875); (-3780); (-1607); (-4976);
   4714; 4143; 1537; (-242); (-2678); (-3704); 545; (-5019); (-1632); (-5084); (-1017); (-4885); (-27); (-3066); (-1440); (-3763);
   (-5698); 2912; (-4861); (-354); 2481; (-5012); (-2859); (-1045); (-1067); (-5101); 442; 2401; 773; 390; (-3833); (-3778);
   (-4096); 493; (-5444); (-2381); 1378; (-1912); (-4337); 435; (-2143); 1065; 404; (-4645); 1207; 3248; (-1168); 5277;
   (-2437); (-3646); (-2987); (-6022); 2422; 6039; 2187; 2566; (-1002); 5011; (-4284); 5088; (-875); (-3780); (-1607); (-4976);
   4714; 4143; 1537; (-242); (-2678); (-3704); 545; (-5019); (-1632); (-5084); (-1017); (-4885); (-27); (-3066); (-1440); (-3763);
   (-5698); 2912; (-4861); (-354); 2481; (-5012); (-2859); (-1045); (-1067); (-5101); 442; 2401; 773; 390; (-3833); (-3778);
   (-4895); (-1484); 5195; 2780; 4053; (-2645); (-5042); 2305; (-2174); 4372; 2847; (-4414); (-4057); (-3271); (-3364); 1689;
   1777; (-1663); 4654; 1426; (-2704); (-5291); (-4938); (-3636); 4437; (-3); 3149; (-160); (-4919); (-113); 3915; 2166;
   (-1153); 2884; 4048; 2249; 1630; 2126; (-3186); (-5407); 2370; 2865; 3510; 5332; 3247; (-2686); (-2969); (-3978);
   (-671); 3000; (-3016); 243; 3400; 2399; 5191; (-3136); 420; (-5559); (-2178); (-1544); 3531; (-476); 3985; (-4905);
   (-4096); 493; (-5444); (-2381); 1378; (-1912); (-4337); 435; (-2143); 1065; 404; (-4645); 1207; 3248; (-1168); 5277;
   (-2437); (-3646); (-2987); (-6022); 2422; 6039; 2187; 2566; (-1002); 5011; (-4284); 5088; (-875); (-3780); (-1607); (-4976);
   4714; 4143; 1537; (-242); (-2678); (-3704); 545; (-5019); (-1632); (-5084); (-1017); (-4885); (-27); (-3066); (-1440); (-3763);
   (-5698); 2912; (-4861); (-354); 2481; (-5012); (-2859); (-1045); (-1067); (-5101); 442; 2401; 773; 390; (-3833); (-3778);
   (-4895); (-1484); 5195; 2780; 4053; (-2645); (-5042); 2305; (-2174); 4372; 2847; (-4414); (-4057); (-3271); (-3364); 1689;
   1777; (-1663); 4654; 1426; (-2704); (-5291); (-4938); (-3636); 4437; (-3); 3149; (-160); (-4919); (-113); 3915; 2166;
   (-1153); 2884; 4048; 2249; 1630; 2126; (-3186); (-5407); 2370; 2865; 3510; 5332; 3247; (-2686); (-2969); (-3978);
   (-671); 3000; (-3016); 243; 3400; 2399; 5191; (-3136); 420; (-5559); (-2178); (-1544); 3531; (-476); 3985; (-4905);
   81; (-3091); 4320; (-1000); 3051; 2366; 2963; (-4896); (-4611); 726; (-140); 1853; (-1635); 2768; (-1177); 4255;
   (-2319); (-1170); (-790); (-955); (-1326); 5086; 3014; (-3201); 2294; 1062; 3553; (-4805); (-3712); 3135; 2747; (-4846);
   2625; (-949); 4821; 2639; 563; (-2975); (-2744); (-3006); (-3328); 5777; (-1351); 4978; 5728; 4591; (-5828); (-5023);
   4043; (-5146); (-1479); 1; 722; (-1305); 5736; 4134; (-1212); 1646; (-3195); 5860; 3504; (-3542); 2545; 3621;
   2548; (-4231); (-3382); (-355); 1759; (-3707); 3694; (-5179); 145; 5542; 3637; (-3459); (-2731); 3932; 5911; 4890;
   1696; 1428; 334; 2426; (-5755); 4632; 4388; 1260; (-3241); (-729); 3289; (-2013); (-3284); (-2881); 5092; (-2089);
   2468; 339; 544; 5791; 2842; 480; 9; 1022; (-1673); (-4278); 4989; 5331; 2525; (-1381); 3584; 4177;
   (-3296); 3949; 4452; (-2396); 2837; 5374; (-4354); (-130); 3748; 953; (-827); 5767; (-2197); (-5067); (-2476); 118;
   (-4096); 493; (-5444); (-2381); 1378; (-1912); (-4337); 435; (-2143); 1065; 404; (-4645); 1207; 3248; (-1168); 5277;
   (-2437); (-3646); (-2987); (-6022); 2422; 6039; 2187; 2566; (-1002); 5011; (-4284); 5088; (-875); (-3780); (-1607); (-4976);
   4714; 4143; 1537; (-242); (-2678); (-3704); 545; (-5019); (-1632); (-5084); (-1017); (-4885); (-27); (-3066); (-1440); (-3763);
   (-5698); 2912; (-4861); (-354); 2481; (-5012); (-2859); (-1045); (-1067); (-5101); 442; 2401; 773; 390; (-3833); (-3778);
   (-4895); (-1484); 5195; 2780; 4053; (-2645); (-5042); 2305; (-2174); 4372; 2847; (-4414); (-4057); (-3271); (-3364); 1689;
   1777; (-1663); 4654; 1426; (-2704); (-5291); (-4938); (-3636); 4437; (-3); 3149; (-160); (-4919); (-113); 3915; 2166;
   (-1153); 2884; 4048; 2249; 1630; 2126; (-3186); (-5407); 2370; 2865; 3510; 5332; 3247; (-2686); (-2969); (-3978);
   (-671); 3000; (-3016); 243; 3400; 2399; 5191; (-3136); 420; (-5559); (-2178); (-1544); 3531; (-476); 3985; (-4905);
   81; (-3091); 4320; (-1000); 3051; 2366; 2963; (-4896); (-4611); 726; (-140); 1853; (-1635); 2768; (-1177); 4255;
   (-2319); (-1170); (-790); (-955); (-1326); 5086; 3014; (-3201); 2294; 1062; 3553; (-4805); (-3712); 3135; 2747; (-4846);
   2625; (-949); 4821; 2639; 563; (-2975); (-2744); (-3006); (-3328); 5777; (-1351); 4978; 5728; 4591; (-5828); (-5023);
   4043; (-5146); (-1479); 1; 722; (-1305); 5736; 4134; (-1212); 1646; (-3195); 5860; 3504; (-3542); 2545; 3621;
   2548; (-4231); (-3382); (-355); 1759; (-3707); 3694; (-5179); 145; 5542; 3637; (-3459); (-2731); 3932; 5911; 4890;
   1696; 1428; 334; 2426; (-5755); 4632; 4388; 1260; (-3241); (-729); 3289; (-2013); (-3284); (-2881); 5092; (-2089);
   2468; 339; 544; 5791; 2842; 480; 9; 1022; (-1673); (-4278); 4989; 5331; 2525; (-1381); 3584; 4177;
   (-3296); 3949; 4452; (-2396); 2837; 5374; (-4354); (-130); 3748; 953; (-827); 5767; (-2197); (-5067); (-2476); 118;
   (-3963); 576; (-2447); 6142; (-1805); (-2882); (-2051); 1954; 3030; (-4115); 1843; (-2361); 3529; (-3434); (-218); (-2908);
   (-3969); 3991; (-2767); (-156); (-2031); (-5333); 2281; (-5876); 4737; 1293; (-5429); (-4774); (-5908); (-453); (-3772); 418;
   5383; (-1815); 350; 1512; (-2057); 5369; (-3202); (-4493); (-1483); (-5915); (-1263); (-49); 1489; 2500; 1583; (-5942);
   (-5735); (-2655); (-2738); 5868; (-3009); (-1693); (-723); (-174); 3315; (-426); 4754; 1858; 1975; (-3757); 2925; 347;
   (-4049); (-3728); 1159; 5990; (-948); (-1146); (-1404); 325; 2919; 3762; (-4077); 4016; (-652); (-5766); (-6099); (-295);
   (-1962); (-1594); 5961; 5106; (-168); (-2692); 3329; (-4298); 5184; (-1200); 6122; (-2555); (-1360); 3956; 5297; (-6119);
   5782; (-1566); (-2948); 2503; 683; 2459; 3656; 64; 1747; 3123; 3054; (-5486); (-3834); (-5257); 4433; (-5919);
   1958; (-4322); (-2078); (-1112); (-4079); 1058; (-441); (-922); (-4046); 709; 1319; (-3150); (-835); (-6065); (-3570); 4240;
   (-4467); 4789; (-4749); 5537; 3789; 147; 5456; (-4449); (-1050); (-4536); 5445; 3860; (-2683); 1190; (-3818); 6118;
   (-5925); (-1018); 3514; (-1041); (-1973); (-5574); 1278; (-2344); (-4075); (-5315); (-4324); (-4916); 2169; 522; 5079; 3262;
   5435; 1359; (-973); (-1254); 3998; 2033; (-3879); 1922; (-3988); 468; 316; 382; 5446; 5339; 3710; (-6093);
   (-4948); (-6137); (-1728); 400; (-6136); (-5862); (-3643); (-5415); (-5529); (-5206); 56; (-3199); 654; (-3565); (-1987); (-1702);
   (-787); 3482; (-1010); 5468; 3127; 4169; 2920; 5241; (-3445); 4780; 4698; 5057; 1321; (-192); 4912; 2049;
   2505; 5906; (-1579); (-431); (-3957); (-2839); (-2127); 151; (-6055); 3336; 677; 5874; 1323; 2766; (-3174); 52;
   4080; 421; (-3602); 6068; (-6077); (-4624); 3600; 3263; (-5594); (-3029); 4782; (-5886); 2302; 605; (-4213); (-504);
   (-3477); (-5681); (-1105); 142; 4212; (-975); 3438; (-2844); (-58); 241; 1003; (-3532); 6008; 885; 5009; (-1956);
   (-4096); 493; (-5444); (-2381); 1378; (-1912); (-4337); 435; (-2143); 1065; 404; (-4645); 1207; 3248; (-1168); 5277;
   (-2437); (-3646); (-2987); (-6022); 2422; 6039; 2187; 2566; (-1002); 5011; (-4284); 5088; (-875); (-3780); (-1607); (-4976);
   4714; 4143; 1537; (-242); (-2678); (-3704); 545; (-5019); (-1632); (-5084); (-1017); (-4885); (-27); (-3066); (-1440); (-3763);
   (-5698); 2912; (-4861); (-354); 2481; (-5012); (-2859); (-1045); (-1067); (-5101); 442; 2401; 773; 390; (-3833); (-3778);
   (-4895); (-1484); 5195; 2780; 4053; (-2645); (-5042); 2305; (-2174); 4372; 2847; (-4414); (-4057); (-3271); (-3364); 1689;
   1777; (-1663); 4654; 1426; (-2704); (-5291); (-4938); (-3636); 4437; (-3); 3149; (-160); (-4919); (-113); 3915; 2166;
   (-1153); 2884; 4048; 2249; 1630; 2126; (-3186); (-5407); 2370; 2865; 3510; 5332; 3247; (-2686); (-2969); (-3978);
   (-671); 3000; (-3016); 243; 3400; 2399; 5191; (-3136); 420; (-5559); (-2178); (-1544); 3531; (-476); 3985; (-4905);
   81; (-3091); 4320; (-1000); 3051; 2366; 2963; (-4896); (-4611); 726; (-140); 1853; (-1635); 2768; (-1177); 4255;
   (-2319); (-1170); (-790); (-955); (-1326); 5086; 3014; (-3201); 2294; 1062; 3553; (-4805); (-3712); 3135; 2747; (-4846);
   2625; (-949); 4821; 2639; 563; (-2975); (-2744); (-3006); (-3328); 5777; (-1351); 4978; 5728; 4591; (-5828); (-5023);
   4043; (-5146); (-1479); 1; 722; (-1305); 5736; 4134; (-1212); 1646; (-3195); 5860; 3504; (-3542); 2545; 3621;
   2548; (-4231); (-3382); (-355); 1759; (-3707); 3694; (-5179); 145; 5542; 3637; (-3459); (-2731); 3932; 5911; 4890;
   1696; 1428; 334; 2426; (-5755); 4632; 4388; 1260; (-3241); (-729); 3289; (-2013); (-3284); (-2881); 5092; (-2089);
   2468; 339; 544; 5791; 2842; 480; 9; 1022; (-1673); (-4278); 4989; 5331; 2525; (-1381); 3584; 4177;
   (-3296); 3949; 4452; (-2396); 2837; 5374; (-4354); (-130); 3748; 953; (-827); 5767; (-2197); (-5067); (-2476); 118;
   (-3963); 576; (-2447); 6142; (-1805); (-2882); (-2051); 1954; 3030; (-4115); 1843; (-2361); 3529; (-3434); (-218); (-2908);
   (-3969); 3991; (-2767); (-156); (-2031); (-5333); 2281; (-5876); 4737; 1293; (-5429); (-4774); (-5908); (-453); (-3772); 418;
   5383; (-1815); 350; 1512; (-2057); 5369; (-3202); (-4493); (-1483); (-5915); (-1263); (-49); 1489; 2500; 1583; (-5942);
   (-5735); (-2655); (-2738); 5868; (-3009); (-1693); (-723); (-174); 3315; (-426); 4754; 1858; 1975; (-3757); 2925; 347;
   (-4049); (-3728); 1159; 5990; (-948); (-1146); (-1404); 325; 2919; 3762; (-4077); 4016; (-652); (-5766); (-6099); (-295);
   (-1962); (-1594); 5961; 5106; (-168); (-2692); 3329; (-4298); 5184; (-1200); 6122; (-2555); (-1360); 3956; 5297; (-6119);
   5782; (-1566); (-2948); 2503; 683; 2459; 3656; 64; 1747; 3123; 3054; (-5486); (-3834); (-5257); 4433; (-5919);
   1958; (-4322); (-2078); (-1112); (-4079); 1058; (-441); (-922); (-4046); 709; 1319; (-3150); (-835); (-6065); (-3570); 4240;
   (-4467); 4789; (-4749); 5537; 3789; 147; 5456; (-4449); (-1050); (-4536); 5445; 3860; (-2683); 1190; (-3818); 6118;
   (-5925); (-1018); 3514; (-1041); (-1973); (-5574); 1278; (-2344); (-4075); (-5315); (-4324); (-4916); 2169; 522; 5079; 3262;
   5435; 1359; (-973); (-1254); 3998; 2033; (-3879); 1922; (-3988); 468; 316; 382; 5446; 5339; 3710; (-6093);
   (-4948); (-6137); (-1728); 400; (-6136); (-5862); (-3643); (-5415); (-5529); (-5206); 56; (-3199); 654; (-3565); (-1987); (-1702);
   (-787); 3482; (-1010); 5468; 3127; 4169; 2920; 5241; (-3445); 4780; 4698; 5057; 1321; (-192); 4912; 2049;
   2505; 5906; (-1579); (-431); (-3957); (-2839); (-2127); 151; (-6055); 3336; 677; 5874; 1323; 2766; (-3174); 52;
   4080; 421; (-3602); 6068; (-6077); (-4624); 3600; 3263; (-5594); (-3029); 4782; (-5886); 2302; 605; (-4213); (-504);
   (-3477); (-5681); (-1105); 142; 4212; (-975); 3438; (-2844); (-58); 241; 1003; (-3532); 6008; 885; 5009; (-1956);
   (-4103); 2429; (-1721); (-1536); (-2982); 1373; 717; 3589; 5993; 3278; 4209; (-5412); 438; (-3515); (-1218); 5061;
   (-416); (-814); (-1705); (-2450); 716; 2110; 5416; (-2164); (-4538); (-1908); (-343); (-3448); 5211; 1866; (-4727); 1208;
   4032; 3163; 6127; 4840; 4404; 346; 1389; 2068; (-4227); 3368; (-4238); (-612); 540; (-125); 4222; 1526;
   3359; 3205; (-1092); (-5209); (-464); 1928; (-4265); (-3678); (-3238); 3708; 3449; 1136; (-3171); 4489; 2926; 1826;
   (-412); 5102; (-5588); 5845; 4963; 3744; 2528; 3056; (-5676); (-1417); 4505; 2257; (-4883); 3975; 5835; 3087;
   1327; (-3607); 5232; (-3942); 4924; (-4781); 448; (-1014); (-2717); 60; (-1535); 3200; 68; 2260; (-4566); 5836;
   (-1518); 3765; 5063; 4176; 4267; (-5653); 2275; (-2461); 1756; 4145; 3534; 3961; (-3495); 4564; (-2065); 5826;
   1131; 1445; (-1125); (-4860); 5734; 1176; (-5508); 1275; 3889; 579; (-5596); (-5987); 3114; (-2769); (-5966); (-212);
   (-1620); 375; (-377); (-4578); 425; 1836; 2185; (-392); (-6092); (-2231); 2800; (-193); (-4167); 6085; (-1038); 923;
   (-2776); (-1178); 3511; (-5478); 1942; (-3408); 1165; 2575; 3276; 3338; 2674; (-2212); 506; (-1255); (-5784); (-1392);
   (-3344); (-5598); 1892; (-3624); 1029; (-1945); 5724; (-1325); 5115; (-4939); 2442; (-1248); (-3959); (-5797); 5959; 2148;
   5163; 4608; 5002; (-20); (-2151); 1522; (-4119); 3343; (-338); 3947; 2455; 5690; 3654; (-2894); (-1744); 1314;
   (-1804); (-1403); (-6094); (-5189); 1687; 406; (-146); 5268; (-2900); (-239); 994; (-4554); 5464; (-4906); 4670; 512;
   2947; (-3982); 5609; 636; 4499; 5672; (-1737); (-622); 3375; 2291; (-4335); 3393; 4235; (-3825); (-3528); 4913;
   (-204); 5509; 1409; (-5219); 4605; 2689; (-180); 4138; (-3407); (-463); (-1468); 3981; (-1344); 3042; 2054; 2483;
   4475; (-5246); (-3017); (-1236); 4705; 3121; 1057; 2600; (-1226); 5518; 4251; (-4739); (-5216); 3028; 364; (-2360);
   5526; 769; (-216); 50; (-767); (-3805); 4153; (-2213); 845; (-3723); 7; (-1936); 3154; (-5054); 4360; (-3285);
   5646; (-6086); (-6105); 3120; 3753; (-3941); 3536; (-5370); 3572; (-1282); (-2021); (-2832); (-4730); (-3229); 1706; 3929;
   2941; (-567); 5289; (-5662); 4273; 3221; 2595; 3837; 5082; (-4590); 682; 980; (-5202); (-844); 5207; (-4050);
   4099; 3944; 5604; 5530; (-1265); (-3007); 2171; 3480; (-4855); (-3769); 3232; (-293); (-2633); 1406; 2945; 5349;
   (-5043); 826; 1398; 3090; (-5618); (-1658); 3502; 5789; 3065; (-1506); (-4483); 5703; 751; 4719; (-910); 5900;
   2373; (-4987); 3670; (-3808); 3360; 4684; (-5135); (-63); (-5368); (-578); 450; 1944; 2622; (-5386); 4661; (-510);
   (-5039); (-5547); (-2485); (-904); (-1371); (-24); 614; (-1280); 1927; (-1015); 365; (-881); 2946; (-5461); (-2637); (-4510);
   (-2293); 417; 4693; (-2338); (-4443); 3418; (-3469); (-6138); (-5103); (-1891); (-1802); 1555; 4411; (-1590); (-2334); 1223;
   3317; 2532; (-3332); (-139); (-2046); (-2940); 1481; 2957; (-3578); 4697; 1701; (-3466); 4504; 778; 2626; 530;
   (-4390); (-4218); 3454; (-3758); 2593; 879; (-982); (-2276); (-4523); (-4301); 457; 8; 5776; 1849; (-3268); (-3795);
   1901; (-2602); (-5118); 502; 6063; (-3793); 3846; (-1573); 6026; 2929; 5969; 4649; 1681; 3821; (-466); (-1030);
   648; (-150); (-2307); 4289; (-170); (-5650); (-874); (-2301); (-21); 5808; (-1120); 2535; (-791); (-2434); 2873; (-2827);
   3451; 4094; (-4378); 1241; (-1095); 2643; 3045; 5781; (-4834); 2712; 4352; (-2828); (-1842); 3840; 72; (-4113);
   (-944); 4770; (-5287); (-3669); 5406; (-4665); 5673; (-3020); (-1790); (-5275); (-1251); 5410; (-1882); 6125; 2035; (-1040);
   4423; 3869; (-1694); 1530; (-1350); (-5832); 1734; (-3815); 1279; (-865); 2672; (-5170); 3116; 189; (-1763); (-2209);
   (-4194); 3019; (-2478); (-2840); 1783; (-5078); 4974; (-4565); 1160; (-4820); 4518; (-3094); 2730; (-5411); (-1868); 2253].

(** test_ntt_red_tables.c 3181-3438 *)
Definition shoup_red_scaled_ntt2048_12289 : list Z := [
   0; 493; 6845; 9908; 1378; 7952; 10377; 435; 10146; 1207; 404; 11121; 1065; 3248; 7644; 5277;
   9852; 11287; 2422; 11414; 9302; 8005; 2187; 10682; 8643; 5011; 6039; 8509; 6267; 5088; 2566; 7313;
   4714; 6591; 10657; 11222; 9611; 2481; 12262; 773; 1537; 7428; 11272; 442; 545; 9430; 10849; 8456;
   4143; 2912; 7205; 7188; 8585; 7277; 9223; 390; 12047; 11935; 7404; 2401; 7270; 11244; 8526; 8511;
   7394; 11136; 1777; 11618; 10115; 2370; 4437; 420; 4053; 1630; 9585; 3400; 8232; 3247; 7370; 3531;
   5195; 4048; 4654; 9273; 2847; 3510; 3149; 10111; 7247; 9103; 7351; 5191; 8925; 9320; 3915; 3985;
   10805; 2884; 10626; 3000; 4372; 2865; 12286; 6730; 9644; 2126; 6998; 2399; 9018; 9603; 12176; 11813;
   2780; 2249; 1426; 243; 7875; 5332; 12129; 10745; 2305; 6882; 8653; 9153; 1689; 8311; 2166; 7384;
   81; 2548; 2625; 2468; 9970; 1696; 4043; 8993; 7678; 145; 8961; 10616; 2294; 9048; 11077; 3748;
   3051; 1759; 563; 2842; 10963; 6534; 722; 2837; 10654; 9558; 5728; 2525; 8577; 9005; 3504; 10092;
   4320; 8907; 4821; 544; 11499; 334; 10810; 4452; 12149; 3637; 10938; 4989; 3553; 3289; 9094; 11462;
   2963; 3694; 9545; 9; 3014; 4388; 5736; 7935; 11112; 5911; 6461; 3584; 2747; 5092; 2545; 9813;
   9198; 8058; 11340; 339; 11119; 1428; 7143; 3949; 726; 5542; 5777; 8011; 1062; 11560; 1646; 953;
   2366; 8582; 9314; 480; 5086; 4632; 10984; 5374; 2768; 3932; 4591; 10908; 3135; 9408; 8747; 7222;
   11289; 11934; 2639; 5791; 11334; 2426; 1; 9893; 1853; 8830; 4978; 5331; 7484; 10276; 5860; 5767;
   7393; 7110; 9283; 1022; 9088; 1260; 4134; 12159; 4255; 4890; 7266; 4177; 7443; 10200; 3621; 118;
   8326; 7822; 8240; 11502; 5383; 5435; 5782; 4080; 8320; 6364; 10327; 2505; 6554; 7341; 1958; 8812;
   3030; 11239; 2919; 8844; 10806; 8301; 1747; 6695; 4737; 8214; 5184; 6234; 3315; 6760; 8243; 12231;
   10484; 3789; 11341; 3127; 10232; 3998; 683; 6212; 10258; 10316; 12121; 8332; 9280; 6153; 8210; 4212;
   3529; 9606; 11637; 1321; 1489; 5446; 8455; 2302; 6381; 2169; 10929; 1323; 1975; 654; 11454; 6008;
   9842; 7540; 1159; 11279; 350; 11316; 9341; 8687; 9522; 3514; 5961; 10710; 9551; 10561; 10211; 11184;
   1843; 5445; 8212; 4698; 11026; 316; 3054; 4782; 6860; 7965; 6122; 677; 4754; 56; 1319; 1003;
   10238; 5456; 10885; 2920; 9087; 8410; 3656; 3600; 2281; 1278; 3329; 10162; 11566; 8646; 11848; 3438;
   12071; 8471; 6190; 4912; 1583; 3710; 4433; 8076; 8517; 5079; 5297; 9115; 2925; 10302; 8719; 5009;
   576; 4789; 8561; 3482; 10474; 1359; 10723; 421; 3991; 11271; 10695; 5906; 9634; 6152; 7967; 6608;
   8174; 7753; 3762; 4780; 6374; 468; 3123; 9260; 1293; 6974; 11089; 3336; 11863; 7083; 709; 241;
   9407; 147; 11143; 4169; 5369; 2033; 2459; 7665; 6956; 6715; 9597; 9450; 10596; 6427; 1058; 11314;
   8855; 1190; 6523; 12097; 2500; 5339; 7032; 605; 11836; 522; 3956; 2766; 8532; 8724; 6224; 885;
   6142; 5537; 5990; 5468; 1512; 11035; 2503; 6068; 12133; 11248; 5106; 11858; 5868; 400; 11177; 142;
   9928; 3860; 4016; 5057; 12240; 382; 6803; 6403; 7515; 7373; 9734; 5874; 1858; 9090; 9139; 8757;
   1954; 7840; 325; 5241; 7796; 1922; 64; 3263; 6413; 9945; 7991; 151; 12115; 6874; 11367; 9445;
   9381; 6118; 11994; 2049; 6347; 6196; 6370; 11785; 418; 3262; 6170; 52; 347; 10587; 4240; 10333;
   8186; 5526; 10669; 3317; 11877; 7246; 10485; 3451; 4032; 2941; 8945; 1901; 10771; 7250; 12085; 4423;
   11873; 5646; 9513; 7899; 1327; 2373; 2947; 11345; 3359; 4099; 5163; 648; 1131; 9996; 4475; 8095;
   5993; 845; 6197; 8711; 6613; 3065; 9389; 7455; 8062; 5082; 5115; 6026; 1756; 1927; 8882; 1279;
   7751; 3572; 3276; 7766; 9572; 6921; 3375; 10499; 9051; 7434; 11951; 12268; 3889; 7186; 11063; 1160;
   9307; 11522; 425; 10243; 4963; 6671; 1687; 11194; 4404; 4273; 1029; 6063; 4267; 10918; 4605; 10939;
   716; 3753; 1942; 2593; 4924; 3360; 4499; 5406; 11825; 11024; 10138; 12119; 5734; 7846; 4705; 1783;
   438; 3154; 8122; 4504; 7406; 751; 5464; 10447; 540; 7087; 8330; 1681; 8794; 2946; 10945; 3116;
   5211; 7559; 506; 5776; 68; 2622; 4235; 10407; 9118; 9656; 3654; 11498; 3114; 4411; 7073; 2730;
   10568; 12073; 11912; 8957; 6701; 1398; 6195; 7911; 6127; 5289; 1892; 7171; 5063; 9804; 1409; 10595;
   10584; 6184; 3511; 3454; 5232; 3670; 5609; 7002; 11197; 5604; 5002; 9982; 11164; 4693; 9272; 9811;
   4209; 7; 2800; 1701; 4505; 7806; 994; 4352; 8051; 682; 2442; 5969; 3534; 365; 10821; 2672;
   11946; 10268; 2674; 457; 10754; 450; 7954; 11038; 3449; 3232; 2455; 11169; 6693; 10487; 4251; 4518;
   717; 4153; 2185; 1481; 2528; 3502; 12143; 3045; 1389; 2595; 5724; 3846; 2275; 614; 12109; 1734;
   5416; 3536; 1165; 11307; 448; 7154; 10552; 5673; 8024; 2171; 8170; 11415; 6781; 8820; 1057; 4974;
   11071; 4360; 11251; 2626; 5835; 11379; 4670; 72; 4222; 5207; 5959; 11823; 10224; 9652; 2054; 10526;
   7562; 1706; 6505; 9021; 7723; 4661; 8761; 2035; 2926; 2945; 10545; 2873; 6323; 9955; 364; 10421;
   2429; 769; 375; 2532; 5102; 826; 10886; 4094; 3163; 11722; 6691; 9687; 3765; 6742; 5509; 3869;
   11475; 6203; 11111; 8071; 8682; 7302; 8307; 4770; 3205; 3944; 4608; 12139; 1445; 417; 7043; 3019;
   3278; 8566; 10058; 4697; 10872; 10783; 12050; 2712; 3368; 7699; 7350; 2929; 4145; 11274; 11826; 11424;
   10381; 11007; 3338; 7988; 60; 11711; 2291; 7014; 3708; 8520; 3947; 5808; 579; 10398; 5518; 7469;
   1373; 8484; 1836; 9349; 3744; 10631; 406; 2643; 346; 3221; 10344; 8496; 6636; 12265; 2689; 6457;
   2110; 8348; 8881; 879; 7508; 4684; 5672; 7624; 1928; 9282; 1522; 6639; 1176; 3418; 3121; 7211;
   8774; 7235; 6085; 778; 3975; 4719; 7383; 3840; 12164; 11445; 6492; 3821; 4564; 6828; 3042; 189;
   1866; 9060; 11034; 1849; 2260; 6903; 8464; 6125; 4489; 1406; 9395; 9855; 9520; 10699; 3028; 6878;
   10753; 50; 7711; 12150; 5845; 3090; 7100; 1241; 4840; 6627; 8665; 502; 4176; 11385; 7070; 1530;
   9839; 3120; 6811; 8531; 8347; 8481; 636; 8620; 7080; 5530; 12269; 4289; 7429; 9951; 11053; 9449;
   6877; 10353; 12096; 8823; 2257; 5703; 7735; 9461; 11677; 980; 11041; 4649; 3961; 11408; 3981; 7119;
   8841; 9457; 10077; 8; 3200; 1944; 3393; 5410; 1136; 11996; 5690; 2535; 6302; 1555; 7550; 9195;
   3589; 10076; 11897; 2957; 3056; 5789; 5268; 5781; 2068; 3837; 10964; 10716; 9828; 11009; 4138; 8474;
   10125; 6919; 2575; 10013; 11275; 12226; 11667; 9269; 8611; 3480; 3343; 9988; 1275; 6151; 2600; 7724;
   5061; 9004; 923; 530; 3087; 5900; 512; 8176; 1526; 8239; 2148; 11259; 5826; 7779; 2483; 10080;
   1208; 3929; 10897; 8494; 5836; 11779; 4913; 11249; 1826; 5349; 1314; 9462; 12077; 1223; 9929; 2253;
   4435; 9612; 4384; 10632; 8562; 806; 8458; 2886; 3725; 11523; 3031; 825; 8078; 10486; 11482; 3851;
   9003; 4275; 523; 1829; 287; 6549; 4199; 2043; 8296; 6126; 370; 4889; 532; 1649; 3887; 8283;
   6386; 7459; 10577; 9662; 3384; 6054; 1810; 667; 11238; 8731; 9715; 2324; 2676; 7925; 1257; 11727;
   11240; 8691; 10515; 10902; 3162; 10494; 11322; 7051; 6448; 6219; 10799; 5222; 6161; 11959; 6600; 3179;
   10154; 5833; 6230; 10579; 9622; 4184; 2343; 2296; 3236; 9014; 4055; 4923; 12141; 2960; 2245; 4256;
   903; 6518; 4819; 1932; 10516; 10882; 3562; 2494; 11565; 2191; 5336; 3881; 8403; 3986; 6303; 9119;
   1955; 10056; 7793; 3897; 8083; 10386; 1193; 718; 10218; 4553; 7252; 2428; 596; 369; 4909; 132;
   9649; 3644; 854; 7498; 9797; 684; 10898; 3242; 8894; 6455; 6079; 1310; 10667; 7862; 2517; 11105;
   11391; 5671; 9470; 7224; 2988; 1685; 3167; 10394; 1033; 3918; 7663; 6497; 5239; 5821; 6470; 5779;
   7310; 1268; 11507; 3351; 6714; 899; 6598; 3219; 9354; 9544; 5744; 8010; 11846; 8860; 7135; 4768;
   2952; 2405; 1056; 3458; 4574; 6832; 10828; 4642; 5472; 1161; 1358; 9707; 2484; 11765; 10480; 11602;
   1451; 7847; 2817; 5105; 8501; 2026; 8636; 11615; 1191; 758; 9418; 8264; 6766; 12148; 2820; 5045;
   9701; 2604; 9365; 9324; 10144; 6033; 2230; 4556; 7192; 3628; 1174; 1098; 2618; 9085; 2635; 8745;
   9435; 7924; 1277; 11327; 6951; 8448; 3086; 12014; 5500; 601; 269; 6909; 9288; 10864; 3922; 7583;
   8097; 10106; 6793; 11608; 1331; 10247; 3973; 6563; 3919; 7643; 6897; 9528; 6064; 1610; 4667; 4972;
   11161; 10271; 3493; 3874; 8543; 1186; 858; 7418; 11397; 5551; 11870; 8380; 4446; 9392; 8784; 8655;
   11235; 8791; 8515; 1746; 1947; 10216; 4593; 6452; 6139; 110; 10089; 7133; 4808; 2152; 6116; 570;
   889; 6798; 11508; 3331; 7114; 5188; 6841; 10648; 8242; 7206; 3348; 6774; 11988; 6020; 2490; 11645;
   591; 469; 2909; 3265; 8434; 3366; 6414; 6899; 9488; 6864; 10188; 5153; 7541; 8937; 5595; 10990;
   1402; 8827; 7795; 3857; 8883; 6675; 1679; 3287; 7994; 12166; 2460; 12245; 880; 6978; 7908; 1597;
   4927; 12061; 4560; 7112; 5228; 6041; 2070; 7756; 4637; 5572; 11450; 4491; 8492; 2206; 5036; 9881;
   11293; 7631; 7137; 4728; 3752; 10983; 1542; 6027; 2350; 2156; 6036; 2170; 5756; 7770; 4357; 11172;
   10051; 7893; 1897; 11216; 9171; 915; 6278; 9619; 4244; 1143; 1718; 2507; 11305; 7391; 11937; 7040;
   6668; 1819; 487; 2549; 10465; 11902; 7740; 4957; 11461; 4271; 603; 229; 7709; 5577; 11350; 6491;
   5359; 3421; 5314; 4321; 11892; 7940; 957; 5438; 1841; 47; 11349; 6511; 4959; 11421; 5071; 9181;
   715; 10278; 3353; 6674; 1699; 2887; 3705; 11923; 7320; 1068; 3218; 9374; 9144; 1455; 7767; 4417;
   9972; 9473; 7164; 4188; 2263; 3896; 8103; 9986; 9193; 475; 2789; 5665; 9590; 4824; 1832; 227;
   7749; 4777; 2772; 6005; 2790; 5645; 9990; 9113; 2075; 7656; 6637; 2439; 376; 4769; 2932; 2805;
   5345; 3701; 12003; 5720; 8490; 2246; 4236; 1303; 10807; 5062; 9361; 9404; 8544; 1166; 1258; 11707;
   11640; 691; 10758; 6042; 2050; 8156; 8926; 5815; 6590; 3379; 6154; 12099; 3800; 10023; 8453; 2986;
   1725; 2367; 1816; 547; 1349; 9887; 11173; 10031; 8293; 6186; 11459; 4311; 12092; 3940; 7223; 3008;
   1285; 11167; 10151; 5893; 5030; 10001; 8893; 6475; 5679; 9310; 10424; 433; 3629; 1154; 1498; 6907;
   9328; 10064; 7633; 7097; 5528; 41; 11469; 4111; 3803; 9963; 9653; 3564; 2454; 76; 10769; 5822;
   6450; 6179; 11599; 1511; 6647; 2239; 4376; 10792; 5362; 3361; 6514; 4899; 332; 5649; 9910; 10713;
   6942; 8628; 11775; 10280; 3313; 7474; 10277; 3373; 6274; 9699; 2644; 8565; 746; 9658; 3464; 4454;
   9232; 11984; 6100; 890; 6778; 11908; 7620; 7357; 328; 5729; 8310; 5846; 5970; 3490; 3934; 7343;
   608; 129; 9709; 2444; 276; 6769; 12088; 4020; 5623; 10430; 313; 6029; 2310; 2956; 2325; 2656;
   8325; 5546; 11970; 6380; 7579; 8177; 8506; 1926; 10636; 8482; 2406; 1036; 3858; 8863; 7075; 5968;
   3530; 3134; 11054; 122; 9849; 11933; 7120; 5068; 9241; 11804; 9700; 2624; 8965; 5035; 9901; 10893;
   3342; 6894; 9588; 4864; 1032; 3938; 7263; 2208; 4996; 10681; 7582; 8117; 9706; 2504; 11365; 6191;
   11359; 6311; 8959; 5155; 7501; 9737; 1884; 11476; 3971; 6603; 3119; 11354; 6411; 6959; 8288; 6286;
   9459; 7444; 10877; 3662; 494; 2409; 976; 5058; 9441; 7804; 3677; 194; 8409; 3866; 8703; 10275;
   3413; 5474; 1121; 2158; 5996; 2970; 2045; 8256; 6926; 8948; 5375; 3101; 11714; 11500; 3491; 3914;
   7743; 4897; 372; 4849; 1332; 10227; 4373; 10852; 4162; 2783; 5785; 7190; 3668; 374; 4809; 2132;
   6516; 4859; 1132; 1938; 10396; 993; 4718; 3952; 6983; 7808; 3597; 1794; 987; 4838; 1552; 5827;
   6350; 8179; 8466; 2726; 6925; 8968; 4975; 11101; 11471; 4071; 4603; 6252; 10139; 6133; 230; 7689;
   5977; 3350; 6734; 499; 2309; 2976; 1925; 10656; 8082; 10406; 793; 8718; 9975; 9413; 8364; 4766;
   2992; 1605; 4767; 2972; 2005; 9056; 3215; 9434; 7944; 877; 7038; 6708; 1019; 4198; 2063; 7896;
   1837; 127; 9749; 1644; 3987; 6283; 9519; 6244; 10299; 2933; 2785; 5745; 7990; 12246; 860; 7378;
   12197; 1840; 67; 10949; 2222; 4716; 3992; 6183; 11519; 3111; 11514; 3211; 9514; 6344; 8299; 6066;
   1570; 5467; 1261; 11647; 551; 1269; 11487; 3751; 11003; 1142; 1738; 2107; 7016; 7148; 4508; 8152;
   9006; 4215; 1723; 2407; 1016; 4258; 863; 7318; 1108; 2418; 796; 8658; 11175; 9991; 9093; 2475;
   11945; 6880; 9868; 11553; 2431; 536; 1569; 5487; 861; 7358; 308; 6129; 310; 6089; 1110; 2378;
   1596; 4947; 11661; 271; 6869; 10088; 7153; 4408; 10152; 5873; 5430; 2001; 9136; 1615; 4567; 6972;
   8028; 11486; 3771; 10603; 9142; 1495; 6967; 8128; 9486; 6904; 9388; 8864; 7055; 6368; 7819; 3377;
   6194; 11299; 7511; 9537; 5884; 5210; 6401; 7159; 4288; 263; 7029; 6888; 9708; 2464; 12165; 2480;
   11845; 8880; 6735; 479; 2709; 7265; 2168; 5796; 6970; 8068; 10686; 7482; 10117; 6573; 3719; 11643;
   631; 11958; 6620; 2779; 5865; 5590; 11090; 11691; 11960; 6580; 3579; 2154; 6076; 1370; 9467; 7284;
   1788; 1107; 2438; 396; 4369; 10932; 2562; 10205; 4813; 2052; 8116; 9726; 2104; 7076; 5948; 3930;
   7423; 11297; 7551; 8737; 9595; 4724; 3832; 9383; 8964; 5055; 9501; 6604; 3099; 11754; 10700; 7202;
   3428; 5174; 7121; 5048; 9641; 3804; 9943; 10053; 7853; 2697; 7505; 9657; 3484; 4054; 4943; 11741;
   10960; 2002; 9116; 2015; 8856; 7215; 3168; 10374; 1433; 8207; 7906; 1637; 4127; 3483; 4074; 4543;
   7452; 10717; 6862; 10228; 4353; 11252; 8451; 3026; 925; 6078; 1330; 10267; 3573; 2274; 3676; 214;
   8009; 11866; 8460; 2846; 4525; 7812; 3517; 3394; 5854; 5810; 6690; 1379; 9287; 10884; 3522; 3294].

(** test_ntt_red_tables.c 3441-3698 *)
Definition shoup_sred_scaled_ntt2048_12289 : list Z := [
   0; 493; (-5444); (-2381); 1378; (-4337); (-1912); 435; (-2143); 1207; 404; (-1168); 1065; 3248; (-4645); 5277;
   (-2437); (-1002); 2422; (-875); (-2987); (-4284); 2187; (-1607); (-3646); 5011; 6039; (-3780); (-6022); 5088; 2566; (-4976);
   4714; (-5698); (-1632); (-1067); (-2678); 2481; (-27); 773; 1537; (-4861); (-1017); 442; 545; (-2859); (-1440); (-3833);
   4143; 2912; (-5084); (-5101); (-3704); (-5012); (-3066); 390; (-242); (-354); (-4885); 2401; (-5019); (-1045); (-3763); (-3778);
   (-4895); (-1153); 1777; (-671); (-2174); 2370; 4437; 420; 4053; 1630; (-2704); 3400; (-4057); 3247; (-4919); 3531;
   5195; 4048; 4654; (-3016); 2847; 3510; 3149; (-2178); (-5042); (-3186); (-4938); 5191; (-3364); (-2969); 3915; 3985;
   (-1484); 2884; (-1663); 3000; 4372; 2865; (-3); (-5559); (-2645); 2126; (-5291); 2399; (-3271); (-2686); (-113); (-476);
   2780; 2249; 1426; 243; (-4414); 5332; (-160); (-1544); 2305; (-5407); (-3636); (-3136); 1689; (-3978); 2166; (-4905);
   81; 2548; 2625; 2468; (-2319); 1696; 4043; (-3296); (-4611); 145; (-3328); (-1673); 2294; (-3241); (-1212); 3748;
   3051; 1759; 563; 2842; (-1326); (-5755); 722; 2837; (-1635); (-2731); 5728; 2525; (-3712); (-3284); 3504; (-2197);
   4320; (-3382); 4821; 544; (-790); 334; (-1479); 4452; (-140); 3637; (-1351); 4989; 3553; 3289; (-3195); (-827);
   2963; 3694; (-2744); 9; 3014; 4388; 5736; (-4354); (-1177); 5911; (-5828); 3584; 2747; 5092; 2545; (-2476);
   (-3091); (-4231); (-949); 339; (-1170); 1428; (-5146); 3949; 726; 5542; 5777; (-4278); 1062; (-729); 1646; 953;
   2366; (-3707); (-2975); 480; 5086; 4632; (-1305); 5374; 2768; 3932; 4591; (-1381); 3135; (-2881); (-3542); (-5067);
   (-1000); (-355); 2639; 5791; (-955); 2426; 1; (-2396); 1853; (-3459); 4978; 5331; (-4805); (-2013); 5860; 5767;
   (-4896); (-5179); (-3006); 1022; (-3201); 1260; 4134; (-130); 4255; 4890; (-5023); 4177; (-4846); (-2089); 3621; 118;
   (-3963); (-4467); (-4049); (-787); 5383; 5435; 5782; 4080; (-3969); (-5925); (-1962); 2505; (-5735); (-4948); 1958; (-3477);
   3030; (-1050); 2919; (-3445); (-1483); (-3988); 1747; (-5594); 4737; (-4075); 5184; (-6055); 3315; (-5529); (-4046); (-58);
   (-1805); 3789; (-948); 3127; (-2057); 3998; 683; (-6077); (-2031); (-1973); (-168); (-3957); (-3009); (-6136); (-4079); 4212;
   3529; (-2683); (-652); 1321; 1489; 5446; (-3834); 2302; (-5908); 2169; (-1360); 1323; 1975; 654; (-835); 6008;
   (-2447); (-4749); 1159; (-1010); 350; (-973); (-2948); (-3602); (-2767); 3514; 5961; (-1579); (-2738); (-1728); (-2078); (-1105);
   1843; 5445; (-4077); 4698; (-1263); 316; 3054; 4782; (-5429); (-4324); 6122; 677; 4754; 56; 1319; 1003;
   (-2051); 5456; (-1404); 2920; (-3202); (-3879); 3656; 3600; 2281; 1278; 3329; (-2127); (-723); (-3643); (-441); 3438;
   (-218); (-3818); (-6099); 4912; 1583; 3710; 4433; (-4213); (-3772); 5079; 5297; (-3174); 2925; (-1987); (-3570); 5009;
   576; 4789; (-3728); 3482; (-1815); 1359; (-1566); 421; 3991; (-1018); (-1594); 5906; (-2655); (-6137); (-4322); (-5681);
   (-4115); (-4536); 3762; 4780; (-5915); 468; 3123; (-3029); 1293; (-5315); (-1200); 3336; (-426); (-5206); 709; 241;
   (-2882); 147; (-1146); 4169; 5369; 2033; 2459; (-4624); (-5333); (-5574); (-2692); (-2839); (-1693); (-5862); 1058; (-975);
   (-3434); 1190; (-5766); (-192); 2500; 5339; (-5257); 605; (-453); 522; 3956; 2766; (-3757); (-3565); (-6065); 885;
   6142; 5537; 5990; 5468; 1512; (-1254); 2503; 6068; (-156); (-1041); 5106; (-431); 5868; 400; (-1112); 142;
   (-2361); 3860; 4016; 5057; (-49); 382; (-5486); (-5886); (-4774); (-4916); (-2555); 5874; 1858; (-3199); (-3150); (-3532);
   1954; (-4449); 325; 5241; (-4493); 1922; 64; 3263; (-5876); (-2344); (-4298); 151; (-174); (-5415); (-922); (-2844);
   (-2908); 6118; (-295); 2049; (-5942); (-6093); (-5919); (-504); 418; 3262; (-6119); 52; 347; (-1702); 4240; (-1956);
   (-4103); 5526; (-1620); 3317; (-412); (-5043); (-1804); 3451; 4032; 2941; (-3344); 1901; (-1518); (-5039); (-204); 4423;
   (-416); 5646; (-2776); (-4390); 1327; 2373; 2947; (-944); 3359; 4099; 5163; 648; 1131; (-2293); 4475; (-4194);
   5993; 845; (-6092); (-3578); (-5676); 3065; (-2900); (-4834); (-4227); 5082; 5115; 6026; 1756; 1927; (-3407); 1279;
   (-4538); 3572; 3276; (-4523); (-2717); (-5368); 3375; (-1790); (-3238); (-4855); (-338); (-21); 3889; (-5103); (-1226); 1160;
   (-2982); (-767); 425; (-2046); 4963; (-5618); 1687; (-1095); 4404; 4273; 1029; 6063; 4267; (-1371); 4605; (-1350);
   716; 3753; 1942; 2593; 4924; 3360; 4499; 5406; (-464); (-1265); (-2151); (-170); 5734; (-4443); 4705; 1783;
   438; 3154; (-4167); 4504; (-4883); 751; 5464; (-1842); 540; (-5202); (-3959); 1681; (-3495); 2946; (-1344); 3116;
   5211; (-4730); 506; 5776; 68; 2622; 4235; (-1882); (-3171); (-2633); 3654; (-791); 3114; 4411; (-5216); 2730;
   (-1721); (-216); (-377); (-3332); (-5588); 1398; (-6094); (-4378); 6127; 5289; 1892; (-5118); 5063; (-2485); 1409; (-1694);
   (-1705); (-6105); 3511; 3454; 5232; 3670; 5609; (-5287); (-1092); 5604; 5002; (-2307); (-1125); 4693; (-3017); (-2478);
   4209; 7; 2800; 1701; 4505; (-4483); 994; 4352; (-4238); 682; 2442; 5969; 3534; 365; (-1468); 2672;
   (-343); (-2021); 2674; 457; (-1535); 450; (-4335); (-1251); 3449; 3232; 2455; (-1120); (-5596); (-1802); 4251; 4518;
   717; 4153; 2185; 1481; 2528; 3502; (-146); 3045; 1389; 2595; 5724; 3846; 2275; 614; (-180); 1734;
   5416; 3536; 1165; (-982); 448; (-5135); (-1737); 5673; (-4265); 2171; (-4119); (-874); (-5508); (-3469); 1057; 4974;
   (-1218); 4360; (-1038); 2626; 5835; (-910); 4670; 72; 4222; 5207; 5959; (-466); (-2065); (-2637); 2054; (-1763);
   (-4727); 1706; (-5784); (-3268); (-4566); 4661; (-3528); 2035; 2926; 2945; (-1744); 2873; (-5966); (-2334); 364; (-1868);
   2429; 769; 375; 2532; 5102; 826; (-1403); 4094; 3163; (-567); (-5598); (-2602); 3765; (-5547); 5509; 3869;
   (-814); (-6086); (-1178); (-4218); (-3607); (-4987); (-3982); 4770; 3205; 3944; 4608; (-150); 1445; 417; (-5246); 3019;
   3278; (-3723); (-2231); 4697; (-1417); (-1506); (-239); 2712; 3368; (-4590); (-4939); 2929; 4145; (-1015); (-463); (-865);
   (-1908); (-1282); 3338; (-4301); 60; (-578); 2291; (-5275); 3708; (-3769); 3947; 5808; 579; (-1891); 5518; (-4820);
   1373; (-3805); 1836; (-2940); 3744; (-1658); 406; 2643; 346; 3221; (-1945); (-3793); (-5653); (-24); 2689; (-5832);
   2110; (-3941); (-3408); 879; (-4781); 4684; 5672; (-4665); 1928; (-3007); 1522; (-5650); 1176; 3418; 3121; (-5078);
   (-3515); (-5054); 6085; 778; 3975; 4719; (-4906); 3840; (-125); (-844); (-5797); 3821; 4564; (-5461); 3042; 189;
   1866; (-3229); (-1255); 1849; 2260; (-5386); (-3825); 6125; 4489; 1406; (-2894); (-2434); (-2769); (-1590); 3028; (-5411);
   (-1536); 50; (-4578); (-139); 5845; 3090; (-5189); 1241; 4840; (-5662); (-3624); 502; 4176; (-904); (-5219); 1530;
   (-2450); 3120; (-5478); (-3758); (-3942); (-3808); 636; (-3669); (-5209); 5530; (-20); 4289; (-4860); (-2338); (-1236); (-2840);
   (-5412); (-1936); (-193); (-3466); 2257; 5703; (-4554); (-2828); (-612); 980; (-1248); 4649; 3961; (-881); 3981; (-5170);
   (-3448); (-2832); (-2212); 8; 3200; 1944; 3393; 5410; 1136; (-293); 5690; 2535; (-5987); 1555; (-4739); (-3094);
   3589; (-2213); (-392); 2957; 3056; 5789; 5268; 5781; 2068; 3837; (-1325); (-1573); (-2461); (-1280); 4138; (-3815);
   (-2164); (-5370); 2575; (-2276); (-1014); (-63); (-622); (-3020); (-3678); 3480; 3343; (-2301); 1275; (-6138); 2600; (-4565);
   5061; (-3285); 923; 530; 3087; 5900; 512; (-4113); 1526; (-4050); 2148; (-1030); 5826; (-4510); 2483; (-2209);
   1208; 3929; (-1392); (-3795); 5836; (-510); 4913; (-1040); 1826; 5349; 1314; (-2827); (-212); 1223; (-2360); 2253;
   4435; (-2677); 4384; (-1657); (-3727); 806; (-3831); 2886; 3725; (-766); 3031; 825; (-4211); (-1803); (-807); 3851;
   (-3286); 4275; 523; 1829; 287; (-5740); 4199; 2043; (-3993); 6126; 370; 4889; 532; 1649; 3887; (-4006);
   (-5903); (-4830); (-1712); (-2627); 3384; 6054; 1810; 667; (-1051); (-3558); (-2574); 2324; 2676; (-4364); 1257; (-562);
   (-1049); (-3598); (-1774); (-1387); 3162; (-1795); (-967); (-5238); (-5841); (-6070); (-1490); 5222; (-6128); (-330); (-5689); 3179;
   (-2135); 5833; (-6059); (-1710); (-2667); 4184; 2343; 2296; 3236; (-3275); 4055; 4923; (-148); 2960; 2245; 4256;
   903; (-5771); 4819; 1932; (-1773); (-1407); 3562; 2494; (-724); 2191; 5336; 3881; (-3886); 3986; (-5986); (-3170);
   1955; (-2233); (-4496); 3897; (-4206); (-1903); 1193; 718; (-2071); 4553; (-5037); 2428; 596; 369; 4909; 132;
   (-2640); 3644; 854; (-4791); (-2492); 684; (-1391); 3242; (-3395); (-5834); 6079; 1310; (-1622); (-4427); 2517; (-1184);
   (-898); 5671; (-2819); (-5065); 2988; 1685; 3167; (-1895); 1033; 3918; (-4626); (-5792); 5239; 5821; (-5819); 5779;
   (-4979); 1268; (-782); 3351; (-5575); 899; (-5691); 3219; (-2935); (-2745); 5744; (-4279); (-443); (-3429); (-5154); 4768;
   2952; 2405; 1056; 3458; 4574; (-5457); (-1461); 4642; 5472; 1161; 1358; (-2582); 2484; (-524); (-1809); (-687);
   1451; (-4442); 2817; 5105; (-3788); 2026; (-3653); (-674); 1191; 758; (-2871); (-4025); (-5523); (-141); 2820; 5045;
   (-2588); 2604; (-2924); (-2965); (-2145); 6033; 2230; 4556; (-5097); 3628; 1174; 1098; 2618; (-3204); 2635; (-3544);
   (-2854); (-4365); 1277; (-962); (-5338); (-3841); 3086; (-275); 5500; 601; 269; (-5380); (-3001); (-1425); 3922; (-4706);
   (-4192); (-2183); (-5496); (-681); 1331; (-2042); 3973; (-5726); 3919; (-4646); (-5392); (-2761); 6064; 1610; 4667; 4972;
   (-1128); (-2018); 3493; 3874; (-3746); 1186; 858; (-4871); (-892); 5551; (-419); (-3909); 4446; (-2897); (-3505); (-3634);
   (-1054); (-3498); (-3774); 1746; 1947; (-2073); 4593; (-5837); 6139; 110; (-2200); (-5156); 4808; 2152; 6116; 570;
   889; (-5491); (-781); 3331; (-5175); 5188; (-5448); (-1641); (-4047); (-5083); 3348; (-5515); (-301); 6020; 2490; (-644);
   591; 469; 2909; 3265; (-3855); 3366; (-5875); (-5390); (-2801); (-5425); (-2101); 5153; (-4748); (-3352); 5595; (-1299);
   1402; (-3462); (-4494); 3857; (-3406); (-5614); 1679; 3287; (-4295); (-123); 2460; (-44); 880; (-5311); (-4381); 1597;
   4927; (-228); 4560; (-5177); 5228; 6041; 2070; (-4533); 4637; 5572; (-839); 4491; (-3797); 2206; 5036; (-2408);
   (-996); (-4658); (-5152); 4728; 3752; (-1306); 1542; 6027; 2350; 2156; 6036; 2170; 5756; (-4519); 4357; (-1117);
   (-2238); (-4396); 1897; (-1073); (-3118); 915; (-6011); (-2670); 4244; 1143; 1718; 2507; (-984); (-4898); (-352); (-5249);
   (-5621); 1819; 487; 2549; (-1824); (-387); (-4549); 4957; (-828); 4271; 603; 229; (-4580); 5577; (-939); (-5798);
   5359; 3421; 5314; 4321; (-397); (-4349); 957; 5438; 1841; 47; (-940); (-5778); 4959; (-868); 5071; (-3108);
   715; (-2011); 3353; (-5615); 1699; 2887; 3705; (-366); (-4969); 1068; 3218; (-2915); (-3145); 1455; (-4522); 4417;
   (-2317); (-2816); (-5125); 4188; 2263; 3896; (-4186); (-2303); (-3096); 475; 2789; 5665; (-2699); 4824; 1832; 227;
   (-4540); 4777; 2772; 6005; 2790; 5645; (-2299); (-3176); 2075; (-4633); (-5652); 2439; 376; 4769; 2932; 2805;
   5345; 3701; (-286); 5720; (-3799); 2246; 4236; 1303; (-1482); 5062; (-2928); (-2885); (-3745); 1166; 1258; (-582);
   (-649); 691; (-1531); 6042; 2050; (-4133); (-3363); 5815; (-5699); 3379; (-6135); (-190); 3800; (-2266); (-3836); 2986;
   1725; 2367; 1816; 547; 1349; (-2402); (-1116); (-2258); (-3996); (-6103); (-830); 4311; (-197); 3940; (-5066); 3008;
   1285; (-1122); (-2138); 5893; 5030; (-2288); (-3396); (-5814); 5679; (-2979); (-1865); 433; 3629; 1154; 1498; (-5382);
   (-2961); (-2225); (-4656); (-5192); 5528; 41; (-820); 4111; 3803; (-2326); (-2636); 3564; 2454; 76; (-1520); 5822;
   (-5839); (-6110); (-690); 1511; (-5642); 2239; 4376; (-1497); 5362; 3361; (-5775); 4899; 332; 5649; (-2379); (-1576);
   (-5347); (-3661); (-514); (-2009); 3313; (-4815); (-2012); 3373; (-6015); (-2590); 2644; (-3724); 746; (-2631); 3464; 4454;
   (-3057); (-305); 6100; 890; (-5511); (-381); (-4669); (-4932); 328; 5729; (-3979); 5846; 5970; 3490; 3934; (-4946);
   608; 129; (-2580); 2444; 276; (-5520); (-201); 4020; 5623; (-1859); 313; 6029; 2310; 2956; 2325; 2656;
   (-3964); 5546; (-319); (-5909); (-4710); (-4112); (-3783); 1926; (-1653); (-3807); 2406; 1036; 3858; (-3426); (-5214); 5968;
   3530; 3134; (-1235); 122; (-2440); (-356); (-5169); 5068; (-3048); (-485); (-2589); 2624; (-3324); 5035; (-2388); (-1396);
   3342; (-5395); (-2701); 4864; 1032; 3938; (-5026); 2208; 4996; (-1608); (-4707); (-4172); (-2583); 2504; (-924); (-6098);
   (-930); (-5978); (-3330); 5155; (-4788); (-2552); 1884; (-813); 3971; (-5686); 3119; (-935); (-5878); (-5330); (-4001); (-6003);
   (-2830); (-4845); (-1412); 3662; 494; 2409; 976; 5058; (-2848); (-4485); 3677; 194; (-3880); 3866; (-3586); (-2014);
   3413; 5474; 1121; 2158; 5996; 2970; 2045; (-4033); (-5363); (-3341); 5375; 3101; (-575); (-789); 3491; 3914;
   (-4546); 4897; 372; 4849; 1332; (-2062); 4373; (-1437); 4162; 2783; 5785; (-5099); 3668; 374; 4809; 2132;
   (-5773); 4859; 1132; 1938; (-1893); 993; 4718; 3952; (-5306); (-4481); 3597; 1794; 987; 4838; 1552; 5827;
   (-5939); (-4110); (-3823); 2726; (-5364); (-3321); 4975; (-1188); (-818); 4071; 4603; (-6037); (-2150); 6133; 230; (-4600);
   5977; 3350; (-5555); 499; 2309; 2976; 1925; (-1633); (-4207); (-1883); 793; (-3571); (-2314); (-2876); (-3925); 4766;
   2992; 1605; 4767; 2972; 2005; (-3233); 3215; (-2855); (-4345); 877; (-5251); (-5581); 1019; 4198; 2063; (-4393);
   1837; 127; (-2540); 1644; 3987; (-6006); (-2770); (-6045); (-1990); 2933; 2785; 5745; (-4299); (-43); 860; (-4911);
   (-92); 1840; 67; (-1340); 2222; 4716; 3992; (-6106); (-770); 3111; (-775); 3211; (-2775); (-5945); (-3990); 6066;
   1570; 5467; 1261; (-642); 551; 1269; (-802); 3751; (-1286); 1142; 1738; 2107; (-5273); (-5141); 4508; (-4137);
   (-3283); 4215; 1723; 2407; 1016; 4258; 863; (-4971); 1108; 2418; 796; (-3631); (-1114); (-2298); (-3196); 2475;
   (-344); (-5409); (-2421); (-736); 2431; 536; 1569; 5487; 861; (-4931); 308; 6129; 310; 6089; 1110; 2378;
   1596; 4947; (-628); 271; (-5420); (-2201); (-5136); 4408; (-2137); 5873; 5430; 2001; (-3153); 1615; 4567; (-5317);
   (-4261); (-803); 3771; (-1686); (-3147); 1495; (-5322); (-4161); (-2803); (-5385); (-2901); (-3425); (-5234); (-5921); (-4470); 3377;
   (-6095); (-990); (-4778); (-2752); 5884; 5210; (-5888); (-5130); 4288; 263; (-5260); (-5401); (-2581); 2464; (-124); 2480;
   (-444); (-3409); (-5554); 479; 2709; (-5024); 2168; 5796; (-5319); (-4221); (-1603); (-4807); (-2172); (-5716); 3719; (-646);
   631; (-331); (-5669); 2779; 5865; 5590; (-1199); (-598); (-329); (-5709); 3579; 2154; 6076; 1370; (-2822); (-5005);
   1788; 1107; 2438; 396; 4369; (-1357); 2562; (-2084); 4813; 2052; (-4173); (-2563); 2104; (-5213); 5948; 3930;
   (-4866); (-992); (-4738); (-3552); (-2694); 4724; 3832; (-2906); (-3325); 5055; (-2788); (-5685); 3099; (-535); (-1589); (-5087);
   3428; 5174; (-5168); 5048; (-2648); 3804; (-2346); (-2236); (-4436); 2697; (-4784); (-2632); 3484; 4054; 4943; (-548);
   (-1329); 2002; (-3173); 2015; (-3433); (-5074); 3168; (-1915); 1433; (-4082); (-4383); 1637; 4127; 3483; 4074; 4543;
   (-4837); (-1572); (-5427); (-2061); 4353; (-1037); (-3838); 3026; 925; 6078; 1330; (-2022); 3573; 2274; 3676; 214;
   (-4280); (-423); (-3829); 2846; 4525; (-4477); 3517; 3394; 5854; 5810; (-5599); 1379; (-3002); (-1405); 3522; 3294].

(** test_ntt_red_tables.c 3700-3957 *)
Definition rev_shoup_red_scaled_ntt2048_12289 : list Z := [
   0; 493; 6845; 9908; 1378; 10377; 7952; 435; 10146; 1065; 404; 7644; 1207; 3248; 11121; 5277;
   9852; 8643; 9302; 6267; 2422; 6039; 2187; 2566; 11287; 5011; 8005; 5088; 11414; 8509; 10682; 7313;
   4714; 4143; 1537; 12047; 9611; 8585; 545; 7270; 10657; 7205; 11272; 7404; 12262; 9223; 10849; 8526;
   6591; 2912; 7428; 11935; 2481; 7277; 9430; 11244; 11222; 7188; 442; 2401; 773; 390; 8456; 8511;
   7394; 10805; 5195; 2780; 4053; 9644; 7247; 2305; 10115; 4372; 2847; 7875; 8232; 9018; 8925; 1689;
   1777; 10626; 4654; 1426; 9585; 6998; 7351; 8653; 4437; 12286; 3149; 12129; 7370; 12176; 3915; 2166;
   11136; 2884; 4048; 2249; 1630; 2126; 9103; 6882; 2370; 2865; 3510; 5332; 3247; 9603; 9320; 8311;
   11618; 3000; 9273; 243; 3400; 2399; 5191; 9153; 420; 6730; 10111; 10745; 3531; 11813; 3985; 7384;
   81; 9198; 4320; 11289; 3051; 2366; 2963; 7393; 7678; 726; 12149; 1853; 10654; 2768; 11112; 4255;
   9970; 11119; 11499; 11334; 10963; 5086; 3014; 9088; 2294; 1062; 3553; 7484; 8577; 3135; 2747; 7443;
   2625; 11340; 4821; 2639; 563; 9314; 9545; 9283; 8961; 5777; 10938; 4978; 5728; 4591; 6461; 7266;
   4043; 7143; 10810; 1; 722; 10984; 5736; 4134; 11077; 1646; 9094; 5860; 3504; 8747; 2545; 3621;
   2548; 8058; 8907; 11934; 1759; 8582; 3694; 7110; 145; 5542; 3637; 8830; 9558; 3932; 5911; 4890;
   1696; 1428; 334; 2426; 6534; 4632; 4388; 1260; 9048; 11560; 3289; 10276; 9005; 9408; 5092; 10200;
   2468; 339; 544; 5791; 2842; 480; 9; 1022; 10616; 8011; 4989; 5331; 2525; 10908; 3584; 4177;
   8993; 3949; 4452; 9893; 2837; 5374; 7935; 12159; 3748; 953; 11462; 5767; 10092; 7222; 9813; 118;
   8326; 576; 9842; 6142; 10484; 9407; 10238; 1954; 3030; 8174; 1843; 9928; 3529; 8855; 12071; 9381;
   8320; 3991; 9522; 12133; 10258; 6956; 2281; 6413; 4737; 1293; 6860; 7515; 6381; 11836; 8517; 418;
   5383; 10474; 350; 1512; 10232; 5369; 9087; 7796; 10806; 6374; 11026; 12240; 1489; 2500; 1583; 6347;
   6554; 9634; 9551; 5868; 9280; 10596; 11566; 12115; 3315; 11863; 4754; 1858; 1975; 8532; 2925; 347;
   8240; 8561; 1159; 5990; 11341; 11143; 10885; 325; 2919; 3762; 8212; 4016; 11637; 6523; 6190; 11994;
   10327; 10695; 5961; 5106; 12121; 9597; 3329; 7991; 5184; 11089; 6122; 9734; 10929; 3956; 5297; 6170;
   5782; 10723; 9341; 2503; 683; 2459; 3656; 64; 1747; 3123; 3054; 6803; 8455; 7032; 4433; 6370;
   1958; 7967; 10211; 11177; 8210; 1058; 11848; 11367; 8243; 709; 1319; 9139; 11454; 6224; 8719; 4240;
   7822; 4789; 7540; 5537; 3789; 147; 5456; 7840; 11239; 7753; 5445; 3860; 9606; 1190; 8471; 6118;
   6364; 11271; 3514; 11248; 10316; 6715; 1278; 9945; 8214; 6974; 7965; 7373; 2169; 522; 5079; 3262;
   5435; 1359; 11316; 11035; 3998; 2033; 8410; 1922; 8301; 468; 316; 382; 5446; 5339; 3710; 6196;
   7341; 6152; 10561; 400; 6153; 6427; 8646; 6874; 6760; 7083; 56; 9090; 654; 8724; 10302; 10587;
   11502; 3482; 11279; 5468; 3127; 4169; 2920; 5241; 8844; 4780; 4698; 5057; 1321; 12097; 4912; 2049;
   2505; 5906; 10710; 11858; 8332; 9450; 10162; 151; 6234; 3336; 677; 5874; 1323; 2766; 9115; 52;
   4080; 421; 8687; 6068; 6212; 7665; 3600; 3263; 6695; 9260; 4782; 6403; 2302; 605; 8076; 11785;
   8812; 6608; 11184; 142; 4212; 11314; 3438; 9445; 12231; 241; 1003; 8757; 6008; 885; 5009; 10333;
   8186; 2429; 10568; 10753; 9307; 1373; 717; 3589; 5993; 3278; 4209; 6877; 438; 8774; 11071; 5061;
   11873; 11475; 10584; 9839; 716; 2110; 5416; 10125; 7751; 10381; 11946; 8841; 5211; 1866; 7562; 1208;
   4032; 3163; 6127; 4840; 4404; 346; 1389; 2068; 8062; 3368; 8051; 11677; 540; 12164; 4222; 1526;
   3359; 3205; 11197; 7080; 11825; 1928; 8024; 8611; 9051; 3708; 3449; 1136; 9118; 4489; 2926; 1826;
   11877; 5102; 6701; 5845; 4963; 3744; 2528; 3056; 6613; 10872; 4505; 2257; 7406; 3975; 5835; 3087;
   1327; 8682; 5232; 8347; 4924; 7508; 448; 11275; 9572; 60; 10754; 3200; 68; 2260; 7723; 5836;
   10771; 3765; 5063; 4176; 4267; 6636; 2275; 9828; 1756; 4145; 3534; 3961; 8794; 4564; 10224; 5826;
   1131; 1445; 11164; 7429; 5734; 1176; 6781; 1275; 3889; 579; 6693; 6302; 3114; 9520; 6323; 12077;
   10669; 375; 11912; 7711; 425; 1836; 2185; 11897; 6197; 10058; 2800; 12096; 8122; 6085; 11251; 923;
   9513; 11111; 3511; 6811; 1942; 8881; 1165; 2575; 3276; 3338; 2674; 10077; 506; 11034; 6505; 10897;
   8945; 6691; 1892; 8665; 1029; 10344; 5724; 10964; 5115; 7350; 2442; 11041; 8330; 6492; 5959; 2148;
   5163; 4608; 5002; 12269; 10138; 1522; 8170; 3343; 11951; 3947; 2455; 5690; 3654; 9395; 10545; 1314;
   10485; 10886; 6195; 7100; 1687; 406; 12143; 5268; 9389; 12050; 994; 7735; 5464; 7383; 4670; 512;
   2947; 8307; 5609; 636; 4499; 5672; 10552; 11667; 3375; 2291; 7954; 3393; 4235; 8464; 8761; 4913;
   12085; 5509; 1409; 7070; 4605; 2689; 12109; 4138; 8882; 11826; 10821; 3981; 10945; 3042; 2054; 2483;
   4475; 7043; 9272; 11053; 4705; 3121; 1057; 2600; 11063; 5518; 4251; 7550; 7073; 3028; 364; 9929;
   5526; 769; 12073; 50; 11522; 8484; 4153; 10076; 845; 8566; 7; 10353; 3154; 7235; 4360; 9004;
   5646; 6203; 6184; 3120; 3753; 8348; 3536; 6919; 3572; 11007; 10268; 9457; 7559; 9060; 1706; 3929;
   2941; 11722; 5289; 6627; 4273; 3221; 2595; 3837; 5082; 7699; 682; 980; 7087; 11445; 5207; 8239;
   4099; 3944; 5604; 5530; 11024; 9282; 2171; 3480; 7434; 8520; 3232; 11996; 9656; 1406; 2945; 5349;
   7246; 826; 1398; 3090; 6671; 10631; 3502; 5789; 3065; 10783; 7806; 5703; 751; 4719; 11379; 5900;
   2373; 7302; 3670; 8481; 3360; 4684; 7154; 12226; 6921; 11711; 450; 1944; 2622; 6903; 4661; 11779;
   7250; 6742; 9804; 11385; 10918; 12265; 614; 11009; 1927; 11274; 365; 11408; 2946; 6828; 9652; 7779;
   9996; 417; 4693; 9951; 7846; 3418; 8820; 6151; 7186; 10398; 10487; 1555; 4411; 10699; 9955; 1223;
   3317; 2532; 8957; 12150; 10243; 9349; 1481; 2957; 8711; 4697; 1701; 8823; 4504; 778; 2626; 530;
   7899; 8071; 3454; 8531; 2593; 879; 11307; 10013; 7766; 7988; 457; 8; 5776; 1849; 9021; 8494;
   1901; 9687; 7171; 502; 6063; 8496; 3846; 10716; 6026; 2929; 5969; 4649; 1681; 3821; 11823; 11259;
   648; 12139; 9982; 4289; 12119; 6639; 11415; 9988; 12268; 5808; 11169; 2535; 11498; 9855; 2873; 9462;
   3451; 4094; 7911; 1241; 11194; 2643; 3045; 5781; 7455; 2712; 4352; 9461; 10447; 3840; 72; 8176;
   11345; 4770; 7002; 8620; 5406; 7624; 5673; 9269; 10499; 7014; 11038; 5410; 10407; 6125; 2035; 11249;
   4423; 3869; 10595; 1530; 10939; 6457; 1734; 8474; 1279; 11424; 2672; 7119; 3116; 189; 10526; 10080;
   8095; 3019; 9811; 9449; 1783; 7211; 4974; 7724; 1160; 7469; 4518; 9195; 2730; 6878; 10421; 2253;
   4435; 9328; 11235; 1837; 11391; 11359; 5359; 11845; 10154; 608; 4927; 11945; 9701; 6516; 5345; 3428;
   6386; 6942; 591; 1570; 2952; 3413; 9972; 1788; 1955; 3530; 10051; 8028; 8097; 5977; 1725; 7452;
   9003; 6450; 889; 12197; 7310; 9459; 715; 631; 903; 8325; 11293; 1596; 9435; 6350; 11640; 10960;
   11240; 9232; 1402; 9006; 1451; 7743; 7749; 7423; 9649; 3342; 6668; 6194; 11161; 2992; 1285; 8009;
   3725; 3803; 6139; 10299; 1033; 3971; 1841; 6970; 3236; 5623; 4637; 861; 7192; 6983; 10807; 7853;
   11238; 6274; 9488; 11003; 5472; 6926; 9193; 4813; 10218; 9241; 4244; 9486; 3919; 8082; 8293; 925;
   8296; 5362; 8242; 11519; 9354; 9441; 7320; 11960; 11565; 10636; 2350; 10152; 5500; 11471; 6590; 1433;
   6448; 328; 7994; 1108; 1191; 4162; 2075; 8964; 8894; 4996; 11461; 4288; 11397; 7944; 5679; 5854;
   8562; 5528; 1947; 3987; 2988; 7501; 11892; 2709; 9622; 276; 5228; 2431; 10144; 10396; 8490; 9641;
   3384; 3313; 8434; 551; 4574; 5996; 2263; 4369; 8083; 9849; 9171; 9142; 1331; 2309; 1349; 4353;
   287; 6647; 7114; 2222; 6714; 494; 1699; 5865; 10516; 7579; 3752; 6869; 6951; 6925; 2050; 8856;
   3162; 6778; 8883; 1016; 8501; 1332; 2790; 9595; 9797; 1032; 10465; 5884; 8543; 2005; 5030; 4525;
   8078; 2454; 4808; 7990; 5239; 6411; 4959; 10117; 12141; 2310; 8492; 310; 2618; 987; 8544; 3484;
   2676; 746; 7541; 7016; 2484; 11714; 9590; 2104; 596; 8965; 11305; 7055; 6064; 9975; 12092; 3573;
   532; 332; 11988; 9514; 11846; 8409; 9144; 6076; 8403; 3858; 5756; 9136; 9288; 10139; 3800; 4127;
   6161; 5970; 880; 11175; 6766; 3668; 376; 3099; 10667; 9706; 7709; 9708; 4446; 1019; 3629; 9287;
   4384; 7633; 8515; 9749; 9470; 8959; 5314; 6735; 6230; 9709; 4560; 9868; 9365; 1132; 12003; 7121;
   10577; 11775; 2909; 1261; 1056; 1121; 7164; 2438; 7793; 11054; 1897; 3771; 6793; 6734; 1816; 6862;
   523; 11599; 11508; 67; 11507; 10877; 3353; 6620; 4819; 11970; 7137; 11661; 1277; 8466; 10758; 9116;
   10515; 6100; 7795; 1723; 2817; 372; 2772; 7551; 854; 9588; 487; 7511; 3493; 4767; 10151; 8460;
   3031; 9653; 10089; 2785; 7663; 3119; 11349; 10686; 4055; 313; 11450; 308; 1174; 3597; 9361; 7505;
   9715; 2644; 10188; 1738; 1358; 5375; 2789; 8116; 7252; 9700; 1718; 9388; 6897; 793; 11459; 1330;
   370; 6514; 3348; 11514; 5744; 3677; 3218; 3579; 5336; 2406; 6036; 5430; 269; 4603; 6154; 7906;
   10799; 8310; 2460; 796; 9418; 5785; 6637; 9501; 6079; 7582; 603; 7029; 11870; 7038; 10424; 6690;
   8458; 11469; 4593; 9519; 3167; 1884; 957; 2168; 2343; 12088; 2070; 1569; 2230; 4718; 4236; 9943;
   1810; 10277; 6414; 11487; 10828; 2045; 8103; 2562; 1193; 7120; 6278; 6967; 3973; 1925; 11173; 8451;
   4199; 4376; 6841; 3992; 6598; 976; 3705; 11090; 3562; 8506; 1542; 7153; 3086; 4975; 8926; 3168;
   11322; 7620; 1679; 863; 8636; 4373; 9990; 3832; 10898; 7263; 7740; 6401; 858; 3215; 8893; 3517;
   11482; 10769; 6116; 860; 6470; 8288; 5071; 3719; 2245; 2325; 5036; 1110; 2635; 1552; 1258; 4943;
   1257; 3464; 5595; 4508; 10480; 3491; 1832; 5948; 4909; 9901; 11937; 7819; 4667; 8364; 7223; 3676;
   3887; 9910; 2490; 8299; 7135; 8703; 7767; 9467; 6303; 7075; 4357; 4567; 3922; 230; 8453; 4074;
   6600; 3934; 7908; 9093; 2820; 4809; 2932; 10700; 2517; 11365; 11350; 12165; 8784; 2063; 1498; 3522;
   9612; 10064; 8791; 127; 5671; 6311; 3421; 8880; 5833; 129; 12061; 6880; 2604; 4859; 3701; 5174;
   7459; 8628; 469; 5467; 2405; 5474; 9473; 1107; 10056; 3134; 7893; 11486; 10106; 3350; 2367; 10717;
   4275; 6179; 6798; 1840; 1268; 7444; 10278; 11958; 6518; 5546; 7631; 4947; 7924; 8179; 691; 2002;
   8691; 11984; 8827; 4215; 7847; 4897; 4777; 11297; 3644; 6894; 1819; 11299; 10271; 1605; 11167; 11866;
   11523; 9963; 110; 2933; 3918; 6603; 47; 8068; 9014; 10430; 5572; 7358; 3628; 7808; 5062; 2697;
   8731; 9699; 6864; 1142; 1161; 8948; 475; 2052; 4553; 11804; 1143; 6904; 7643; 10406; 6186; 6078;
   6126; 3361; 7206; 3111; 9544; 7804; 1068; 6580; 2191; 8482; 2156; 5873; 601; 4071; 3379; 8207;
   6219; 5729; 12166; 2418; 758; 2783; 7656; 5055; 6455; 10681; 4271; 263; 5551; 877; 9310; 5810;
   806; 41; 10216; 6283; 1685; 9737; 7940; 7265; 4184; 6769; 6041; 536; 6033; 993; 2246; 3804;
   6054; 7474; 3366; 1269; 6832; 2970; 3896; 10932; 10386; 11933; 915; 1495; 10247; 2976; 9887; 11252;
   6549; 2239; 5188; 4716; 899; 2409; 2887; 5590; 10882; 8177; 10983; 10088; 8448; 8968; 8156; 7215;
   10494; 11908; 6675; 4258; 2026; 10227; 5645; 4724; 684; 3938; 11902; 5210; 1186; 9056; 10001; 7812;
   10486; 76; 2152; 12246; 5821; 6959; 11421; 6573; 2960; 2956; 2206; 6089; 9085; 4838; 1166; 4054;
   7925; 9658; 8937; 7148; 11765; 11500; 4824; 7076; 369; 5035; 7391; 6368; 1610; 9413; 3940; 2274;
   1649; 5649; 6020; 6344; 8860; 3866; 1455; 1370; 3986; 8863; 7770; 1615; 10864; 6133; 10023; 3483;
   11959; 3490; 6978; 9991; 12148; 374; 4769; 11754; 7862; 2504; 5577; 2464; 9392; 4198; 1154; 10884;
   10632; 7097; 1746; 1644; 7224; 5155; 4321; 479; 10579; 2444; 7112; 11553; 9324; 1938; 5720; 5048;
   9662; 10280; 3265; 11647; 3458; 2158; 4188; 396; 3897; 122; 11216; 10603; 11608; 499; 547; 10228;
   1829; 1511; 3331; 10949; 3351; 3662; 6674; 2779; 1932; 6380; 4728; 271; 11327; 2726; 6042; 2015;
   10902; 890; 3857; 2407; 5105; 4849; 6005; 8737; 7498; 4864; 2549; 9537; 3874; 2972; 5893; 2846;
   825; 3564; 7133; 5745; 6497; 11354; 6511; 7482; 4923; 6029; 4491; 6129; 1098; 1794; 9404; 9657;
   2324; 8565; 5153; 2107; 9707; 3101; 5665; 9726; 2428; 2624; 2507; 8864; 9528; 8718; 4311; 10267;
   4889; 4899; 6774; 3211; 8010; 194; 9374; 2154; 3881; 1036; 2170; 2001; 6909; 6252; 12099; 1637;
   5222; 5846; 12245; 8658; 8264; 7190; 2439; 6604; 1310; 8117; 229; 6888; 8380; 6708; 433; 1379;
   2886; 4111; 6452; 6244; 10394; 11476; 5438; 5796; 2296; 4020; 7756; 5487; 4556; 3952; 1303; 10053;
   667; 3373; 6899; 3751; 4642; 8256; 9986; 10205; 718; 5068; 9619; 8128; 6563; 10656; 10031; 3026;
   2043; 10792; 10648; 6183; 3219; 5058; 11923; 11691; 2494; 1926; 6027; 4408; 12014; 11101; 5815; 10374;
   7051; 7357; 3287; 7318; 11615; 10852; 9113; 9383; 3242; 2208; 4957; 7159; 7418; 9434; 6475; 3394;
   3851; 5822; 570; 7378; 5779; 6286; 9181; 11643; 4256; 2656; 9881; 2378; 8745; 5827; 11707; 11741;
   11727; 4454; 10990; 8152; 11602; 3914; 227; 3930; 132; 10893; 7040; 3377; 4972; 4766; 3008; 214;
   8283; 10713; 11645; 6066; 4768; 10275; 4417; 7284; 9119; 5968; 11172; 6972; 7583; 7689; 2986; 4543;
   3179; 7343; 1597; 2475; 5045; 2132; 2805; 7202; 11105; 6191; 6491; 2480; 8655; 7896; 6907; 3294].

(** test_ntt_red_tables.c 3960-4217 *)
Definition rev_shoup_sred_scaled_ntt2048_12289 : list Z := [
   0; 493; (-5444); (-2381); 1378; (-1912); (-4337); 435; (-2143); 1065; 404; (-4645); 1207; 3248; (-1168); 5277;
   (-2437); (-3646); (-2987); (-6022); 2422; 6039; 2187; 2566; (-1002); 5011; (-4284); 5088; (-875); (-3780); (-1607); (-4976);
   4714; 4143; 1537; (-242); (-2678); (-3704); 545; (-5019); (-1632); (-5084); (-1017); (-4885); (-27); (-3066); (-1440); (-3763);
   (-5698); 2912; (-4861); (-354); 2481; (-5012); (-2859); (-1045); (-1067); (-5101); 442; 2401; 773; 390; (-3833); (-3778);
   (-4895); (-1484); 5195; 2780; 4053; (-2645); (-5042); 2305; (-2174); 4372; 2847; (-4414); (-4057); (-3271); (-3364); 1689;
   1777; (-1663); 4654; 1426; (-2704); (-5291); (-4938); (-3636); 4437; (-3); 3149; (-160); (-4919); (-113); 3915; 2166;
   (-1153); 2884; 4048; 2249; 1630; 2126; (-3186); (-5407); 2370; 2865; 3510; 5332; 3247; (-2686); (-2969); (-3978);
   (-671); 3000; (-3016); 243; 3400; 2399; 5191; (-3136); 420; (-5559); (-2178); (-1544); 3531; (-476); 3985; (-4905);
   81; (-3091); 4320; (-1000); 3051; 2366; 2963; (-4896); (-4611); 726; (-140); 1853; (-1635); 2768; (-1177); 4255;
   (-2319); (-1170); (-790); (-955); (-1326); 5086; 3014; (-3201); 2294; 1062; 3553; (-4805); (-3712); 3135; 2747; (-4846);
   2625; (-949); 4821; 2639; 563; (-2975); (-2744); (-3006); (-3328); 5777; (-1351); 4978; 5728; 4591; (-5828); (-5023);
   4043; (-5146); (-1479); 1; 722; (-1305); 5736; 4134; (-1212); 1646; (-3195); 5860; 3504; (-3542); 2545; 3621;
   2548; (-4231); (-3382); (-355); 1759; (-3707); 3694; (-5179); 145; 5542; 3637; (-3459); (-2731); 3932; 5911; 4890;
   1696; 1428; 334; 2426; (-5755); 4632; 4388; 1260; (-3241); (-729); 3289; (-2013); (-3284); (-2881); 5092; (-2089);
   2468; 339; 544; 5791; 2842; 480; 9; 1022; (-1673); (-4278); 4989; 5331; 2525; (-1381); 3584; 4177;
   (-3296); 3949; 4452; (-2396); 2837; 5374; (-4354); (-130); 3748; 953; (-827); 5767; (-2197); (-5067); (-2476); 118;
   (-3963); 576; (-2447); 6142; (-1805); (-2882); (-2051); 1954; 3030; (-4115); 1843; (-2361); 3529; (-3434); (-218); (-2908);
   (-3969); 3991; (-2767); (-156); (-2031); (-5333); 2281; (-5876); 4737; 1293; (-5429); (-4774); (-5908); (-453); (-3772); 418;
   5383; (-1815); 350; 1512; (-2057); 5369; (-3202); (-4493); (-1483); (-5915); (-1263); (-49); 1489; 2500; 1583; (-5942);
   (-5735); (-2655); (-2738); 5868; (-3009); (-1693); (-723); (-174); 3315; (-426); 4754; 1858; 1975; (-3757); 2925; 347;
   (-4049); (-3728); 1159; 5990; (-948); (-1146); (-1404); 325; 2919; 3762; (-4077); 4016; (-652); (-5766); (-6099); (-295);
   (-1962); (-1594); 5961; 5106; (-168); (-2692); 3329; (-4298); 5184; (-1200); 6122; (-2555); (-1360); 3956; 5297; (-6119);
   5782; (-1566); (-2948); 2503; 683; 2459; 3656; 64; 1747; 3123; 3054; (-5486); (-3834); (-5257); 4433; (-5919);
   1958; (-4322); (-2078); (-1112); (-4079); 1058; (-441); (-922); (-4046); 709; 1319; (-3150); (-835); (-6065); (-3570); 4240;
   (-4467); 4789; (-4749); 5537; 3789; 147; 5456; (-4449); (-1050); (-4536); 5445; 3860; (-2683); 1190; (-3818); 6118;
   (-5925); (-1018); 3514; (-1041); (-1973); (-5574); 1278; (-2344); (-4075); (-5315); (-4324); (-4916); 2169; 522; 5079; 3262;
   5435; 1359; (-973); (-1254); 3998; 2033; (-3879); 1922; (-3988); 468; 316; 382; 5446; 5339; 3710; (-6093);
   (-4948); (-6137); (-1728); 400; (-6136); (-5862); (-3643); (-5415); (-5529); (-5206); 56; (-3199); 654; (-3565); (-1987); (-1702);
   (-787); 3482; (-1010); 5468; 3127; 4169; 2920; 5241; (-3445); 4780; 4698; 5057; 1321; (-192); 4912; 2049;
   2505; 5906; (-1579); (-431); (-3957); (-2839); (-2127); 151; (-6055); 3336; 677; 5874; 1323; 2766; (-3174); 52;
   4080; 421; (-3602); 6068; (-6077); (-4624); 3600; 3263; (-5594); (-3029); 4782; (-5886); 2302; 605; (-4213); (-504);
   (-3477); (-5681); (-1105); 142; 4212; (-975); 3438; (-2844); (-58); 241; 1003; (-3532); 6008; 885; 5009; (-1956);
   (-4103); 2429; (-1721); (-1536); (-2982); 1373; 717; 3589; 5993; 3278; 4209; (-5412); 438; (-3515); (-1218); 5061;
   (-416); (-814); (-1705); (-2450); 716; 2110; 5416; (-2164); (-4538); (-1908); (-343); (-3448); 5211; 1866; (-4727); 1208;
   4032; 3163; 6127; 4840; 4404; 346; 1389; 2068; (-4227); 3368; (-4238); (-612); 540; (-125); 4222; 1526;
   3359; 3205; (-1092); (-5209); (-464); 1928; (-4265); (-3678); (-3238); 3708; 3449; 1136; (-3171); 4489; 2926; 1826;
   (-412); 5102; (-5588); 5845; 4963; 3744; 2528; 3056; (-5676); (-1417); 4505; 2257; (-4883); 3975; 5835; 3087;
   1327; (-3607); 5232; (-3942); 4924; (-4781); 448; (-1014); (-2717); 60; (-1535); 3200; 68; 2260; (-4566); 5836;
   (-1518); 3765; 5063; 4176; 4267; (-5653); 2275; (-2461); 1756; 4145; 3534; 3961; (-3495); 4564; (-2065); 5826;
   1131; 1445; (-1125); (-4860); 5734; 1176; (-5508); 1275; 3889; 579; (-5596); (-5987); 3114; (-2769); (-5966); (-212);
   (-1620); 375; (-377); (-4578); 425; 1836; 2185; (-392); (-6092); (-2231); 2800; (-193); (-4167); 6085; (-1038); 923;
   (-2776); (-1178); 3511; (-5478); 1942; (-3408); 1165; 2575; 3276; 3338; 2674; (-2212); 506; (-1255); (-5784); (-1392);
   (-3344); (-5598); 1892; (-3624); 1029; (-1945); 5724; (-1325); 5115; (-4939); 2442; (-1248); (-3959); (-5797); 5959; 2148;
   5163; 4608; 5002; (-20); (-2151); 1522; (-4119); 3343; (-338); 3947; 2455; 5690; 3654; (-2894); (-1744); 1314;
   (-1804); (-1403); (-6094); (-5189); 1687; 406; (-146); 5268; (-2900); (-239); 994; (-4554); 5464; (-4906); 4670; 512;
   2947; (-3982); 5609; 636; 4499; 5672; (-1737); (-622); 3375; 2291; (-4335); 3393; 4235; (-3825); (-3528); 4913;
   (-204); 5509; 1409; (-5219); 4605; 2689; (-180); 4138; (-3407); (-463); (-1468); 3981; (-1344); 3042; 2054; 2483;
   4475; (-5246); (-3017); (-1236); 4705; 3121; 1057; 2600; (-1226); 5518; 4251; (-4739); (-5216); 3028; 364; (-2360);
   5526; 769; (-216); 50; (-767); (-3805); 4153; (-2213); 845; (-3723); 7; (-1936); 3154; (-5054); 4360; (-3285);
   5646; (-6086); (-6105); 3120; 3753; (-3941); 3536; (-5370); 3572; (-1282); (-2021); (-2832); (-4730); (-3229); 1706; 3929;
   2941; (-567); 5289; (-5662); 4273; 3221; 2595; 3837; 5082; (-4590); 682; 980; (-5202); (-844); 5207; (-4050);
   4099; 3944; 5604; 5530; (-1265); (-3007); 2171; 3480; (-4855); (-3769); 3232; (-293); (-2633); 1406; 2945; 5349;
   (-5043); 826; 1398; 3090; (-5618); (-1658); 3502; 5789; 3065; (-1506); (-4483); 5703; 751; 4719; (-910); 5900;
   2373; (-4987); 3670; (-3808); 3360; 4684; (-5135); (-63); (-5368); (-578); 450; 1944; 2622; (-5386); 4661; (-510);
   (-5039); (-5547); (-2485); (-904); (-1371); (-24); 614; (-1280); 1927; (-1015); 365; (-881); 2946; (-5461); (-2637); (-4510);
   (-2293); 417; 4693; (-2338); (-4443); 3418; (-3469); (-6138); (-5103); (-1891); (-1802); 1555; 4411; (-1590); (-2334); 1223;
   3317; 2532; (-3332); (-139); (-2046); (-2940); 1481; 2957; (-3578); 4697; 1701; (-3466); 4504; 778; 2626; 530;
   (-4390); (-4218); 3454; (-3758); 2593; 879; (-982); (-2276); (-4523); (-4301); 457; 8; 5776; 1849; (-3268); (-3795);
   1901; (-2602); (-5118); 502; 6063; (-3793); 3846; (-1573); 6026; 2929; 5969; 4649; 1681; 3821; (-466); (-1030);
   648; (-150); (-2307); 4289; (-170); (-5650); (-874); (-2301); (-21); 5808; (-1120); 2535; (-791); (-2434); 2873; (-2827);
   3451; 4094; (-4378); 1241; (-1095); 2643; 3045; 5781; (-4834); 2712; 4352; (-2828); (-1842); 3840; 72; (-4113);
   (-944); 4770; (-5287); (-3669); 5406; (-4665); 5673; (-3020); (-1790); (-5275); (-1251); 5410; (-1882); 6125; 2035; (-1040);
   4423; 3869; (-1694); 1530; (-1350); (-5832); 1734; (-3815); 1279; (-865); 2672; (-5170); 3116; 189; (-1763); (-2209);
   (-4194); 3019; (-2478); (-2840); 1783; (-5078); 4974; (-4565); 1160; (-4820); 4518; (-3094); 2730; (-5411); (-1868); 2253;
   4435; (-2961); (-1054); 1837; (-898); (-930); 5359; (-444); (-2135); 608; 4927; (-344); (-2588); (-5773); 5345; 3428;
   (-5903); (-5347); 591; 1570; 2952; 3413; (-2317); 1788; 1955; 3530; (-2238); (-4261); (-4192); 5977; 1725; (-4837);
   (-3286); (-5839); 889; (-92); (-4979); (-2830); 715; 631; 903; (-3964); (-996); 1596; (-2854); (-5939); (-649); (-1329);
   (-1049); (-3057); 1402; (-3283); 1451; (-4546); (-4540); (-4866); (-2640); 3342; (-5621); (-6095); (-1128); 2992; 1285; (-4280);
   3725; 3803; 6139; (-1990); 1033; 3971; 1841; (-5319); 3236; 5623; 4637; 861; (-5097); (-5306); (-1482); (-4436);
   (-1051); (-6015); (-2801); (-1286); 5472; (-5363); (-3096); 4813; (-2071); (-3048); 4244; (-2803); 3919; (-4207); (-3996); 925;
   (-3993); 5362; (-4047); (-770); (-2935); (-2848); (-4969); (-329); (-724); (-1653); 2350; (-2137); 5500; (-818); (-5699); 1433;
   (-5841); 328; (-4295); 1108; 1191; 4162; 2075; (-3325); (-3395); 4996; (-828); 4288; (-892); (-4345); 5679; 5854;
   (-3727); 5528; 1947; 3987; 2988; (-4788); (-397); 2709; (-2667); 276; 5228; 2431; (-2145); (-1893); (-3799); (-2648);
   3384; 3313; (-3855); 551; 4574; 5996; 2263; 4369; (-4206); (-2440); (-3118); (-3147); 1331; 2309; 1349; 4353;
   287; (-5642); (-5175); 2222; (-5575); 494; 1699; 5865; (-1773); (-4710); 3752; (-5420); (-5338); (-5364); 2050; (-3433);
   3162; (-5511); (-3406); 1016; (-3788); 1332; 2790; (-2694); (-2492); 1032; (-1824); 5884; (-3746); 2005; 5030; 4525;
   (-4211); 2454; 4808; (-4299); 5239; (-5878); 4959; (-2172); (-148); 2310; (-3797); 310; 2618; 987; (-3745); 3484;
   2676; 746; (-4748); (-5273); 2484; (-575); (-2699); 2104; 596; (-3324); (-984); (-5234); 6064; (-2314); (-197); 3573;
   532; 332; (-301); (-2775); (-443); (-3880); (-3145); 6076; (-3886); 3858; 5756; (-3153); (-3001); (-2150); 3800; 4127;
   (-6128); 5970; 880; (-1114); (-5523); 3668; 376; 3099; (-1622); (-2583); (-4580); (-2581); 4446; 1019; 3629; (-3002);
   4384; (-4656); (-3774); (-2540); (-2819); (-3330); 5314; (-5554); (-6059); (-2580); 4560; (-2421); (-2924); 1132; (-286); (-5168);
   (-1712); (-514); 2909; 1261; 1056; 1121; (-5125); 2438; (-4496); (-1235); 1897; 3771; (-5496); (-5555); 1816; (-5427);
   523; (-690); (-781); 67; (-782); (-1412); 3353; (-5669); 4819; (-319); (-5152); (-628); 1277; (-3823); (-1531); (-3173);
   (-1774); 6100; (-4494); 1723; 2817; 372; 2772; (-4738); 854; (-2701); 487; (-4778); 3493; 4767; (-2138); (-3829);
   3031; (-2636); (-2200); 2785; (-4626); 3119; (-940); (-1603); 4055; 313; (-839); 308; 1174; 3597; (-2928); (-4784);
   (-2574); 2644; (-2101); 1738; 1358; 5375; 2789; (-4173); (-5037); (-2589); 1718; (-2901); (-5392); 793; (-830); 1330;
   370; (-5775); 3348; (-775); 5744; 3677; 3218; 3579; 5336; 2406; 6036; 5430; 269; 4603; (-6135); (-4383);
   (-1490); (-3979); 2460; 796; (-2871); 5785; (-5652); (-2788); 6079; (-4707); 603; (-5260); (-419); (-5251); (-1865); (-5599);
   (-3831); (-820); 4593; (-2770); 3167; 1884; 957; 2168; 2343; (-201); 2070; 1569; 2230; 4718; 4236; (-2346);
   1810; (-2012); (-5875); (-802); (-1461); 2045; (-4186); 2562; 1193; (-5169); (-6011); (-5322); 3973; 1925; (-1116); (-3838);
   4199; 4376; (-5448); 3992; (-5691); 976; 3705; (-1199); 3562; (-3783); 1542; (-5136); 3086; 4975; (-3363); 3168;
   (-967); (-4669); 1679; 863; (-3653); 4373; (-2299); 3832; (-1391); (-5026); (-4549); (-5888); 858; 3215; (-3396); 3517;
   (-807); (-1520); 6116; 860; (-5819); (-4001); 5071; 3719; 2245; 2325; 5036; 1110; 2635; 1552; 1258; 4943;
   1257; 3464; 5595; 4508; (-1809); 3491; 1832; 5948; 4909; (-2388); (-352); (-4470); 4667; (-3925); (-5066); 3676;
   3887; (-2379); 2490; (-3990); (-5154); (-3586); (-4522); (-2822); (-5986); (-5214); 4357; 4567; 3922; 230; (-3836); 4074;
   (-5689); 3934; (-4381); (-3196); 2820; 4809; 2932; (-1589); 2517; (-924); (-939); (-124); (-3505); 2063; 1498; 3522;
   (-2677); (-2225); (-3498); 127; 5671; (-5978); 3421; (-3409); 5833; 129; (-228); (-5409); 2604; 4859; 3701; 5174;
   (-4830); (-3661); 469; 5467; 2405; 5474; (-2816); 1107; (-2233); 3134; (-4396); (-803); (-2183); 3350; 2367; (-1572);
   4275; (-6110); (-5491); 1840; 1268; (-4845); (-2011); (-331); (-5771); 5546; (-4658); 4947; (-4365); (-4110); 691; 2002;
   (-3598); (-305); (-3462); 4215; (-4442); 4897; 4777; (-992); 3644; (-5395); 1819; (-990); (-2018); 1605; (-1122); (-423);
   (-766); (-2326); 110; 2933; 3918; (-5686); 47; (-4221); (-3275); (-1859); 5572; (-4931); 3628; (-4481); 5062; 2697;
   (-3558); (-2590); (-5425); 1142; 1161; (-3341); 475; 2052; 4553; (-485); 1143; (-5385); (-4646); (-1883); (-6103); 6078;
   6126; 3361; (-5083); 3111; (-2745); (-4485); 1068; (-5709); 2191; (-3807); 2156; 5873; 601; 4071; 3379; (-4082);
   (-6070); 5729; (-123); 2418; 758; 2783; (-4633); 5055; (-5834); (-1608); 4271; 263; 5551; 877; (-2979); 5810;
   806; 41; (-2073); (-6006); 1685; (-2552); (-4349); (-5024); 4184; (-5520); 6041; 536; 6033; 993; 2246; 3804;
   6054; (-4815); 3366; 1269; (-5457); 2970; 3896; (-1357); (-1903); (-356); 915; 1495; (-2042); 2976; (-2402); (-1037);
   (-5740); 2239; 5188; 4716; 899; 2409; 2887; 5590; (-1407); (-4112); (-1306); (-2201); (-3841); (-3321); (-4133); (-5074);
   (-1795); (-381); (-5614); 4258; 2026; (-2062); 5645; 4724; 684; 3938; (-387); 5210; 1186; (-3233); (-2288); (-4477);
   (-1803); 76; 2152; (-43); 5821; (-5330); (-868); (-5716); 2960; 2956; 2206; 6089; (-3204); 4838; 1166; 4054;
   (-4364); (-2631); (-3352); (-5141); (-524); (-789); 4824; (-5213); 369; 5035; (-4898); (-5921); 1610; (-2876); 3940; 2274;
   1649; 5649; 6020; (-5945); (-3429); 3866; 1455; 1370; 3986; (-3426); (-4519); 1615; (-1425); 6133; (-2266); 3483;
   (-330); 3490; (-5311); (-2298); (-141); 374; 4769; (-535); (-4427); 2504; 5577; 2464; (-2897); 4198; 1154; (-1405);
   (-1657); (-5192); 1746; 1644; (-5065); 5155; 4321; 479; (-1710); 2444; (-5177); (-736); (-2965); 1938; 5720; 5048;
   (-2627); (-2009); 3265; (-642); 3458; 2158; 4188; 396; 3897; 122; (-1073); (-1686); (-681); 499; 547; (-2061);
   1829; 1511; 3331; (-1340); 3351; 3662; (-5615); 2779; 1932; (-5909); 4728; 271; (-962); 2726; 6042; 2015;
   (-1387); 890; 3857; 2407; 5105; 4849; 6005; (-3552); (-4791); 4864; 2549; (-2752); 3874; 2972; 5893; 2846;
   825; 3564; (-5156); 5745; (-5792); (-935); (-5778); (-4807); 4923; 6029; 4491; 6129; 1098; 1794; (-2885); (-2632);
   2324; (-3724); 5153; 2107; (-2582); 3101; 5665; (-2563); 2428; 2624; 2507; (-3425); (-2761); (-3571); 4311; (-2022);
   4889; 4899; (-5515); 3211; (-4279); 194; (-2915); 2154; 3881; 1036; 2170; 2001; (-5380); (-6037); (-190); 1637;
   5222; 5846; (-44); (-3631); (-4025); (-5099); 2439; (-5685); 1310; (-4172); 229; (-5401); (-3909); (-5581); 433; 1379;
   2886; 4111; (-5837); (-6045); (-1895); (-813); 5438; 5796; 2296; 4020; (-4533); 5487; 4556; 3952; 1303; (-2236);
   667; 3373; (-5390); 3751; 4642; (-4033); (-2303); (-2084); 718; 5068; (-2670); (-4161); (-5726); (-1633); (-2258); 3026;
   2043; (-1497); (-1641); (-6106); 3219; 5058; (-366); (-598); 2494; 1926; 6027; 4408; (-275); (-1188); 5815; (-1915);
   (-5238); (-4932); 3287; (-4971); (-674); (-1437); (-3176); (-2906); 3242; 2208; 4957; (-5130); (-4871); (-2855); (-5814); 3394;
   3851; 5822; 570; (-4911); 5779; (-6003); (-3108); (-646); 4256; 2656; (-2408); 2378; (-3544); 5827; (-582); (-548);
   (-562); 4454; (-1299); (-4137); (-687); 3914; 227; 3930; 132; (-1396); (-5249); 3377; 4972; 4766; 3008; 214;
   (-4006); (-1576); (-644); 6066; 4768; (-2014); 4417; (-5005); (-3170); 5968; (-1117); (-5317); (-4706); (-4600); 2986; 4543;
   3179; (-4946); 1597; 2475; 5045; 2132; 2805; (-5087); (-1184); (-6098); (-5798); 2480; (-3634); (-4393); (-5382); 3294].

(** ** src/test_ntt_tables.c *)

(** test_ntt_tables.c 18-21 *)
Definition psi_powers_ntt16_12289 : list Z := [
   1; 1212; 6553; 3542; 4043; 9094; 10984; 3621; 1479; 10643; 8155; 3504; 7143; 5860; 11567; 9744].

(** test_ntt_tables.c 24-27 *)
Definition shoup_ntt16_12289 : list Z := [
   0; 1; 1; 1479; 1; 4043; 1479; 7143; 1; 6553; 4043; 10984; 1479; 8155; 7143; 11567].

(** test_ntt_tables.c 31-34 *)
Definition rev_shoup_ntt16_12289 : list Z := [
   0; 1; 1; 1479; 1; 1479; 4043; 7143; 1; 1479; 4043; 7143; 6553; 8155; 10984; 11567].

(** test_ntt_tables.c 38-41 *)
Definition shoup_scaled_ntt16_12289 : list Z := [
   0; 1479; 4043; 7143; 6553; 10984; 8155; 11567; 1212; 3542; 9094; 3621; 10643; 3504; 5860; 9744].

(** test_ntt_tables.c 46-49 *)
Definition rev_shoup_scaled_ntt16_12289 : list Z := [
   0; 1479; 4043; 7143; 6553; 8155; 10984; 11567; 1212; 10643; 9094; 5860; 3542; 3504; 3621; 9744].

(** test_ntt_tables.c 60-93 *)
Definition psi_powers_ntt256_12289 : list Z := [
   1; 1002; 8595; 9890; 4846; 1537; 3949; 12129; 11726; 1168; 2881; 11136; 12149; 7188; 1022; 4057;
   9744; 6022; 145; 10111; 5086; 8526; 2197; 1663; 7311; 1378; 4388; 9603; 12208; 4861; 4278; 9984;
   722; 10682; 11934; 671; 8736; 3704; 130; 7370; 11340; 7644; 3241; 3186; 9521; 3778; 544; 4372;
   5860; 9867; 6378; 476; 9970; 11272; 953; 8653; 6561; 11796; 9863; 2370; 2963; 7277; 4177; 7094;
   5146; 7201; 1759; 5191; 3135; 7575; 7837; 3; 3006; 1207; 5092; 2249; 4611; 11847; 11809; 10600;
   3504; 8643; 8830; 11869; 9275; 3066; 12171; 4654; 5777; 435; 5755; 2969; 1000; 6591; 4989; 9644;
   4134; 875; 4231; 12046; 2294; 545; 5374; 2166; 7468; 11224; 2013; 1630; 11112; 390; 9821; 9442;
   10643; 9723; 9558; 3985; 11334; 1632; 827; 5291; 5023; 6845; 1428; 5332; 9238; 2859; 1381; 7394;
   10810; 5011; 7110; 8889; 9542; 242; 8993; 3149; 9314; 5277; 3284; 9405; 10436; 11222; 9; 9018;
   3621; 2987; 6747; 1544; 10963; 10849; 7222; 10512; 1351; 1912; 11029; 3247; 9198; 11935; 1673; 5042;
   1305; 4976; 8907; 3000; 7484; 2678; 4354; 113; 2625; 404; 11560; 6882; 1635; 3833; 6498; 10115;
   9094; 6039; 4890; 8758; 1170; 4885; 3748; 7351; 4591; 4096; 11955; 9424; 4896; 2481; 3584; 2780;
   8246; 4284; 3707; 3136; 8577; 4143; 9893; 7852; 2744; 9041; 2089; 4048; 726; 2401; 9447; 3364;
   3542; 9852; 3637; 6730; 9088; 27; 2476; 10863; 8961; 7952; 4632; 8311; 7969; 9377; 6958; 4053;
   5736; 8509; 9741; 3016; 11227; 5019; 2837; 3915; 2639; 2143; 9000; 10163; 8034; 773; 339; 7875;
   1212; 10102; 8357; 4905; 11499; 7205; 5767; 2704; 5828; 2381; 1696; 3510; 2366; 11244; 9764; 1484].

(** test_ntt_tables.c 95-128 *)
Definition shoup_ntt256_12289 : list Z := [
   0; 1; 1; 10810; 1; 5146; 10810; 8246; 1; 722; 5146; 4134; 10810; 1305; 8246; 5736;
   1; 9744; 722; 5860; 5146; 3504; 4134; 10643; 10810; 3621; 1305; 9094; 8246; 3542; 5736; 1212;
   1; 11726; 9744; 7311; 722; 11340; 5860; 6561; 5146; 3006; 3504; 5777; 4134; 7468; 10643; 5023;
   10810; 9314; 3621; 1351; 1305; 2625; 9094; 4591; 8246; 2744; 3542; 8961; 5736; 2639; 1212; 5828;
   1; 4846; 11726; 12149; 9744; 5086; 7311; 12208; 722; 8736; 11340; 9521; 5860; 9970; 6561; 2963;
   5146; 3135; 3006; 4611; 3504; 9275; 5777; 1000; 4134; 2294; 7468; 11112; 10643; 11334; 5023; 9238;
   10810; 9542; 9314; 10436; 3621; 10963; 1351; 9198; 1305; 7484; 2625; 1635; 9094; 1170; 4591; 4896;
   8246; 8577; 2744; 726; 3542; 9088; 8961; 7969; 5736; 11227; 2639; 8034; 1212; 11499; 5828; 2366;
   1; 8595; 4846; 3949; 11726; 2881; 12149; 1022; 9744; 145; 5086; 2197; 7311; 4388; 12208; 4278;
   722; 11934; 8736; 130; 11340; 3241; 9521; 544; 5860; 6378; 9970; 953; 6561; 9863; 2963; 4177;
   5146; 1759; 3135; 7837; 3006; 5092; 4611; 11809; 3504; 8830; 9275; 12171; 5777; 5755; 1000; 4989;
   4134; 4231; 2294; 5374; 7468; 2013; 11112; 9821; 10643; 9558; 11334; 827; 5023; 1428; 9238; 1381;
   10810; 7110; 9542; 8993; 9314; 3284; 10436; 9; 3621; 6747; 10963; 7222; 1351; 11029; 9198; 1673;
   1305; 8907; 7484; 4354; 2625; 11560; 1635; 6498; 9094; 4890; 1170; 3748; 4591; 11955; 4896; 3584;
   8246; 3707; 8577; 9893; 2744; 2089; 726; 9447; 3542; 3637; 9088; 2476; 8961; 4632; 7969; 6958;
   5736; 9741; 11227; 2837; 2639; 9000; 8034; 339; 1212; 8357; 11499; 5767; 5828; 1696; 2366; 9764].

(** test_ntt_tables.c 130-163 *)
Definition rev_shoup_ntt256_12289 : list Z := [
   0; 1; 1; 10810; 1; 10810; 5146; 8246; 1; 10810; 5146; 8246; 722; 1305; 4134; 5736;
   1; 10810; 5146; 8246; 722; 1305; 4134; 5736; 9744; 3621; 3504; 3542; 5860; 9094; 10643; 1212;
   1; 10810; 5146; 8246; 722; 1305; 4134; 5736; 9744; 3621; 3504; 3542; 5860; 9094; 10643; 1212;
   11726; 9314; 3006; 2744; 11340; 2625; 7468; 2639; 7311; 1351; 5777; 8961; 6561; 4591; 5023; 5828;
   1; 10810; 5146; 8246; 722; 1305; 4134; 5736; 9744; 3621; 3504; 3542; 5860; 9094; 10643; 1212;
   11726; 9314; 3006; 2744; 11340; 2625; 7468; 2639; 7311; 1351; 5777; 8961; 6561; 4591; 5023; 5828;
   4846; 9542; 3135; 8577; 8736; 7484; 2294; 11227; 5086; 10963; 9275; 9088; 9970; 1170; 11334; 11499;
   12149; 10436; 4611; 726; 9521; 1635; 11112; 8034; 12208; 9198; 1000; 7969; 2963; 4896; 9238; 2366;
   1; 10810; 5146; 8246; 722; 1305; 4134; 5736; 9744; 3621; 3504; 3542; 5860; 9094; 10643; 1212;
   11726; 9314; 3006; 2744; 11340; 2625; 7468; 2639; 7311; 1351; 5777; 8961; 6561; 4591; 5023; 5828;
   4846; 9542; 3135; 8577; 8736; 7484; 2294; 11227; 5086; 10963; 9275; 9088; 9970; 1170; 11334; 11499;
   12149; 10436; 4611; 726; 9521; 1635; 11112; 8034; 12208; 9198; 1000; 7969; 2963; 4896; 9238; 2366;
   8595; 7110; 1759; 3707; 11934; 8907; 4231; 9741; 145; 6747; 8830; 3637; 6378; 4890; 9558; 8357;
   2881; 3284; 5092; 2089; 3241; 11560; 2013; 9000; 4388; 11029; 5755; 4632; 9863; 11955; 1428; 1696;
   3949; 8993; 7837; 9893; 130; 4354; 5374; 2837; 2197; 7222; 12171; 2476; 953; 3748; 827; 5767;
   1022; 9; 11809; 9447; 544; 6498; 9821; 339; 4278; 1673; 4989; 6958; 4177; 3584; 1381; 9764].

(** test_ntt_tables.c 165-198 *)
Definition shoup_scaled_ntt256_12289 : list Z := [
   0; 10810; 5146; 8246; 722; 4134; 1305; 5736; 9744; 5860; 3504; 10643; 3621; 9094; 3542; 1212;
   11726; 7311; 11340; 6561; 3006; 5777; 7468; 5023; 9314; 1351; 2625; 4591; 2744; 8961; 2639; 5828;
   4846; 12149; 5086; 12208; 8736; 9521; 9970; 2963; 3135; 4611; 9275; 1000; 2294; 11112; 11334; 9238;
   9542; 10436; 10963; 9198; 7484; 1635; 1170; 4896; 8577; 726; 9088; 7969; 11227; 8034; 11499; 2366;
   8595; 3949; 2881; 1022; 145; 2197; 4388; 4278; 11934; 130; 3241; 544; 6378; 953; 9863; 4177;
   1759; 7837; 5092; 11809; 8830; 12171; 5755; 4989; 4231; 5374; 2013; 9821; 9558; 827; 1428; 1381;
   7110; 8993; 3284; 9; 6747; 7222; 11029; 1673; 8907; 4354; 11560; 6498; 4890; 3748; 11955; 3584;
   3707; 9893; 2089; 9447; 3637; 2476; 4632; 6958; 9741; 2837; 9000; 339; 8357; 5767; 1696; 9764;
   1002; 9890; 1537; 12129; 1168; 11136; 7188; 4057; 6022; 10111; 8526; 1663; 1378; 9603; 4861; 9984;
   10682; 671; 3704; 7370; 7644; 3186; 3778; 4372; 9867; 476; 11272; 8653; 11796; 2370; 7277; 7094;
   7201; 5191; 7575; 3; 1207; 2249; 11847; 10600; 8643; 11869; 3066; 4654; 435; 2969; 6591; 9644;
   875; 12046; 545; 2166; 11224; 1630; 390; 9442; 9723; 3985; 1632; 5291; 6845; 5332; 2859; 7394;
   5011; 8889; 242; 3149; 5277; 9405; 11222; 9018; 2987; 1544; 10849; 10512; 1912; 3247; 11935; 5042;
   4976; 3000; 2678; 113; 404; 6882; 3833; 10115; 6039; 8758; 4885; 7351; 4096; 9424; 2481; 2780;
   4284; 3136; 4143; 7852; 9041; 4048; 2401; 3364; 9852; 6730; 27; 10863; 7952; 8311; 9377; 4053;
   8509; 3016; 5019; 3915; 2143; 10163; 773; 7875; 10102; 4905; 7205; 2704; 2381; 3510; 11244; 1484].

(** test_ntt_tables.c 200-233 *)
Definition rev_shoup_scaled_ntt256_12289 : list Z := [
   0; 10810; 5146; 8246; 722; 1305; 4134; 5736; 9744; 3621; 3504; 3542; 5860; 9094; 10643; 1212;
   11726; 9314; 3006; 2744; 11340; 2625; 7468; 2639; 7311; 1351; 5777; 8961; 6561; 4591; 5023; 5828;
   4846; 9542; 3135; 8577; 8736; 7484; 2294; 11227; 5086; 10963; 9275; 9088; 9970; 1170; 11334; 11499;
   12149; 10436; 4611; 726; 9521; 1635; 11112; 8034; 12208; 9198; 1000; 7969; 2963; 4896; 9238; 2366;
   8595; 7110; 1759; 3707; 11934; 8907; 4231; 9741; 145; 6747; 8830; 3637; 6378; 4890; 9558; 8357;
   2881; 3284; 5092; 2089; 3241; 11560; 2013; 9000; 4388; 11029; 5755; 4632; 9863; 11955; 1428; 1696;
   3949; 8993; 7837; 9893; 130; 4354; 5374; 2837; 2197; 7222; 12171; 2476; 953; 3748; 827; 5767;
   1022; 9; 11809; 9447; 544; 6498; 9821; 339; 4278; 1673; 4989; 6958; 4177; 3584; 1381; 9764;
   1002; 5011; 7201; 4284; 10682; 4976; 875; 8509; 6022; 2987; 8643; 9852; 9867; 6039; 9723; 10102;
   1168; 5277; 1207; 9041; 7644; 404; 11224; 2143; 1378; 1912; 435; 7952; 11796; 4096; 6845; 2381;
   1537; 242; 7575; 4143; 3704; 2678; 545; 5019; 8526; 10849; 3066; 27; 11272; 4885; 1632; 7205;
   7188; 11222; 11847; 2401; 3778; 3833; 390; 773; 4861; 11935; 6591; 9377; 7277; 2481; 2859; 11244;
   9890; 8889; 5191; 3136; 671; 3000; 12046; 3016; 10111; 1544; 11869; 6730; 476; 8758; 3985; 4905;
   11136; 9405; 2249; 4048; 3186; 6882; 1630; 10163; 9603; 3247; 2969; 8311; 2370; 9424; 5332; 3510;
   12129; 3149; 3; 7852; 7370; 113; 2166; 3915; 1663; 10512; 4654; 10863; 8653; 7351; 5291; 2704;
   4057; 9018; 10600; 3364; 4372; 10115; 9442; 7875; 9984; 5042; 9644; 4053; 7094; 2780; 7394; 1484].

(** test_ntt_tables.c 244-309 *)
Definition psi_powers_ntt512_12289 : list Z := [
   1; 1003; 10600; 1815; 1673; 6715; 773; 1112; 9326; 2049; 2884; 4737; 7657; 11635; 7644; 10885;
   5023; 11868; 7852; 10596; 10092; 8429; 11744; 6370; 11119; 6234; 9890; 2447; 8830; 8410; 4976; 1594;
   1212; 11314; 5195; 49; 12280; 3262; 2912; 8243; 9521; 1010; 5332; 2281; 2089; 6137; 10911; 6523;
   4821; 5886; 4938; 347; 3949; 3789; 3066; 2948; 7484; 10162; 4905; 4115; 10530; 5339; 9302; 2555;
   6553; 10333; 4372; 10232; 1381; 8775; 2401; 11848; 81; 7509; 10659; 11836; 334; 3199; 1168; 4049;
   5777; 6212; 113; 2738; 5767; 8471; 4714; 9166; 1326; 2766; 9273; 10335; 6378; 6854; 5011; 12121;
   3542; 1105; 2305; 1583; 2468; 5315; 9808; 6224; 12149; 7048; 2969; 3969; 11560; 6153; 2381; 4077;
   9283; 8076; 1777; 426; 9452; 5537; 11272; 12225; 9542; 9784; 6730; 3529; 355; 11973; 2566; 5297;
   4043; 12048; 4057; 1512; 4989; 2344; 3833; 10331; 2366; 1321; 10040; 5429; 1260; 10302; 10146; 1146;
   6561; 6068; 3149; 174; 2476; 1050; 8585; 8455; 955; 11612; 9153; 576; 145; 10256; 875; 5106;
   9094; 2844; 1484; 1483; 480; 2169; 354; 10970; 4255; 3482; 2370; 5333; 3284; 400; 7952; 295;
   949; 5594; 6998; 1975; 2396; 6833; 8526; 10723; 2294; 2839; 8758; 9928; 3694; 6093; 3646; 7105;
   10984; 6008; 4414; 3202; 4177; 11271; 11222; 11231; 7969; 5057; 9103; 11871; 10861; 5529; 3248; 1159;
   7311; 8689; 2166; 9634; 3748; 11099; 10752; 6803; 3014; 12237; 9289; 1805; 3932; 11316; 7201; 8960;
   3621; 6608; 4053; 9789; 11745; 7373; 9430; 8049; 11563; 9162; 9603; 9522; 2013; 3643; 4096; 3762;
   563; 11684; 7635; 1858; 7935; 7822; 5084; 11606; 3135; 10710; 1544; 218; 9741; 468; 2422; 8333;
   1479; 8757; 8925; 5383; 4278; 1973; 390; 10211; 4896; 7377; 1153; 1293; 6534; 3565; 11885; 325;
   6461; 4080; 3; 3009; 7222; 5445; 5019; 7856; 2319; 3336; 3400; 6147; 8652; 1922; 10682; 10327;
   10643; 8077; 2780; 11026; 11267; 7210; 5698; 709; 10654; 6821; 8779; 6413; 5092; 7341; 1912; 652;
   2639; 4782; 3636; 9364; 3296; 147; 12262; 9786; 8736; 151; 3985; 3030; 3707; 6843; 6267; 6122;
   8155; 7280; 2174; 5369; 2525; 1041; 11847; 11367; 9198; 8844; 10163; 5908; 2426; 56; 7012; 3728;
   3328; 7665; 7370; 6421; 827; 6118; 4143; 1747; 7203; 10966; 243; 10238; 7399; 10930; 1002; 9597;
   3504; 12147; 5042; 6347; 339; 8214; 5012; 835; 1853; 2920; 3978; 8298; 3241; 6427; 6845; 8273;
   2744; 11785; 10626; 3315; 6915; 4749; 7404; 3656; 4846; 6383; 11869; 8855; 8907; 11907; 10102; 6170;
   7143; 12231; 3271; 11939; 5331; 1278; 3778; 4322; 9238; 12097; 4048; 4774; 7901; 10587; 1065; 11341;
   7698; 3602; 12129; 11566; 12171; 4536; 2678; 7032; 11499; 6415; 7098; 3963; 5542; 3998; 3780; 6328;
   5860; 3438; 7394; 5915; 9447; 522; 7428; 3150; 1177; 787; 2865; 10258; 2881; 1728; 435; 6190;
   2625; 3029; 2704; 8532; 4452; 4449; 1440; 6507; 1062; 8332; 476; 10446; 7110; 3710; 9852; 1200;
   11567; 885; 2847; 4493; 8705; 5925; 7188; 8210; 1000; 7591; 6882; 8517; 1696; 5206; 11082; 5990;
   10938; 9026; 8374; 5735; 953; 9606; 242; 9235; 9088; 9115; 11618; 2882; 2731; 11035; 8005; 4298;
   9744; 3477; 9644; 1489; 6498; 4324; 11244; 8719; 7678; 8120; 9042; 12133; 3289; 5415; 11796; 9370;
   9314; 2302; 10863; 7535; 12159; 4789; 10657; 9830; 3712; 11858; 10111; 2908; 4231; 3988; 6039; 10929].

(** test_ntt_tables.c 311-376 *)
Definition shoup_ntt512_12289 : list Z := [
   0; 1; 1; 1479; 1; 4043; 1479; 7143; 1; 6553; 4043; 10984; 1479; 8155; 7143; 11567;
   1; 1212; 6553; 3542; 4043; 9094; 10984; 3621; 1479; 10643; 8155; 3504; 7143; 5860; 11567; 9744;
   1; 5023; 1212; 4821; 6553; 5777; 3542; 9283; 4043; 6561; 9094; 949; 10984; 7311; 3621; 563;
   1479; 6461; 10643; 2639; 8155; 3328; 3504; 2744; 7143; 7698; 5860; 2625; 11567; 10938; 9744; 9314;
   1; 9326; 5023; 11119; 1212; 9521; 4821; 7484; 6553; 81; 5777; 1326; 3542; 12149; 9283; 9542;
   4043; 2366; 6561; 955; 9094; 4255; 949; 2294; 10984; 7969; 7311; 3014; 3621; 11563; 563; 3135;
   1479; 4896; 6461; 2319; 10643; 10654; 2639; 8736; 8155; 9198; 3328; 7203; 3504; 1853; 2744; 4846;
   7143; 9238; 7698; 11499; 5860; 1177; 2625; 1062; 11567; 1000; 10938; 9088; 9744; 7678; 9314; 3712;
   1; 1673; 9326; 7657; 5023; 10092; 11119; 8830; 1212; 12280; 9521; 2089; 4821; 3949; 7484; 10530;
   6553; 1381; 81; 334; 5777; 5767; 1326; 6378; 3542; 2468; 12149; 11560; 9283; 9452; 9542; 355;
   4043; 4989; 2366; 1260; 6561; 2476; 955; 145; 9094; 480; 4255; 3284; 949; 2396; 2294; 3694;
   10984; 4177; 7969; 10861; 7311; 3748; 3014; 3932; 3621; 11745; 11563; 2013; 563; 7935; 3135; 9741;
   1479; 4278; 4896; 6534; 6461; 7222; 2319; 8652; 10643; 11267; 10654; 5092; 2639; 3296; 8736; 3707;
   8155; 2525; 9198; 2426; 3328; 827; 7203; 7399; 3504; 339; 1853; 3241; 2744; 6915; 4846; 8907;
   7143; 5331; 9238; 7901; 7698; 12171; 11499; 5542; 5860; 9447; 1177; 2881; 2625; 4452; 1062; 7110;
   11567; 8705; 1000; 1696; 10938; 953; 9088; 2731; 9744; 6498; 7678; 3289; 9314; 12159; 3712; 4231;
   1; 10600; 1673; 773; 9326; 2884; 7657; 7644; 5023; 7852; 10092; 11744; 11119; 9890; 8830; 4976;
   1212; 5195; 12280; 2912; 9521; 5332; 2089; 10911; 4821; 4938; 3949; 3066; 7484; 4905; 10530; 9302;
   6553; 4372; 1381; 2401; 81; 10659; 334; 1168; 5777; 113; 5767; 4714; 1326; 9273; 6378; 5011;
   3542; 2305; 2468; 9808; 12149; 2969; 11560; 2381; 9283; 1777; 9452; 11272; 9542; 6730; 355; 2566;
   4043; 4057; 4989; 3833; 2366; 10040; 1260; 10146; 6561; 3149; 2476; 8585; 955; 9153; 145; 875;
   9094; 1484; 480; 354; 4255; 2370; 3284; 7952; 949; 6998; 2396; 8526; 2294; 8758; 3694; 3646;
   10984; 4414; 4177; 11222; 7969; 9103; 10861; 3248; 7311; 2166; 3748; 10752; 3014; 9289; 3932; 7201;
   3621; 4053; 11745; 9430; 11563; 9603; 2013; 4096; 563; 7635; 7935; 5084; 3135; 1544; 9741; 2422;
   1479; 8925; 4278; 390; 4896; 1153; 6534; 11885; 6461; 3; 7222; 5019; 2319; 3400; 8652; 10682;
   10643; 2780; 11267; 5698; 10654; 8779; 5092; 1912; 2639; 3636; 3296; 12262; 8736; 3985; 3707; 6267;
   8155; 2174; 2525; 11847; 9198; 10163; 2426; 7012; 3328; 7370; 827; 4143; 7203; 243; 7399; 1002;
   3504; 5042; 339; 5012; 1853; 3978; 3241; 6845; 2744; 10626; 6915; 7404; 4846; 11869; 8907; 10102;
   7143; 3271; 5331; 3778; 9238; 4048; 7901; 1065; 7698; 12129; 12171; 2678; 11499; 7098; 5542; 3780;
   5860; 7394; 9447; 7428; 1177; 2865; 2881; 435; 2625; 2704; 4452; 1440; 1062; 476; 7110; 9852;
   11567; 2847; 8705; 7188; 1000; 6882; 1696; 11082; 10938; 8374; 953; 242; 9088; 11618; 2731; 8005;
   9744; 9644; 6498; 11244; 7678; 9042; 3289; 11796; 9314; 10863; 12159; 10657; 3712; 10111; 4231; 6039].

(** test_ntt_tables.c 378-443 *)
Definition rev_shoup_ntt512_12289 : list Z := [
   0; 1; 1; 1479; 1; 1479; 4043; 7143; 1; 1479; 4043; 7143; 6553; 8155; 10984; 11567;
   1; 1479; 4043; 7143; 6553; 8155; 10984; 11567; 1212; 10643; 9094; 5860; 3542; 3504; 3621; 9744;
   1; 1479; 4043; 7143; 6553; 8155; 10984; 11567; 1212; 10643; 9094; 5860; 3542; 3504; 3621; 9744;
   5023; 6461; 6561; 7698; 5777; 3328; 7311; 10938; 4821; 2639; 949; 2625; 9283; 2744; 563; 9314;
   1; 1479; 4043; 7143; 6553; 8155; 10984; 11567; 1212; 10643; 9094; 5860; 3542; 3504; 3621; 9744;
   5023; 6461; 6561; 7698; 5777; 3328; 7311; 10938; 4821; 2639; 949; 2625; 9283; 2744; 563; 9314;
   9326; 4896; 2366; 9238; 81; 9198; 7969; 1000; 9521; 10654; 4255; 1177; 12149; 1853; 11563; 7678;
   11119; 2319; 955; 11499; 1326; 7203; 3014; 9088; 7484; 8736; 2294; 1062; 9542; 4846; 3135; 3712;
   1; 1479; 4043; 7143; 6553; 8155; 10984; 11567; 1212; 10643; 9094; 5860; 3542; 3504; 3621; 9744;
   5023; 6461; 6561; 7698; 5777; 3328; 7311; 10938; 4821; 2639; 949; 2625; 9283; 2744; 563; 9314;
   9326; 4896; 2366; 9238; 81; 9198; 7969; 1000; 9521; 10654; 4255; 1177; 12149; 1853; 11563; 7678;
   11119; 2319; 955; 11499; 1326; 7203; 3014; 9088; 7484; 8736; 2294; 1062; 9542; 4846; 3135; 3712;
   1673; 4278; 4989; 5331; 1381; 2525; 4177; 8705; 12280; 11267; 480; 9447; 2468; 339; 11745; 6498;
   10092; 7222; 2476; 12171; 5767; 827; 3748; 953; 3949; 3296; 2396; 4452; 9452; 6915; 7935; 12159;
   7657; 6534; 1260; 7901; 334; 2426; 10861; 1696; 2089; 5092; 3284; 2881; 11560; 3241; 2013; 3289;
   8830; 8652; 145; 5542; 6378; 7399; 3932; 2731; 10530; 3707; 3694; 7110; 355; 8907; 9741; 4231;
   1; 1479; 4043; 7143; 6553; 8155; 10984; 11567; 1212; 10643; 9094; 5860; 3542; 3504; 3621; 9744;
   5023; 6461; 6561; 7698; 5777; 3328; 7311; 10938; 4821; 2639; 949; 2625; 9283; 2744; 563; 9314;
   9326; 4896; 2366; 9238; 81; 9198; 7969; 1000; 9521; 10654; 4255; 1177; 12149; 1853; 11563; 7678;
   11119; 2319; 955; 11499; 1326; 7203; 3014; 9088; 7484; 8736; 2294; 1062; 9542; 4846; 3135; 3712;
   1673; 4278; 4989; 5331; 1381; 2525; 4177; 8705; 12280; 11267; 480; 9447; 2468; 339; 11745; 6498;
   10092; 7222; 2476; 12171; 5767; 827; 3748; 953; 3949; 3296; 2396; 4452; 9452; 6915; 7935; 12159;
   7657; 6534; 1260; 7901; 334; 2426; 10861; 1696; 2089; 5092; 3284; 2881; 11560; 3241; 2013; 3289;
   8830; 8652; 145; 5542; 6378; 7399; 3932; 2731; 10530; 3707; 3694; 7110; 355; 8907; 9741; 4231;
   10600; 8925; 4057; 3271; 4372; 2174; 4414; 2847; 5195; 2780; 1484; 7394; 2305; 5042; 4053; 9644;
   7852; 3; 3149; 12129; 113; 7370; 2166; 8374; 4938; 3636; 6998; 2704; 1777; 10626; 7635; 10863;
   2884; 1153; 10040; 4048; 10659; 10163; 9103; 6882; 5332; 8779; 2370; 2865; 2969; 3978; 9603; 9042;
   9890; 3400; 9153; 7098; 9273; 243; 9289; 11618; 4905; 3985; 8758; 476; 6730; 11869; 1544; 10111;
   773; 390; 3833; 3778; 2401; 11847; 11222; 7188; 2912; 5698; 354; 7428; 9808; 5012; 9430; 11244;
   11744; 5019; 8585; 2678; 4714; 4143; 10752; 242; 3066; 12262; 8526; 1440; 11272; 7404; 5084; 10657;
   7644; 11885; 10146; 1065; 1168; 7012; 3248; 11082; 10911; 1912; 7952; 435; 2381; 6845; 4096; 11796;
   4976; 10682; 875; 3780; 5011; 1002; 7201; 8005; 9302; 6267; 3646; 9852; 2566; 10102; 2422; 6039].

(** test_ntt_tables.c 445-510 *)
Definition shoup_scaled_ntt512_12289 : list Z := [
   0; 1479; 4043; 7143; 6553; 10984; 8155; 11567; 1212; 3542; 9094; 3621; 10643; 3504; 5860; 9744;
   5023; 4821; 5777; 9283; 6561; 949; 7311; 563; 6461; 2639; 3328; 2744; 7698; 2625; 10938; 9314;
   9326; 11119; 9521; 7484; 81; 1326; 12149; 9542; 2366; 955; 4255; 2294; 7969; 3014; 11563; 3135;
   4896; 2319; 10654; 8736; 9198; 7203; 1853; 4846; 9238; 11499; 1177; 1062; 1000; 9088; 7678; 3712;
   1673; 7657; 10092; 8830; 12280; 2089; 3949; 10530; 1381; 334; 5767; 6378; 2468; 11560; 9452; 355;
   4989; 1260; 2476; 145; 480; 3284; 2396; 3694; 4177; 10861; 3748; 3932; 11745; 2013; 7935; 9741;
   4278; 6534; 7222; 8652; 11267; 5092; 3296; 3707; 2525; 2426; 827; 7399; 339; 3241; 6915; 8907;
   5331; 7901; 12171; 5542; 9447; 2881; 4452; 7110; 8705; 1696; 953; 2731; 6498; 3289; 12159; 4231;
   10600; 773; 2884; 7644; 7852; 11744; 9890; 4976; 5195; 2912; 5332; 10911; 4938; 3066; 4905; 9302;
   4372; 2401; 10659; 1168; 113; 4714; 9273; 5011; 2305; 9808; 2969; 2381; 1777; 11272; 6730; 2566;
   4057; 3833; 10040; 10146; 3149; 8585; 9153; 875; 1484; 354; 2370; 7952; 6998; 8526; 8758; 3646;
   4414; 11222; 9103; 3248; 2166; 10752; 9289; 7201; 4053; 9430; 9603; 4096; 7635; 5084; 1544; 2422;
   8925; 390; 1153; 11885; 3; 5019; 3400; 10682; 2780; 5698; 8779; 1912; 3636; 12262; 3985; 6267;
   2174; 11847; 10163; 7012; 7370; 4143; 243; 1002; 5042; 5012; 3978; 6845; 10626; 7404; 11869; 10102;
   3271; 3778; 4048; 1065; 12129; 2678; 7098; 3780; 7394; 7428; 2865; 435; 2704; 1440; 476; 9852;
   2847; 7188; 6882; 11082; 8374; 242; 11618; 8005; 9644; 11244; 9042; 11796; 10863; 10657; 10111; 6039;
   1003; 1815; 6715; 1112; 2049; 4737; 11635; 10885; 11868; 10596; 8429; 6370; 6234; 2447; 8410; 1594;
   11314; 49; 3262; 8243; 1010; 2281; 6137; 6523; 5886; 347; 3789; 2948; 10162; 4115; 5339; 2555;
   10333; 10232; 8775; 11848; 7509; 11836; 3199; 4049; 6212; 2738; 8471; 9166; 2766; 10335; 6854; 12121;
   1105; 1583; 5315; 6224; 7048; 3969; 6153; 4077; 8076; 426; 5537; 12225; 9784; 3529; 11973; 5297;
   12048; 1512; 2344; 10331; 1321; 5429; 10302; 1146; 6068; 174; 1050; 8455; 11612; 576; 10256; 5106;
   2844; 1483; 2169; 10970; 3482; 5333; 400; 295; 5594; 1975; 6833; 10723; 2839; 9928; 6093; 7105;
   6008; 3202; 11271; 11231; 5057; 11871; 5529; 1159; 8689; 9634; 11099; 6803; 12237; 1805; 11316; 8960;
   6608; 9789; 7373; 8049; 9162; 9522; 3643; 3762; 11684; 1858; 7822; 11606; 10710; 218; 468; 8333;
   8757; 5383; 1973; 10211; 7377; 1293; 3565; 325; 4080; 3009; 5445; 7856; 3336; 6147; 1922; 10327;
   8077; 11026; 7210; 709; 6821; 6413; 7341; 652; 4782; 9364; 147; 9786; 151; 3030; 6843; 6122;
   7280; 5369; 1041; 11367; 8844; 5908; 56; 3728; 7665; 6421; 6118; 1747; 10966; 10238; 10930; 9597;
   12147; 6347; 8214; 835; 2920; 8298; 6427; 8273; 11785; 3315; 4749; 3656; 6383; 8855; 11907; 6170;
   12231; 11939; 1278; 4322; 12097; 4774; 10587; 11341; 3602; 11566; 4536; 7032; 6415; 3963; 3998; 6328;
   3438; 5915; 522; 3150; 787; 10258; 1728; 6190; 3029; 8532; 4449; 6507; 8332; 10446; 3710; 1200;
   885; 4493; 5925; 8210; 7591; 8517; 5206; 5990; 9026; 5735; 9606; 9235; 9115; 2882; 11035; 4298;
   3477; 1489; 4324; 8719; 8120; 12133; 5415; 9370; 2302; 7535; 4789; 9830; 11858; 2908; 3988; 10929].

(** test_ntt_tables.c 512-577 *)
Definition rev_shoup_scaled_ntt512_12289 : list Z := [
   0; 1479; 4043; 7143; 6553; 8155; 10984; 11567; 1212; 10643; 9094; 5860; 3542; 3504; 3621; 9744;
   5023; 6461; 6561; 7698; 5777; 3328; 7311; 10938; 4821; 2639; 949; 2625; 9283; 2744; 563; 9314;
   9326; 4896; 2366; 9238; 81; 9198; 7969; 1000; 9521; 10654; 4255; 1177; 12149; 1853; 11563; 7678;
   11119; 2319; 955; 11499; 1326; 7203; 3014; 9088; 7484; 8736; 2294; 1062; 9542; 4846; 3135; 3712;
   1673; 4278; 4989; 5331; 1381; 2525; 4177; 8705; 12280; 11267; 480; 9447; 2468; 339; 11745; 6498;
   10092; 7222; 2476; 12171; 5767; 827; 3748; 953; 3949; 3296; 2396; 4452; 9452; 6915; 7935; 12159;
   7657; 6534; 1260; 7901; 334; 2426; 10861; 1696; 2089; 5092; 3284; 2881; 11560; 3241; 2013; 3289;
   8830; 8652; 145; 5542; 6378; 7399; 3932; 2731; 10530; 3707; 3694; 7110; 355; 8907; 9741; 4231;
   10600; 8925; 4057; 3271; 4372; 2174; 4414; 2847; 5195; 2780; 1484; 7394; 2305; 5042; 4053; 9644;
   7852; 3; 3149; 12129; 113; 7370; 2166; 8374; 4938; 3636; 6998; 2704; 1777; 10626; 7635; 10863;
   2884; 1153; 10040; 4048; 10659; 10163; 9103; 6882; 5332; 8779; 2370; 2865; 2969; 3978; 9603; 9042;
   9890; 3400; 9153; 7098; 9273; 243; 9289; 11618; 4905; 3985; 8758; 476; 6730; 11869; 1544; 10111;
   773; 390; 3833; 3778; 2401; 11847; 11222; 7188; 2912; 5698; 354; 7428; 9808; 5012; 9430; 11244;
   11744; 5019; 8585; 2678; 4714; 4143; 10752; 242; 3066; 12262; 8526; 1440; 11272; 7404; 5084; 10657;
   7644; 11885; 10146; 1065; 1168; 7012; 3248; 11082; 10911; 1912; 7952; 435; 2381; 6845; 4096; 11796;
   4976; 10682; 875; 3780; 5011; 1002; 7201; 8005; 9302; 6267; 3646; 9852; 2566; 10102; 2422; 6039;
   1003; 8757; 12048; 12231; 10333; 7280; 6008; 885; 11314; 8077; 2844; 3438; 1105; 12147; 6608; 3477;
   11868; 4080; 6068; 3602; 6212; 7665; 8689; 9026; 5886; 4782; 5594; 3029; 8076; 11785; 11684; 2302;
   2049; 7377; 1321; 12097; 7509; 8844; 5057; 7591; 1010; 6821; 3482; 787; 7048; 2920; 9162; 8120;
   6234; 3336; 11612; 6415; 2766; 10966; 12237; 9115; 10162; 151; 2839; 8332; 9784; 6383; 10710; 11858;
   6715; 1973; 2344; 1278; 8775; 1041; 11271; 5925; 3262; 7210; 2169; 522; 5315; 8214; 7373; 4324;
   8429; 5445; 1050; 4536; 8471; 6118; 11099; 9606; 3789; 147; 6833; 4449; 5537; 4749; 7822; 4789;
   11635; 3565; 10302; 10587; 3199; 56; 5529; 5206; 6137; 7341; 400; 1728; 6153; 6427; 3643; 5415;
   8410; 1922; 10256; 3998; 6854; 10930; 11316; 11035; 5339; 6843; 6093; 3710; 11973; 11907; 468; 3988;
   1815; 5383; 1512; 11939; 10232; 5369; 3202; 4493; 49; 11026; 1483; 5915; 1583; 6347; 9789; 1489;
   10596; 3009; 174; 11566; 2738; 6421; 9634; 5735; 347; 9364; 1975; 8532; 426; 3315; 1858; 7535;
   4737; 1293; 5429; 4774; 11836; 5908; 11871; 8517; 2281; 6413; 5333; 10258; 3969; 8298; 9522; 12133;
   2447; 6147; 576; 3963; 10335; 10238; 1805; 2882; 4115; 3030; 9928; 10446; 3529; 8855; 218; 2908;
   1112; 10211; 10331; 4322; 11848; 11367; 11231; 8210; 8243; 709; 10970; 3150; 6224; 835; 8049; 8719;
   6370; 7856; 8455; 7032; 9166; 1747; 6803; 9235; 2948; 9786; 10723; 6507; 12225; 3656; 11606; 9830;
   10885; 325; 1146; 11341; 4049; 3728; 1159; 5990; 6523; 652; 295; 6190; 4077; 8273; 3762; 9370;
   1594; 10327; 5106; 6328; 12121; 9597; 8960; 4298; 2555; 6122; 7105; 1200; 5297; 6170; 8333; 10929].

(** test_ntt_tables.c 588-717 *)
Definition psi_powers_ntt1024_12289 : list Z := [
   1; 1014; 8209; 4273; 7094; 4251; 9364; 7988; 1381; 11677; 6171; 2293; 2481; 8778; 3656; 8195;
   2366; 2769; 5874; 8360; 9919; 5464; 10446; 11415; 10861; 2110; 1254; 5789; 8193; 338; 10929; 9617;
   6461; 1417; 11314; 6759; 8653; 12085; 2057; 8957; 827; 2926; 5315; 6828; 4885; 923; 1958; 6883;
   11499; 10014; 3482; 3805; 11813; 8896; 418; 6026; 2731; 4209; 3643; 7302; 6250; 8665; 11964; 2253;
   11077; 12221; 4782; 7082; 4372; 9168; 5868; 2276; 9821; 4404; 4749; 10487; 3833; 3338; 5257; 9461;
   8034; 11158; 8332; 6105; 9103; 1403; 9407; 2434; 10276; 11081; 3988; 751; 11885; 8170; 1594; 6457;
   9650; 3056; 1956; 4855; 7370; 1468; 1583; 7592; 5374; 5209; 9945; 7250; 2678; 11912; 10970; 2035;
   11227; 4564; 7232; 9004; 11618; 7790; 9522; 8443; 8058; 10916; 8724; 10345; 7313; 5115; 652; 9811;
   6553; 8682; 4624; 6627; 9984; 9929; 3315; 6513; 4989; 8067; 7753; 8871; 11935; 9714; 6507; 11194;
   7969; 6693; 3174; 11007; 2686; 7735; 2908; 11641; 6534; 1705; 8410; 11463; 10377; 2894; 9734; 2209;
   3328; 7406; 1105; 2171; 1663; 2689; 10777; 2957; 12171; 3238; 2169; 11924; 10849; 2231; 1058; 3669;
   9088; 10771; 9162; 12073; 2178; 8761; 10996; 3821; 3459; 5061; 7341; 8929; 9302; 6565; 8561; 4820;
   8747; 9089; 11785; 5082; 4057; 9272; 723; 8071; 11809; 4840; 4449; 1223; 11222; 11783; 3054; 12217;
   726; 11113; 11858; 5370; 1153; 1687; 2447; 11169; 7197; 10381; 6950; 5703; 7012; 7126; 12121; 1694;
   9545; 7187; 241; 10883; 12129; 9806; 1483; 4504; 7837; 8024; 1018; 12265; 242; 11897; 8049; 1790;
   8577; 8755; 4912; 3723; 2399; 11653; 6413; 1901; 10530; 10568; 12233; 4661; 7278; 6492; 8273; 7724;
   4043; 7365; 8687; 9694; 10805; 6771; 8532; 12281; 4177; 8062; 2683; 4693; 2859; 11111; 9830; 1241;
   4896; 12077; 6234; 4730; 3510; 7619; 8174; 5650; 2426; 2164; 6854; 6671; 5444; 2455; 6992; 11424;
   7698; 2257; 2844; 8190; 9585; 10880; 9087; 9757; 953; 7800; 7373; 4510; 1632; 8122; 2078; 5673;
   1170; 6636; 6821; 10076; 4905; 8914; 6381; 6320; 5911; 9011; 6427; 3808; 2566; 8945; 948; 2730;
   3195; 7723; 3029; 11445; 4414; 2600; 6554; 9696; 544; 10900; 4789; 1891; 390; 2212; 6370; 7455;
   1635; 11164; 2127; 6203; 10163; 7100; 10335; 9462; 9048; 7078; 316; 910; 1065; 10767; 5106; 3815;
   9664; 4963; 6281; 3232; 8374; 11826; 9789; 8823; 130; 8930; 10316; 2485; 545; 11914; 709; 6164;
   7484; 6463; 3445; 3154; 3016; 10552; 8298; 8496; 355; 3589; 1702; 5368; 11414; 9847; 6190; 9270;
   10984; 3942; 3263; 2941; 8236; 7073; 7535; 9021; 4278; 12164; 8429; 6151; 6591; 10347; 9341; 9244;
   9198; 11710; 2766; 2832; 8311; 9389; 8760; 9982; 7901; 11475; 10256; 3090; 11854; 1314; 5184; 9173;
   10938; 6454; 6608; 3007; 1426; 8151; 6906; 10243; 2197; 3449; 7210; 11274; 3066; 12096; 922; 944;
   10963; 7226; 2920; 11520; 6730; 3825; 7515; 1030; 12144; 438; 1728; 7154; 3646; 10344; 6299; 9195;
   8668; 2717; 2302; 11607; 8925; 5246; 10596; 3758; 1022; 4032; 8500; 4411; 11847; 6505; 9166; 3840;
   10436; 1275; 2505; 8536; 4048; 146; 576; 6481; 9408; 3448; 6196; 3065; 11082; 5002; 8960; 3869;
   2975; 5845; 3532; 5349; 4437; 1344; 11026; 9663; 3949; 10361; 11248; 1280; 7575; 425; 835; 11038;
   9542; 4145; 192; 10353; 3136; 9342; 10258; 5118; 3694; 9860; 7083; 5386; 5088; 10141; 9370; 1783;
   1479; 448; 11868; 3221; 9509; 7550; 11942; 4523; 2525; 4238; 8471; 11872; 7277; 5478; 64; 3451;
   9238; 3114; 11612; 1706; 9424; 7383; 2361; 9988; 1696; 11573; 11316; 8787; 493; 8342; 3956; 5170;
   7266; 6613; 8077; 5604; 4938; 5509; 6920; 12150; 6522; 1826; 8214; 9343; 11272; 1038; 7967; 4665;
   11334; 2461; 787; 11522; 8758; 7954; 3772; 2929; 8357; 6877; 5415; 9916; 2422; 10397; 10885; 1868;
   1646; 10029; 6403; 4050; 2174; 4705; 2738; 11307; 11950; 346; 6752; 1555; 3778; 9013; 8455; 7937;
   11112; 10844; 9450; 9169; 6882; 10485; 1805; 11498; 9000; 7562; 11821; 4719; 4645; 3343; 10327; 1350;
   4821; 9761; 5009; 3769; 12176; 8308; 6347; 8711; 9452; 11197; 11011; 6742; 3704; 7711; 3150; 11249;
   2294; 3495; 4698; 7929; 3000; 6617; 12133; 1573; 9741; 9307; 11635; 450; 1607; 7350; 5766; 9449;
   8155; 10962; 6212; 7000; 7247; 11925; 11863; 10440; 5331; 10763; 1050; 7846; 4861; 1165; 1566; 2643;
   1000; 6302; 12237; 8717; 3247; 11295; 12071; 150; 4632; 2450; 1922; 7246; 10911; 3654; 6167; 10526;
   6512; 3975; 12147; 3480; 1777; 7684; 350; 10808; 9813; 8581; 522; 881; 8526; 6197; 4079; 7002;
   9275; 3765; 8120; 50; 1544; 4913; 4737; 10608; 3637; 1218; 6152; 7605; 6267; 1325; 4049; 1160;
   8785; 10754; 4213; 7699; 3271; 11053; 174; 4390; 2842; 6162; 5456; 2334; 7188; 1255; 6803; 4113;
   4611; 5734; 1579; 3536; 9405; 406; 6147; 2535; 2089; 4538; 5446; 4483; 11121; 7681; 9597; 10759;
   9283; 11877; 58; 9656; 9140; 2054; 5915; 778; 2396; 8611; 6364; 1371; 1537; 10104; 8719; 5275;
   3135; 8328; 2049; 845; 8889; 5609; 10008; 9687; 3707; 10753; 3199; 11779; 11287; 3959; 8212; 7315;
   7143; 4781; 6068; 8452; 4895; 11063; 10314; 457; 8705; 3368; 11099; 9951; 1045; 2776; 683; 4378;
   2963; 5966; 3336; 3229; 5332; 11777; 9259; 12119; 11955; 5416; 10930; 10631; 2381; 5690; 6119; 11010;
   5728; 7784; 3438; 8345; 6998; 5219; 7796; 3317; 8541; 9118; 4324; 9652; 5084; 6085; 1112; 9269;
   9970; 8022; 11279; 8136; 3985; 9998; 11836; 7640; 4890; 5993; 6136; 3670; 10102; 6691; 1146; 6878;
   6429; 5836; 6695; 5202; 2847; 11232; 9634; 11410; 5791; 10221; 4467; 7186; 11516; 2674; 7856; 2712;
   9521; 7429; 12138; 6643; 1630; 6094; 10238; 9416; 11560; 10423; 382; 6389; 2143; 10138; 6328; 1734;
   949; 3744; 11404; 11996; 10123; 3407; 1489; 10588; 7935; 9084; 6715; 904; 7270; 10669; 4046; 10407;
   8736; 10224; 7509; 7235; 12046; 11667; 8320; 6226; 8907; 11572; 10302; 578; 8509; 1248; 11994; 8095;
   11567; 5232; 8689; 11722; 2645; 3028; 10431; 8494; 10616; 11749; 5445; 3469; 2912; 3408; 2503; 6508;
   12208; 3889; 10966; 10268; 2969; 12050; 3434; 4289; 11029; 416; 3998; 10891; 7952; 1744; 11089; 12100;
   4978; 9202; 3477; 11024; 7635; 12109; 1815; 9349; 5067; 1136; 9027; 10362; 12262; 9489; 11848; 7519;
   5086; 8113; 5241; 5526; 11869; 4235; 5429; 11823; 6747; 8774; 11889; 12226; 9852; 11260; 1159; 7771;
   2545; 12229; 605; 11309; 1689; 4475; 3009; 3454; 12280; 3163; 12142; 10699; 9888; 10897; 1747; 1842;
   12149; 5508; 5906; 3941; 2249; 7021; 3963; 12268; 3284; 11946; 8579; 10783; 9041; 12269; 4298; 7866;
   563; 5588; 1003; 9344; 12286; 9247; 12240; 11759; 3296; 11825; 8775; 614; 8146; 1836; 6065; 5410;
   4846; 10533; 1321; 12282; 5191; 3982; 6956; 11787; 7110; 8186; 5529; 2622; 4284; 5959; 8527; 7211].

(** test_ntt_tables.c 719-848 *)
Definition shoup_ntt1024_12289 : list Z := [
   0; 1; 1; 1479; 1; 4043; 1479; 7143; 1; 6553; 4043; 10984; 1479; 8155; 7143; 11567;
   1; 11077; 6553; 8747; 4043; 3195; 10984; 8668; 1479; 1646; 8155; 8785; 7143; 6429; 11567; 2545;
   1; 6461; 11077; 9650; 6553; 3328; 8747; 9545; 4043; 7698; 3195; 9664; 10984; 10938; 8668; 2975;
   1479; 7266; 1646; 4821; 8155; 6512; 8785; 9283; 7143; 5728; 6429; 949; 11567; 4978; 2545; 563;
   1; 2366; 6461; 11499; 11077; 8034; 9650; 11227; 6553; 7969; 3328; 9088; 8747; 726; 9545; 8577;
   4043; 4896; 7698; 1170; 3195; 1635; 9664; 7484; 10984; 9198; 10938; 10963; 8668; 10436; 2975; 9542;
   1479; 9238; 7266; 11334; 1646; 11112; 4821; 2294; 8155; 1000; 6512; 9275; 8785; 4611; 9283; 3135;
   7143; 2963; 5728; 9970; 6429; 9521; 949; 8736; 11567; 12208; 4978; 5086; 2545; 12149; 563; 4846;
   1; 1381; 2366; 10861; 6461; 827; 11499; 2731; 11077; 9821; 8034; 10276; 9650; 5374; 11227; 8058;
   6553; 4989; 7969; 6534; 3328; 12171; 9088; 3459; 8747; 11809; 726; 7197; 9545; 7837; 8577; 10530;
   4043; 4177; 4896; 2426; 7698; 953; 1170; 5911; 3195; 544; 1635; 9048; 9664; 130; 7484; 355;
   10984; 4278; 9198; 7901; 10938; 2197; 10963; 12144; 8668; 1022; 10436; 9408; 2975; 3949; 9542; 3694;
   1479; 2525; 9238; 1696; 7266; 6522; 11334; 8357; 1646; 11950; 11112; 9000; 4821; 9452; 2294; 9741;
   8155; 5331; 1000; 4632; 6512; 9813; 9275; 3637; 8785; 2842; 4611; 2089; 9283; 2396; 3135; 3707;
   7143; 8705; 2963; 11955; 5728; 8541; 9970; 4890; 6429; 5791; 9521; 11560; 949; 7935; 8736; 8907;
   11567; 10616; 12208; 11029; 4978; 5067; 5086; 6747; 2545; 12280; 12149; 3284; 563; 3296; 4846; 7110;
   1; 7094; 1381; 2481; 2366; 9919; 10861; 8193; 6461; 8653; 827; 4885; 11499; 11813; 2731; 6250;
   11077; 4372; 9821; 3833; 8034; 9103; 10276; 11885; 9650; 7370; 5374; 2678; 11227; 11618; 8058; 7313;
   6553; 9984; 4989; 11935; 7969; 2686; 6534; 10377; 3328; 1663; 12171; 10849; 9088; 2178; 3459; 9302;
   8747; 4057; 11809; 11222; 726; 1153; 7197; 7012; 9545; 12129; 7837; 242; 8577; 2399; 10530; 7278;
   4043; 10805; 4177; 2859; 4896; 3510; 2426; 5444; 7698; 9585; 953; 1632; 1170; 4905; 5911; 2566;
   3195; 4414; 544; 390; 1635; 10163; 9048; 1065; 9664; 8374; 130; 545; 7484; 3016; 355; 11414;
   10984; 8236; 4278; 6591; 9198; 8311; 7901; 11854; 10938; 1426; 2197; 3066; 10963; 6730; 12144; 3646;
   8668; 8925; 1022; 11847; 10436; 4048; 9408; 11082; 2975; 4437; 3949; 7575; 9542; 3136; 3694; 5088;
   1479; 9509; 2525; 7277; 9238; 9424; 1696; 493; 7266; 4938; 6522; 11272; 11334; 8758; 8357; 2422;
   1646; 2174; 11950; 3778; 11112; 6882; 9000; 4645; 4821; 12176; 9452; 3704; 2294; 3000; 9741; 1607;
   8155; 7247; 5331; 4861; 1000; 3247; 4632; 10911; 6512; 1777; 9813; 8526; 9275; 1544; 3637; 6267;
   8785; 3271; 2842; 7188; 4611; 9405; 2089; 11121; 9283; 9140; 2396; 1537; 3135; 8889; 3707; 11287;
   7143; 4895; 8705; 1045; 2963; 5332; 11955; 2381; 5728; 6998; 8541; 5084; 9970; 3985; 4890; 10102;
   6429; 2847; 5791; 11516; 9521; 1630; 11560; 2143; 949; 10123; 7935; 7270; 8736; 12046; 8907; 8509;
   11567; 2645; 10616; 2912; 12208; 2969; 11029; 7952; 4978; 7635; 5067; 12262; 5086; 11869; 6747; 9852;
   2545; 1689; 12280; 9888; 12149; 2249; 3284; 9041; 563; 12286; 3296; 8146; 4846; 5191; 7110; 4284;
   1; 8209; 7094; 9364; 1381; 6171; 2481; 3656; 2366; 5874; 9919; 10446; 10861; 1254; 8193; 10929;
   6461; 11314; 8653; 2057; 827; 5315; 4885; 1958; 11499; 3482; 11813; 418; 2731; 3643; 6250; 11964;
   11077; 4782; 4372; 5868; 9821; 4749; 3833; 5257; 8034; 8332; 9103; 9407; 10276; 3988; 11885; 1594;
   9650; 1956; 7370; 1583; 5374; 9945; 2678; 10970; 11227; 7232; 11618; 9522; 8058; 8724; 7313; 652;
   6553; 4624; 9984; 3315; 4989; 7753; 11935; 6507; 7969; 3174; 2686; 2908; 6534; 8410; 10377; 9734;
   3328; 1105; 1663; 10777; 12171; 2169; 10849; 1058; 9088; 9162; 2178; 10996; 3459; 7341; 9302; 8561;
   8747; 11785; 4057; 723; 11809; 4449; 11222; 3054; 726; 11858; 1153; 2447; 7197; 6950; 7012; 12121;
   9545; 241; 12129; 1483; 7837; 1018; 242; 8049; 8577; 4912; 2399; 6413; 10530; 12233; 7278; 8273;
   4043; 8687; 10805; 8532; 4177; 2683; 2859; 9830; 4896; 6234; 3510; 8174; 2426; 6854; 5444; 6992;
   7698; 2844; 9585; 9087; 953; 7373; 1632; 2078; 1170; 6821; 4905; 6381; 5911; 6427; 2566; 948;
   3195; 3029; 4414; 6554; 544; 4789; 390; 6370; 1635; 2127; 10163; 10335; 9048; 316; 1065; 5106;
   9664; 6281; 8374; 9789; 130; 10316; 545; 709; 7484; 3445; 3016; 8298; 355; 1702; 11414; 6190;
   10984; 3263; 8236; 7535; 4278; 8429; 6591; 9341; 9198; 2766; 8311; 8760; 7901; 10256; 11854; 5184;
   10938; 6608; 1426; 6906; 2197; 7210; 3066; 922; 10963; 2920; 6730; 7515; 12144; 1728; 3646; 6299;
   8668; 2302; 8925; 10596; 1022; 8500; 11847; 9166; 10436; 2505; 4048; 576; 9408; 6196; 11082; 8960;
   2975; 3532; 4437; 11026; 3949; 11248; 7575; 835; 9542; 192; 3136; 10258; 3694; 7083; 5088; 9370;
   1479; 11868; 9509; 11942; 2525; 8471; 7277; 64; 9238; 11612; 9424; 2361; 1696; 11316; 493; 3956;
   7266; 8077; 4938; 6920; 6522; 8214; 11272; 7967; 11334; 787; 8758; 3772; 8357; 5415; 2422; 10885;
   1646; 6403; 2174; 2738; 11950; 6752; 3778; 8455; 11112; 9450; 6882; 1805; 9000; 11821; 4645; 10327;
   4821; 5009; 12176; 6347; 9452; 11011; 3704; 3150; 2294; 4698; 3000; 12133; 9741; 11635; 1607; 5766;
   8155; 6212; 7247; 11863; 5331; 1050; 4861; 1566; 1000; 12237; 3247; 12071; 4632; 1922; 10911; 6167;
   6512; 12147; 1777; 350; 9813; 522; 8526; 4079; 9275; 8120; 1544; 4737; 3637; 6152; 6267; 4049;
   8785; 4213; 3271; 174; 2842; 5456; 7188; 6803; 4611; 1579; 9405; 6147; 2089; 5446; 11121; 9597;
   9283; 58; 9140; 5915; 2396; 6364; 1537; 8719; 3135; 2049; 8889; 10008; 3707; 3199; 11287; 8212;
   7143; 6068; 4895; 10314; 8705; 11099; 1045; 683; 2963; 3336; 5332; 9259; 11955; 10930; 2381; 6119;
   5728; 3438; 6998; 7796; 8541; 4324; 5084; 1112; 9970; 11279; 3985; 11836; 4890; 6136; 10102; 1146;
   6429; 6695; 2847; 9634; 5791; 4467; 11516; 7856; 9521; 12138; 1630; 10238; 11560; 382; 2143; 6328;
   949; 11404; 10123; 1489; 7935; 6715; 7270; 4046; 8736; 7509; 12046; 8320; 8907; 10302; 8509; 11994;
   11567; 8689; 2645; 10431; 10616; 5445; 2912; 2503; 12208; 10966; 2969; 3434; 11029; 3998; 7952; 11089;
   4978; 3477; 7635; 1815; 5067; 9027; 12262; 11848; 5086; 5241; 11869; 5429; 6747; 11889; 9852; 1159;
   2545; 605; 1689; 3009; 12280; 12142; 9888; 1747; 12149; 5906; 2249; 3963; 3284; 8579; 9041; 4298;
   563; 1003; 12286; 12240; 3296; 8775; 8146; 6065; 4846; 1321; 5191; 6956; 7110; 5529; 4284; 8527].

(** test_ntt_tables.c 850-979 *)
Definition rev_shoup_ntt1024_12289 : list Z := [
   0; 1; 1; 1479; 1; 1479; 4043; 7143; 1; 1479; 4043; 7143; 6553; 8155; 10984; 11567;
   1; 1479; 4043; 7143; 6553; 8155; 10984; 11567; 11077; 1646; 3195; 6429; 8747; 8785; 8668; 2545;
   1; 1479; 4043; 7143; 6553; 8155; 10984; 11567; 11077; 1646; 3195; 6429; 8747; 8785; 8668; 2545;
   6461; 7266; 7698; 5728; 3328; 6512; 10938; 4978; 9650; 4821; 9664; 949; 9545; 9283; 2975; 563;
   1; 1479; 4043; 7143; 6553; 8155; 10984; 11567; 11077; 1646; 3195; 6429; 8747; 8785; 8668; 2545;
   6461; 7266; 7698; 5728; 3328; 6512; 10938; 4978; 9650; 4821; 9664; 949; 9545; 9283; 2975; 563;
   2366; 9238; 4896; 2963; 7969; 1000; 9198; 12208; 8034; 11112; 1635; 9521; 726; 4611; 10436; 12149;
   11499; 11334; 1170; 9970; 9088; 9275; 10963; 5086; 11227; 2294; 7484; 8736; 8577; 3135; 9542; 4846;
   1; 1479; 4043; 7143; 6553; 8155; 10984; 11567; 11077; 1646; 3195; 6429; 8747; 8785; 8668; 2545;
   6461; 7266; 7698; 5728; 3328; 6512; 10938; 4978; 9650; 4821; 9664; 949; 9545; 9283; 2975; 563;
   2366; 9238; 4896; 2963; 7969; 1000; 9198; 12208; 8034; 11112; 1635; 9521; 726; 4611; 10436; 12149;
   11499; 11334; 1170; 9970; 9088; 9275; 10963; 5086; 11227; 2294; 7484; 8736; 8577; 3135; 9542; 4846;
   1381; 2525; 4177; 8705; 4989; 5331; 4278; 10616; 9821; 11950; 544; 5791; 11809; 2842; 1022; 12280;
   827; 6522; 953; 8541; 12171; 9813; 2197; 5067; 5374; 9452; 130; 7935; 7837; 2396; 3949; 3296;
   10861; 1696; 2426; 11955; 6534; 4632; 7901; 11029; 10276; 9000; 9048; 11560; 7197; 2089; 9408; 3284;
   2731; 8357; 5911; 4890; 3459; 3637; 12144; 6747; 8058; 9741; 355; 8907; 10530; 3707; 3694; 7110;
   1; 1479; 4043; 7143; 6553; 8155; 10984; 11567; 11077; 1646; 3195; 6429; 8747; 8785; 8668; 2545;
   6461; 7266; 7698; 5728; 3328; 6512; 10938; 4978; 9650; 4821; 9664; 949; 9545; 9283; 2975; 563;
   2366; 9238; 4896; 2963; 7969; 1000; 9198; 12208; 8034; 11112; 1635; 9521; 726; 4611; 10436; 12149;
   11499; 11334; 1170; 9970; 9088; 9275; 10963; 5086; 11227; 2294; 7484; 8736; 8577; 3135; 9542; 4846;
   1381; 2525; 4177; 8705; 4989; 5331; 4278; 10616; 9821; 11950; 544; 5791; 11809; 2842; 1022; 12280;
   827; 6522; 953; 8541; 12171; 9813; 2197; 5067; 5374; 9452; 130; 7935; 7837; 2396; 3949; 3296;
   10861; 1696; 2426; 11955; 6534; 4632; 7901; 11029; 10276; 9000; 9048; 11560; 7197; 2089; 9408; 3284;
   2731; 8357; 5911; 4890; 3459; 3637; 12144; 6747; 8058; 9741; 355; 8907; 10530; 3707; 3694; 7110;
   7094; 9509; 10805; 4895; 9984; 7247; 8236; 2645; 4372; 2174; 4414; 2847; 4057; 3271; 8925; 1689;
   8653; 4938; 9585; 6998; 1663; 1777; 1426; 7635; 7370; 12176; 8374; 10123; 12129; 9140; 4437; 12286;
   9919; 9424; 3510; 5332; 2686; 3247; 8311; 2969; 9103; 6882; 10163; 1630; 1153; 9405; 4048; 2249;
   11813; 8758; 4905; 3985; 2178; 1544; 6730; 11869; 11618; 3000; 3016; 12046; 2399; 8889; 3136; 5191;
   2481; 7277; 2859; 1045; 11935; 4861; 6591; 2912; 3833; 3778; 390; 11516; 11222; 7188; 11847; 9888;
   4885; 11272; 1632; 5084; 10849; 8526; 3066; 12262; 2678; 3704; 545; 7270; 242; 1537; 7575; 8146;
   8193; 493; 5444; 2381; 10377; 10911; 11854; 7952; 11885; 4645; 1065; 2143; 7012; 11121; 11082; 9041;
   6250; 2422; 2566; 10102; 9302; 6267; 3646; 9852; 7313; 1607; 11414; 8509; 7278; 11287; 5088; 4284;
   1; 1479; 4043; 7143; 6553; 8155; 10984; 11567; 11077; 1646; 3195; 6429; 8747; 8785; 8668; 2545;
   6461; 7266; 7698; 5728; 3328; 6512; 10938; 4978; 9650; 4821; 9664; 949; 9545; 9283; 2975; 563;
   2366; 9238; 4896; 2963; 7969; 1000; 9198; 12208; 8034; 11112; 1635; 9521; 726; 4611; 10436; 12149;
   11499; 11334; 1170; 9970; 9088; 9275; 10963; 5086; 11227; 2294; 7484; 8736; 8577; 3135; 9542; 4846;
   1381; 2525; 4177; 8705; 4989; 5331; 4278; 10616; 9821; 11950; 544; 5791; 11809; 2842; 1022; 12280;
   827; 6522; 953; 8541; 12171; 9813; 2197; 5067; 5374; 9452; 130; 7935; 7837; 2396; 3949; 3296;
   10861; 1696; 2426; 11955; 6534; 4632; 7901; 11029; 10276; 9000; 9048; 11560; 7197; 2089; 9408; 3284;
   2731; 8357; 5911; 4890; 3459; 3637; 12144; 6747; 8058; 9741; 355; 8907; 10530; 3707; 3694; 7110;
   7094; 9509; 10805; 4895; 9984; 7247; 8236; 2645; 4372; 2174; 4414; 2847; 4057; 3271; 8925; 1689;
   8653; 4938; 9585; 6998; 1663; 1777; 1426; 7635; 7370; 12176; 8374; 10123; 12129; 9140; 4437; 12286;
   9919; 9424; 3510; 5332; 2686; 3247; 8311; 2969; 9103; 6882; 10163; 1630; 1153; 9405; 4048; 2249;
   11813; 8758; 4905; 3985; 2178; 1544; 6730; 11869; 11618; 3000; 3016; 12046; 2399; 8889; 3136; 5191;
   2481; 7277; 2859; 1045; 11935; 4861; 6591; 2912; 3833; 3778; 390; 11516; 11222; 7188; 11847; 9888;
   4885; 11272; 1632; 5084; 10849; 8526; 3066; 12262; 2678; 3704; 545; 7270; 242; 1537; 7575; 8146;
   8193; 493; 5444; 2381; 10377; 10911; 11854; 7952; 11885; 4645; 1065; 2143; 7012; 11121; 11082; 9041;
   6250; 2422; 2566; 10102; 9302; 6267; 3646; 9852; 7313; 1607; 11414; 8509; 7278; 11287; 5088; 4284;
   8209; 11868; 8687; 6068; 4624; 6212; 3263; 8689; 4782; 6403; 3029; 6695; 11785; 4213; 2302; 605;
   11314; 8077; 2844; 3438; 1105; 12147; 6608; 3477; 1956; 5009; 6281; 11404; 241; 58; 3532; 1003;
   5874; 11612; 6234; 3336; 3174; 12237; 2766; 10966; 8332; 9450; 2127; 12138; 11858; 1579; 2505; 5906;
   3482; 787; 6821; 11279; 9162; 8120; 2920; 5241; 7232; 4698; 3445; 7509; 4912; 2049; 192; 1321;
   6171; 8471; 2683; 11099; 7753; 1050; 8429; 5445; 4749; 6752; 4789; 4467; 4449; 5456; 8500; 12142;
   5315; 8214; 7373; 4324; 2169; 522; 7210; 9027; 9945; 11011; 10316; 6715; 1018; 6364; 11248; 8775;
   1254; 11316; 6854; 10930; 8410; 1922; 10256; 3998; 3988; 11821; 316; 382; 6950; 5446; 6196; 8579;
   3643; 5415; 6427; 6136; 7341; 6152; 1728; 11889; 8724; 11635; 1702; 10302; 12233; 3199; 7083; 5529;
   9364; 11942; 8532; 10314; 3315; 11863; 7535; 10431; 5868; 2738; 6554; 9634; 723; 174; 10596; 3009;
   2057; 6920; 9087; 7796; 10777; 350; 6906; 1815; 1583; 6347; 9789; 1489; 1483; 5915; 11026; 12240;
   10446; 2361; 8174; 9259; 2908; 12071; 8760; 3434; 9407; 1805; 10335; 10238; 2447; 6147; 576; 3963;
   418; 3772; 6381; 11836; 10996; 4737; 7515; 5429; 9522; 12133; 8298; 8320; 6413; 10008; 10258; 6956;
   3656; 64; 9830; 683; 6507; 1566; 9341; 2503; 5257; 8455; 6370; 7856; 3054; 6803; 9166; 1747;
   1958; 7967; 2078; 1112; 1058; 4079; 922; 11848; 10970; 3150; 709; 4046; 8049; 8719; 835; 6065;
   10929; 3956; 6992; 6119; 9734; 6167; 5184; 11089; 1594; 10327; 5106; 6328; 12121; 9597; 8960; 4298;
   11964; 10885; 948; 1146; 8561; 4049; 6299; 1159; 652; 5766; 6190; 11994; 8273; 8212; 9370; 8527].

(** test_ntt_tables.c 981-1110 *)
Definition shoup_scaled_ntt1024_12289 : list Z := [
   0; 1479; 4043; 7143; 6553; 10984; 8155; 11567; 11077; 8747; 3195; 8668; 1646; 8785; 6429; 2545;
   6461; 9650; 3328; 9545; 7698; 9664; 10938; 2975; 7266; 4821; 6512; 9283; 5728; 949; 4978; 563;
   2366; 11499; 8034; 11227; 7969; 9088; 726; 8577; 4896; 1170; 1635; 7484; 9198; 10963; 10436; 9542;
   9238; 11334; 11112; 2294; 1000; 9275; 4611; 3135; 2963; 9970; 9521; 8736; 12208; 5086; 12149; 4846;
   1381; 10861; 827; 2731; 9821; 10276; 5374; 8058; 4989; 6534; 12171; 3459; 11809; 7197; 7837; 10530;
   4177; 2426; 953; 5911; 544; 9048; 130; 355; 4278; 7901; 2197; 12144; 1022; 9408; 3949; 3694;
   2525; 1696; 6522; 8357; 11950; 9000; 9452; 9741; 5331; 4632; 9813; 3637; 2842; 2089; 2396; 3707;
   8705; 11955; 8541; 4890; 5791; 11560; 7935; 8907; 10616; 11029; 5067; 6747; 12280; 3284; 3296; 7110;
   7094; 2481; 9919; 8193; 8653; 4885; 11813; 6250; 4372; 3833; 9103; 11885; 7370; 2678; 11618; 7313;
   9984; 11935; 2686; 10377; 1663; 10849; 2178; 9302; 4057; 11222; 1153; 7012; 12129; 242; 2399; 7278;
   10805; 2859; 3510; 5444; 9585; 1632; 4905; 2566; 4414; 390; 10163; 1065; 8374; 545; 3016; 11414;
   8236; 6591; 8311; 11854; 1426; 3066; 6730; 3646; 8925; 11847; 4048; 11082; 4437; 7575; 3136; 5088;
   9509; 7277; 9424; 493; 4938; 11272; 8758; 2422; 2174; 3778; 6882; 4645; 12176; 3704; 3000; 1607;
   7247; 4861; 3247; 10911; 1777; 8526; 1544; 6267; 3271; 7188; 9405; 11121; 9140; 1537; 8889; 11287;
   4895; 1045; 5332; 2381; 6998; 5084; 3985; 10102; 2847; 11516; 1630; 2143; 10123; 7270; 12046; 8509;
   2645; 2912; 2969; 7952; 7635; 12262; 11869; 9852; 1689; 9888; 2249; 9041; 12286; 8146; 5191; 4284;
   8209; 9364; 6171; 3656; 5874; 10446; 1254; 10929; 11314; 2057; 5315; 1958; 3482; 418; 3643; 11964;
   4782; 5868; 4749; 5257; 8332; 9407; 3988; 1594; 1956; 1583; 9945; 10970; 7232; 9522; 8724; 652;
   4624; 3315; 7753; 6507; 3174; 2908; 8410; 9734; 1105; 10777; 2169; 1058; 9162; 10996; 7341; 8561;
   11785; 723; 4449; 3054; 11858; 2447; 6950; 12121; 241; 1483; 1018; 8049; 4912; 6413; 12233; 8273;
   8687; 8532; 2683; 9830; 6234; 8174; 6854; 6992; 2844; 9087; 7373; 2078; 6821; 6381; 6427; 948;
   3029; 6554; 4789; 6370; 2127; 10335; 316; 5106; 6281; 9789; 10316; 709; 3445; 8298; 1702; 6190;
   3263; 7535; 8429; 9341; 2766; 8760; 10256; 5184; 6608; 6906; 7210; 922; 2920; 7515; 1728; 6299;
   2302; 10596; 8500; 9166; 2505; 576; 6196; 8960; 3532; 11026; 11248; 835; 192; 10258; 7083; 9370;
   11868; 11942; 8471; 64; 11612; 2361; 11316; 3956; 8077; 6920; 8214; 7967; 787; 3772; 5415; 10885;
   6403; 2738; 6752; 8455; 9450; 1805; 11821; 10327; 5009; 6347; 11011; 3150; 4698; 12133; 11635; 5766;
   6212; 11863; 1050; 1566; 12237; 12071; 1922; 6167; 12147; 350; 522; 4079; 8120; 4737; 6152; 4049;
   4213; 174; 5456; 6803; 1579; 6147; 5446; 9597; 58; 5915; 6364; 8719; 2049; 10008; 3199; 8212;
   6068; 10314; 11099; 683; 3336; 9259; 10930; 6119; 3438; 7796; 4324; 1112; 11279; 11836; 6136; 1146;
   6695; 9634; 4467; 7856; 12138; 10238; 382; 6328; 11404; 1489; 6715; 4046; 7509; 8320; 10302; 11994;
   8689; 10431; 5445; 2503; 10966; 3434; 3998; 11089; 3477; 1815; 9027; 11848; 5241; 5429; 11889; 1159;
   605; 3009; 12142; 1747; 5906; 3963; 8579; 4298; 1003; 12240; 8775; 6065; 1321; 6956; 5529; 8527;
   1014; 4273; 4251; 7988; 11677; 2293; 8778; 8195; 2769; 8360; 5464; 11415; 2110; 5789; 338; 9617;
   1417; 6759; 12085; 8957; 2926; 6828; 923; 6883; 10014; 3805; 8896; 6026; 4209; 7302; 8665; 2253;
   12221; 7082; 9168; 2276; 4404; 10487; 3338; 9461; 11158; 6105; 1403; 2434; 11081; 751; 8170; 6457;
   3056; 4855; 1468; 7592; 5209; 7250; 11912; 2035; 4564; 9004; 7790; 8443; 10916; 10345; 5115; 9811;
   8682; 6627; 9929; 6513; 8067; 8871; 9714; 11194; 6693; 11007; 7735; 11641; 1705; 11463; 2894; 2209;
   7406; 2171; 2689; 2957; 3238; 11924; 2231; 3669; 10771; 12073; 8761; 3821; 5061; 8929; 6565; 4820;
   9089; 5082; 9272; 8071; 4840; 1223; 11783; 12217; 11113; 5370; 1687; 11169; 10381; 5703; 7126; 1694;
   7187; 10883; 9806; 4504; 8024; 12265; 11897; 1790; 8755; 3723; 11653; 1901; 10568; 4661; 6492; 7724;
   7365; 9694; 6771; 12281; 8062; 4693; 11111; 1241; 12077; 4730; 7619; 5650; 2164; 6671; 2455; 11424;
   2257; 8190; 10880; 9757; 7800; 4510; 8122; 5673; 6636; 10076; 8914; 6320; 9011; 3808; 8945; 2730;
   7723; 11445; 2600; 9696; 10900; 1891; 2212; 7455; 11164; 6203; 7100; 9462; 7078; 910; 10767; 3815;
   4963; 3232; 11826; 8823; 8930; 2485; 11914; 6164; 6463; 3154; 10552; 8496; 3589; 5368; 9847; 9270;
   3942; 2941; 7073; 9021; 12164; 6151; 10347; 9244; 11710; 2832; 9389; 9982; 11475; 3090; 1314; 9173;
   6454; 3007; 8151; 10243; 3449; 11274; 12096; 944; 7226; 11520; 3825; 1030; 438; 7154; 10344; 9195;
   2717; 11607; 5246; 3758; 4032; 4411; 6505; 3840; 1275; 8536; 146; 6481; 3448; 3065; 5002; 3869;
   5845; 5349; 1344; 9663; 10361; 1280; 425; 11038; 4145; 10353; 9342; 5118; 9860; 5386; 10141; 1783;
   448; 3221; 7550; 4523; 4238; 11872; 5478; 3451; 3114; 1706; 7383; 9988; 11573; 8787; 8342; 5170;
   6613; 5604; 5509; 12150; 1826; 9343; 1038; 4665; 2461; 11522; 7954; 2929; 6877; 9916; 10397; 1868;
   10029; 4050; 4705; 11307; 346; 1555; 9013; 7937; 10844; 9169; 10485; 11498; 7562; 4719; 3343; 1350;
   9761; 3769; 8308; 8711; 11197; 6742; 7711; 11249; 3495; 7929; 6617; 1573; 9307; 450; 7350; 9449;
   10962; 7000; 11925; 10440; 10763; 7846; 1165; 2643; 6302; 8717; 11295; 150; 2450; 7246; 3654; 10526;
   3975; 3480; 7684; 10808; 8581; 881; 6197; 7002; 3765; 50; 4913; 10608; 1218; 7605; 1325; 1160;
   10754; 7699; 11053; 4390; 6162; 2334; 1255; 4113; 5734; 3536; 406; 2535; 4538; 4483; 7681; 10759;
   11877; 9656; 2054; 778; 8611; 1371; 10104; 5275; 8328; 845; 5609; 9687; 10753; 11779; 3959; 7315;
   4781; 8452; 11063; 457; 3368; 9951; 2776; 4378; 5966; 3229; 11777; 12119; 5416; 10631; 5690; 11010;
   7784; 8345; 5219; 3317; 9118; 9652; 6085; 9269; 8022; 8136; 9998; 7640; 5993; 3670; 6691; 6878;
   5836; 5202; 11232; 11410; 10221; 7186; 2674; 2712; 7429; 6643; 6094; 9416; 10423; 6389; 10138; 1734;
   3744; 11996; 3407; 10588; 9084; 904; 10669; 10407; 10224; 7235; 11667; 6226; 11572; 578; 1248; 8095;
   5232; 11722; 3028; 8494; 11749; 3469; 3408; 6508; 3889; 10268; 12050; 4289; 416; 10891; 1744; 12100;
   9202; 11024; 12109; 9349; 1136; 10362; 9489; 7519; 8113; 5526; 4235; 11823; 8774; 12226; 11260; 7771;
   12229; 11309; 4475; 3454; 3163; 10699; 10897; 1842; 5508; 3941; 7021; 12268; 11946; 10783; 12269; 7866;
   5588; 9344; 9247; 11759; 11825; 614; 1836; 5410; 10533; 12282; 3982; 11787; 8186; 2622; 5959; 7211].

(** test_ntt_tables.c 1112-1241 *)
Definition rev_shoup_scaled_ntt1024_12289 : list Z := [
   0; 1479; 4043; 7143; 6553; 8155; 10984; 11567; 11077; 1646; 3195; 6429; 8747; 8785; 8668; 2545;
   6461; 7266; 7698; 5728; 3328; 6512; 10938; 4978; 9650; 4821; 9664; 949; 9545; 9283; 2975; 563;
   2366; 9238; 4896; 2963; 7969; 1000; 9198; 12208; 8034; 11112; 1635; 9521; 726; 4611; 10436; 12149;
   11499; 11334; 1170; 9970; 9088; 9275; 10963; 5086; 11227; 2294; 7484; 8736; 8577; 3135; 9542; 4846;
   1381; 2525; 4177; 8705; 4989; 5331; 4278; 10616; 9821; 11950; 544; 5791; 11809; 2842; 1022; 12280;
   827; 6522; 953; 8541; 12171; 9813; 2197; 5067; 5374; 9452; 130; 7935; 7837; 2396; 3949; 3296;
   10861; 1696; 2426; 11955; 6534; 4632; 7901; 11029; 10276; 9000; 9048; 11560; 7197; 2089; 9408; 3284;
   2731; 8357; 5911; 4890; 3459; 3637; 12144; 6747; 8058; 9741; 355; 8907; 10530; 3707; 3694; 7110;
   7094; 9509; 10805; 4895; 9984; 7247; 8236; 2645; 4372; 2174; 4414; 2847; 4057; 3271; 8925; 1689;
   8653; 4938; 9585; 6998; 1663; 1777; 1426; 7635; 7370; 12176; 8374; 10123; 12129; 9140; 4437; 12286;
   9919; 9424; 3510; 5332; 2686; 3247; 8311; 2969; 9103; 6882; 10163; 1630; 1153; 9405; 4048; 2249;
   11813; 8758; 4905; 3985; 2178; 1544; 6730; 11869; 11618; 3000; 3016; 12046; 2399; 8889; 3136; 5191;
   2481; 7277; 2859; 1045; 11935; 4861; 6591; 2912; 3833; 3778; 390; 11516; 11222; 7188; 11847; 9888;
   4885; 11272; 1632; 5084; 10849; 8526; 3066; 12262; 2678; 3704; 545; 7270; 242; 1537; 7575; 8146;
   8193; 493; 5444; 2381; 10377; 10911; 11854; 7952; 11885; 4645; 1065; 2143; 7012; 11121; 11082; 9041;
   6250; 2422; 2566; 10102; 9302; 6267; 3646; 9852; 7313; 1607; 11414; 8509; 7278; 11287; 5088; 4284;
   8209; 11868; 8687; 6068; 4624; 6212; 3263; 8689; 4782; 6403; 3029; 6695; 11785; 4213; 2302; 605;
   11314; 8077; 2844; 3438; 1105; 12147; 6608; 3477; 1956; 5009; 6281; 11404; 241; 58; 3532; 1003;
   5874; 11612; 6234; 3336; 3174; 12237; 2766; 10966; 8332; 9450; 2127; 12138; 11858; 1579; 2505; 5906;
   3482; 787; 6821; 11279; 9162; 8120; 2920; 5241; 7232; 4698; 3445; 7509; 4912; 2049; 192; 1321;
   6171; 8471; 2683; 11099; 7753; 1050; 8429; 5445; 4749; 6752; 4789; 4467; 4449; 5456; 8500; 12142;
   5315; 8214; 7373; 4324; 2169; 522; 7210; 9027; 9945; 11011; 10316; 6715; 1018; 6364; 11248; 8775;
   1254; 11316; 6854; 10930; 8410; 1922; 10256; 3998; 3988; 11821; 316; 382; 6950; 5446; 6196; 8579;
   3643; 5415; 6427; 6136; 7341; 6152; 1728; 11889; 8724; 11635; 1702; 10302; 12233; 3199; 7083; 5529;
   9364; 11942; 8532; 10314; 3315; 11863; 7535; 10431; 5868; 2738; 6554; 9634; 723; 174; 10596; 3009;
   2057; 6920; 9087; 7796; 10777; 350; 6906; 1815; 1583; 6347; 9789; 1489; 1483; 5915; 11026; 12240;
   10446; 2361; 8174; 9259; 2908; 12071; 8760; 3434; 9407; 1805; 10335; 10238; 2447; 6147; 576; 3963;
   418; 3772; 6381; 11836; 10996; 4737; 7515; 5429; 9522; 12133; 8298; 8320; 6413; 10008; 10258; 6956;
   3656; 64; 9830; 683; 6507; 1566; 9341; 2503; 5257; 8455; 6370; 7856; 3054; 6803; 9166; 1747;
   1958; 7967; 2078; 1112; 1058; 4079; 922; 11848; 10970; 3150; 709; 4046; 8049; 8719; 835; 6065;
   10929; 3956; 6992; 6119; 9734; 6167; 5184; 11089; 1594; 10327; 5106; 6328; 12121; 9597; 8960; 4298;
   11964; 10885; 948; 1146; 8561; 4049; 6299; 1159; 652; 5766; 6190; 11994; 8273; 8212; 9370; 8527;
   1014; 448; 7365; 4781; 8682; 10962; 3942; 5232; 12221; 10029; 7723; 5836; 9089; 10754; 2717; 12229;
   1417; 6613; 2257; 7784; 7406; 3975; 6454; 9202; 3056; 9761; 4963; 3744; 7187; 11877; 5845; 5588;
   2769; 3114; 12077; 5966; 6693; 6302; 11710; 3889; 11158; 10844; 11164; 7429; 11113; 5734; 1275; 5508;
   10014; 2461; 6636; 8022; 10771; 3765; 7226; 8113; 4564; 3495; 6463; 10224; 8755; 8328; 4145; 10533;
   11677; 4238; 8062; 3368; 8067; 10763; 12164; 11749; 4404; 346; 10900; 10221; 4840; 6162; 4032; 3163;
   2926; 1826; 7800; 9118; 3238; 8581; 3449; 1136; 5209; 11197; 8930; 9084; 8024; 8611; 10361; 11825;
   2110; 11573; 2164; 5416; 1705; 2450; 11475; 416; 11081; 7562; 7078; 10423; 10381; 4538; 3448; 11946;
   4209; 6877; 9011; 5993; 5061; 1218; 438; 8774; 10916; 9307; 3589; 11572; 10568; 10753; 9860; 8186;
   4251; 7550; 6771; 11063; 9929; 11925; 7073; 3028; 9168; 4705; 2600; 11232; 9272; 11053; 5246; 4475;
   12085; 5509; 10880; 5219; 2689; 7684; 8151; 12109; 1468; 8308; 11826; 3407; 9806; 2054; 1344; 9247;
   5464; 7383; 7619; 11777; 7735; 11295; 9389; 12050; 1403; 10485; 7100; 6094; 1687; 406; 146; 7021;
   8896; 7954; 8914; 9998; 8761; 4913; 3825; 4235; 7790; 6617; 10552; 11667; 11653; 5609; 9342; 3982;
   8778; 5478; 11111; 2776; 9714; 1165; 10347; 3408; 3338; 9013; 2212; 2674; 11783; 1255; 6505; 10897;
   923; 1038; 8122; 6085; 2231; 6197; 12096; 9489; 11912; 7711; 11914; 10669; 11897; 10104; 425; 1836;
   338; 8342; 2455; 5690; 2894; 3654; 1314; 1744; 8170; 3343; 10767; 10138; 7126; 7681; 5002; 12269;
   8665; 10397; 8945; 6691; 6565; 1325; 10344; 11260; 5115; 7350; 9847; 1248; 6492; 3959; 10141; 5959;
   4273; 3221; 9694; 8452; 6627; 7000; 2941; 11722; 7082; 4050; 11445; 5202; 5082; 7699; 11607; 11309;
   6759; 5604; 8190; 8345; 2171; 3480; 3007; 11024; 4855; 3769; 3232; 11996; 10883; 9656; 5349; 9344;
   8360; 1706; 4730; 3229; 11007; 8717; 2832; 10268; 6105; 9169; 6203; 6643; 5370; 3536; 8536; 3941;
   3805; 11522; 10076; 8136; 12073; 50; 11520; 5526; 9004; 7929; 3154; 7235; 3723; 845; 10353; 12282;
   2293; 11872; 4693; 9951; 8871; 7846; 6151; 3469; 10487; 1555; 1891; 7186; 1223; 2334; 4411; 10699;
   6828; 9343; 4510; 9652; 11924; 881; 11274; 10362; 7250; 6742; 2485; 904; 12265; 1371; 1280; 614;
   5789; 8787; 6671; 10631; 11463; 7246; 3090; 10891; 751; 4719; 910; 6389; 5703; 4483; 3065; 10783;
   7302; 9916; 3808; 3670; 8929; 7605; 7154; 12226; 10345; 450; 5368; 578; 4661; 11779; 5386; 2622;
   7988; 4523; 12281; 457; 6513; 10440; 9021; 8494; 2276; 11307; 9696; 11410; 8071; 4390; 3758; 3454;
   8957; 12150; 9757; 3317; 2957; 10808; 10243; 9349; 7592; 8711; 8823; 10588; 4504; 778; 9663; 11759;
   11415; 9988; 5650; 12119; 11641; 150; 9982; 4289; 2434; 11498; 9462; 9416; 11169; 2535; 6481; 12268;
   6026; 2929; 6320; 7640; 3821; 10608; 1030; 11823; 8443; 1573; 8496; 6226; 1901; 9687; 5118; 11787;
   8195; 3451; 1241; 4378; 11194; 2643; 9244; 6508; 9461; 7937; 7455; 2712; 12217; 4113; 3840; 1842;
   6883; 4665; 5673; 9269; 3669; 7002; 944; 7519; 2035; 11249; 6164; 10407; 1790; 5275; 11038; 5410;
   9617; 5170; 11424; 11010; 2209; 10526; 9173; 12100; 6457; 1350; 3815; 1734; 1694; 10759; 3869; 7866;
   2253; 1868; 2730; 6878; 4820; 1160; 9195; 7771; 9811; 9449; 9270; 8095; 7724; 7315; 1783; 7211].
