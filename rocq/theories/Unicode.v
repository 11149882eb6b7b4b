(* Unicode character tables, generated from CPython 3.11's unicodedata (Unicode 14).
   They model the built-in methods str.isdigit, str.isspace, str.lower, str.upper and
   the digit values accepted by int(); they are part of the Python runtime, not of /repo. *)
From Coq Require Import List NArith ZArith.
Import ListNotations.
Local Open Scope N_scope.


(* code points c with chr(c).isdigit() *)

Definition isdigit_ranges : list (N * N) :=
  [(48, 57);
   (178, 179);
   (185, 185);
   (1632, 1641);
   (1776, 1785);
   (1984, 1993);
   (2406, 2415);
   (2534, 2543);
   (2662, 2671);
   (2790, 2799);
   (2918, 2927);
   (3046, 3055);
   (3174, 3183);
   (3302, 3311);
   (3430, 3439);
   (3558, 3567);
   (3664, 3673);
   (3792, 3801);
   (3872, 3881);
   (4160, 4169);
   (4240, 4249);
   (4969, 4977);
   (6112, 6121);
   (6160, 6169);
   (6470, 6479);
   (6608, 6618);
   (6784, 6793);
   (6800, 6809);
   (6992, 7001);
   (7088, 7097);
   (7232, 7241);
   (7248, 7257);
   (8304, 8304);
   (8308, 8313);
   (8320, 8329);
   (9312, 9320);
   (9332, 9340);
   (9352, 9360);
   (9450, 9450);
   (9461, 9469);
   (9471, 9471);
   (10102, 10110);
   (10112, 10120);
   (10122, 10130);
   (42528, 42537);
   (43216, 43225);
   (43264, 43273);
   (43472, 43481);
   (43504, 43513);
   (43600, 43609);
   (44016, 44025);
   (65296, 65305);
   (66720, 66729);
   (68160, 68163);
   (68912, 68921);
   (69216, 69224);
   (69714, 69722);
   (69734, 69743);
   (69872, 69881);
   (69942, 69951);
   (70096, 70105);
   (70384, 70393);
   (70736, 70745);
   (70864, 70873);
   (71248, 71257);
   (71360, 71369);
   (71472, 71481);
   (71904, 71913);
   (72016, 72025);
   (72784, 72793);
   (73040, 73049);
   (73120, 73129);
   (92768, 92777);
   (92864, 92873);
   (93008, 93017);
   (120782, 120831);
   (123200, 123209);
   (123632, 123641);
   (125264, 125273);
   (127232, 127242);
   (130032, 130041)].

(* code points c with chr(c).isspace() *)

Definition isspace_ranges : list (N * N) :=
  [(9, 13);
   (28, 32);
   (133, 133);
   (160, 160);
   (5760, 5760);
   (8192, 8202);
   (8232, 8233);
   (8239, 8239);
   (8287, 8287);
   (12288, 12288)].

(* first code points of the blocks of ten decimal digits: chr(s+i) has int() value i *)

Definition decimal_starts : list N :=
  [48; 1632; 1776; 1984; 2406; 2534; 2662; 2790; 2918; 3046; 3174; 3302; 3430; 3558; 3664; 3792; 3872; 4160; 4240; 6112; 6160; 6470; 6608; 6784; 6800; 6992; 7088; 7232; 7248; 42528; 43216; 43264; 43472; 43504; 43600; 44016; 65296; 66720; 68912; 69734; 69872; 69942; 70096; 70384; 70736; 70864; 71248; 71360; 71472; 71904; 72016; 72784; 73040; 73120; 92768; 92864; 93008; 120782; 120792; 120802; 120812; 120822; 123200; 123632; 125264; 130032].

(* simple case mappings as runs (first, last, step, offset), and multi-character mappings *)

Definition lower_runs : list (N * N * N * Z) :=
  [(65, 90, 1, 32%Z);
   (192, 214, 1, 32%Z);
   (216, 222, 1, 32%Z);
   (256, 302, 2, 1%Z);
   (306, 310, 2, 1%Z);
   (313, 327, 2, 1%Z);
   (330, 374, 2, 1%Z);
   (376, 376, 1, (-121)%Z);
   (377, 381, 2, 1%Z);
   (385, 385, 1, 210%Z);
   (386, 388, 2, 1%Z);
   (390, 390, 1, 206%Z);
   (391, 391, 1, 1%Z);
   (393, 394, 1, 205%Z);
   (395, 395, 1, 1%Z);
   (398, 398, 1, 79%Z);
   (399, 399, 1, 202%Z);
   (400, 400, 1, 203%Z);
   (401, 401, 1, 1%Z);
   (403, 403, 1, 205%Z);
   (404, 404, 1, 207%Z);
   (406, 406, 1, 211%Z);
   (407, 407, 1, 209%Z);
   (408, 408, 1, 1%Z);
   (412, 412, 1, 211%Z);
   (413, 413, 1, 213%Z);
   (415, 415, 1, 214%Z);
   (416, 420, 2, 1%Z);
   (422, 422, 1, 218%Z);
   (423, 423, 1, 1%Z);
   (425, 425, 1, 218%Z);
   (428, 428, 1, 1%Z);
   (430, 430, 1, 218%Z);
   (431, 431, 1, 1%Z);
   (433, 434, 1, 217%Z);
   (435, 437, 2, 1%Z);
   (439, 439, 1, 219%Z);
   (440, 440, 1, 1%Z);
   (444, 444, 1, 1%Z);
   (452, 452, 1, 2%Z);
   (453, 453, 1, 1%Z);
   (455, 455, 1, 2%Z);
   (456, 456, 1, 1%Z);
   (458, 458, 1, 2%Z);
   (459, 475, 2, 1%Z);
   (478, 494, 2, 1%Z);
   (497, 497, 1, 2%Z);
   (498, 500, 2, 1%Z);
   (502, 502, 1, (-97)%Z);
   (503, 503, 1, (-56)%Z);
   (504, 542, 2, 1%Z);
   (544, 544, 1, (-130)%Z);
   (546, 562, 2, 1%Z);
   (570, 570, 1, 10795%Z);
   (571, 571, 1, 1%Z);
   (573, 573, 1, (-163)%Z);
   (574, 574, 1, 10792%Z);
   (577, 577, 1, 1%Z);
   (579, 579, 1, (-195)%Z);
   (580, 580, 1, 69%Z);
   (581, 581, 1, 71%Z);
   (582, 590, 2, 1%Z);
   (880, 882, 2, 1%Z);
   (886, 886, 1, 1%Z);
   (895, 895, 1, 116%Z);
   (902, 902, 1, 38%Z);
   (904, 906, 1, 37%Z);
   (908, 908, 1, 64%Z);
   (910, 911, 1, 63%Z);
   (913, 929, 1, 32%Z);
   (931, 939, 1, 32%Z);
   (975, 975, 1, 8%Z);
   (984, 1006, 2, 1%Z);
   (1012, 1012, 1, (-60)%Z);
   (1015, 1015, 1, 1%Z);
   (1017, 1017, 1, (-7)%Z);
   (1018, 1018, 1, 1%Z);
   (1021, 1023, 1, (-130)%Z);
   (1024, 1039, 1, 80%Z);
   (1040, 1071, 1, 32%Z);
   (1120, 1152, 2, 1%Z);
   (1162, 1214, 2, 1%Z);
   (1216, 1216, 1, 15%Z);
   (1217, 1229, 2, 1%Z);
   (1232, 1326, 2, 1%Z);
   (1329, 1366, 1, 48%Z);
   (4256, 4293, 1, 7264%Z);
   (4295, 4295, 1, 7264%Z);
   (4301, 4301, 1, 7264%Z);
   (5024, 5103, 1, 38864%Z);
   (5104, 5109, 1, 8%Z);
   (7312, 7354, 1, (-3008)%Z);
   (7357, 7359, 1, (-3008)%Z);
   (7680, 7828, 2, 1%Z);
   (7838, 7838, 1, (-7615)%Z);
   (7840, 7934, 2, 1%Z);
   (7944, 7951, 1, (-8)%Z);
   (7960, 7965, 1, (-8)%Z);
   (7976, 7983, 1, (-8)%Z);
   (7992, 7999, 1, (-8)%Z);
   (8008, 8013, 1, (-8)%Z);
   (8025, 8031, 2, (-8)%Z);
   (8040, 8047, 1, (-8)%Z);
   (8072, 8079, 1, (-8)%Z);
   (8088, 8095, 1, (-8)%Z);
   (8104, 8111, 1, (-8)%Z);
   (8120, 8121, 1, (-8)%Z);
   (8122, 8123, 1, (-74)%Z);
   (8124, 8124, 1, (-9)%Z);
   (8136, 8139, 1, (-86)%Z);
   (8140, 8140, 1, (-9)%Z);
   (8152, 8153, 1, (-8)%Z);
   (8154, 8155, 1, (-100)%Z);
   (8168, 8169, 1, (-8)%Z);
   (8170, 8171, 1, (-112)%Z);
   (8172, 8172, 1, (-7)%Z);
   (8184, 8185, 1, (-128)%Z);
   (8186, 8187, 1, (-126)%Z);
   (8188, 8188, 1, (-9)%Z);
   (8486, 8486, 1, (-7517)%Z);
   (8490, 8490, 1, (-8383)%Z);
   (8491, 8491, 1, (-8262)%Z);
   (8498, 8498, 1, 28%Z);
   (8544, 8559, 1, 16%Z);
   (8579, 8579, 1, 1%Z);
   (9398, 9423, 1, 26%Z);
   (11264, 11311, 1, 48%Z);
   (11360, 11360, 1, 1%Z);
   (11362, 11362, 1, (-10743)%Z);
   (11363, 11363, 1, (-3814)%Z);
   (11364, 11364, 1, (-10727)%Z);
   (11367, 11371, 2, 1%Z);
   (11373, 11373, 1, (-10780)%Z);
   (11374, 11374, 1, (-10749)%Z);
   (11375, 11375, 1, (-10783)%Z);
   (11376, 11376, 1, (-10782)%Z);
   (11378, 11378, 1, 1%Z);
   (11381, 11381, 1, 1%Z);
   (11390, 11391, 1, (-10815)%Z);
   (11392, 11490, 2, 1%Z);
   (11499, 11501, 2, 1%Z);
   (11506, 11506, 1, 1%Z);
   (42560, 42604, 2, 1%Z);
   (42624, 42650, 2, 1%Z);
   (42786, 42798, 2, 1%Z);
   (42802, 42862, 2, 1%Z);
   (42873, 42875, 2, 1%Z);
   (42877, 42877, 1, (-35332)%Z);
   (42878, 42886, 2, 1%Z);
   (42891, 42891, 1, 1%Z);
   (42893, 42893, 1, (-42280)%Z);
   (42896, 42898, 2, 1%Z);
   (42902, 42920, 2, 1%Z);
   (42922, 42922, 1, (-42308)%Z);
   (42923, 42923, 1, (-42319)%Z);
   (42924, 42924, 1, (-42315)%Z);
   (42925, 42925, 1, (-42305)%Z);
   (42926, 42926, 1, (-42308)%Z);
   (42928, 42928, 1, (-42258)%Z);
   (42929, 42929, 1, (-42282)%Z);
   (42930, 42930, 1, (-42261)%Z);
   (42931, 42931, 1, 928%Z);
   (42932, 42946, 2, 1%Z);
   (42948, 42948, 1, (-48)%Z);
   (42949, 42949, 1, (-42307)%Z);
   (42950, 42950, 1, (-35384)%Z);
   (42951, 42953, 2, 1%Z);
   (42960, 42960, 1, 1%Z);
   (42966, 42968, 2, 1%Z);
   (42997, 42997, 1, 1%Z);
   (65313, 65338, 1, 32%Z);
   (66560, 66599, 1, 40%Z);
   (66736, 66771, 1, 40%Z);
   (66928, 66938, 1, 39%Z);
   (66940, 66954, 1, 39%Z);
   (66956, 66962, 1, 39%Z);
   (66964, 66965, 1, 39%Z);
   (68736, 68786, 1, 64%Z);
   (71840, 71871, 1, 32%Z);
   (93760, 93791, 1, 32%Z);
   (125184, 125217, 1, 34%Z)].

Definition lower_multi : list (N * list N) :=
  [(304, [105; 775])].

Definition upper_runs : list (N * N * N * Z) :=
  [(97, 122, 1, (-32)%Z);
   (181, 181, 1, 743%Z);
   (224, 246, 1, (-32)%Z);
   (248, 254, 1, (-32)%Z);
   (255, 255, 1, 121%Z);
   (257, 303, 2, (-1)%Z);
   (305, 305, 1, (-232)%Z);
   (307, 311, 2, (-1)%Z);
   (314, 328, 2, (-1)%Z);
   (331, 375, 2, (-1)%Z);
   (378, 382, 2, (-1)%Z);
   (383, 383, 1, (-300)%Z);
   (384, 384, 1, 195%Z);
   (387, 389, 2, (-1)%Z);
   (392, 392, 1, (-1)%Z);
   (396, 396, 1, (-1)%Z);
   (402, 402, 1, (-1)%Z);
   (405, 405, 1, 97%Z);
   (409, 409, 1, (-1)%Z);
   (410, 410, 1, 163%Z);
   (414, 414, 1, 130%Z);
   (417, 421, 2, (-1)%Z);
   (424, 424, 1, (-1)%Z);
   (429, 429, 1, (-1)%Z);
   (432, 432, 1, (-1)%Z);
   (436, 438, 2, (-1)%Z);
   (441, 441, 1, (-1)%Z);
   (445, 445, 1, (-1)%Z);
   (447, 447, 1, 56%Z);
   (453, 453, 1, (-1)%Z);
   (454, 454, 1, (-2)%Z);
   (456, 456, 1, (-1)%Z);
   (457, 457, 1, (-2)%Z);
   (459, 459, 1, (-1)%Z);
   (460, 460, 1, (-2)%Z);
   (462, 476, 2, (-1)%Z);
   (477, 477, 1, (-79)%Z);
   (479, 495, 2, (-1)%Z);
   (498, 498, 1, (-1)%Z);
   (499, 499, 1, (-2)%Z);
   (501, 501, 1, (-1)%Z);
   (505, 543, 2, (-1)%Z);
   (547, 563, 2, (-1)%Z);
   (572, 572, 1, (-1)%Z);
   (575, 576, 1, 10815%Z);
   (578, 578, 1, (-1)%Z);
   (583, 591, 2, (-1)%Z);
   (592, 592, 1, 10783%Z);
   (593, 593, 1, 10780%Z);
   (594, 594, 1, 10782%Z);
   (595, 595, 1, (-210)%Z);
   (596, 596, 1, (-206)%Z);
   (598, 599, 1, (-205)%Z);
   (601, 601, 1, (-202)%Z);
   (603, 603, 1, (-203)%Z);
   (604, 604, 1, 42319%Z);
   (608, 608, 1, (-205)%Z);
   (609, 609, 1, 42315%Z);
   (611, 611, 1, (-207)%Z);
   (613, 613, 1, 42280%Z);
   (614, 614, 1, 42308%Z);
   (616, 616, 1, (-209)%Z);
   (617, 617, 1, (-211)%Z);
   (618, 618, 1, 42308%Z);
   (619, 619, 1, 10743%Z);
   (620, 620, 1, 42305%Z);
   (623, 623, 1, (-211)%Z);
   (625, 625, 1, 10749%Z);
   (626, 626, 1, (-213)%Z);
   (629, 629, 1, (-214)%Z);
   (637, 637, 1, 10727%Z);
   (640, 640, 1, (-218)%Z);
   (642, 642, 1, 42307%Z);
   (643, 643, 1, (-218)%Z);
   (647, 647, 1, 42282%Z);
   (648, 648, 1, (-218)%Z);
   (649, 649, 1, (-69)%Z);
   (650, 651, 1, (-217)%Z);
   (652, 652, 1, (-71)%Z);
   (658, 658, 1, (-219)%Z);
   (669, 669, 1, 42261%Z);
   (670, 670, 1, 42258%Z);
   (837, 837, 1, 84%Z);
   (881, 883, 2, (-1)%Z);
   (887, 887, 1, (-1)%Z);
   (891, 893, 1, 130%Z);
   (940, 940, 1, (-38)%Z);
   (941, 943, 1, (-37)%Z);
   (945, 961, 1, (-32)%Z);
   (962, 962, 1, (-31)%Z);
   (963, 971, 1, (-32)%Z);
   (972, 972, 1, (-64)%Z);
   (973, 974, 1, (-63)%Z);
   (976, 976, 1, (-62)%Z);
   (977, 977, 1, (-57)%Z);
   (981, 981, 1, (-47)%Z);
   (982, 982, 1, (-54)%Z);
   (983, 983, 1, (-8)%Z);
   (985, 1007, 2, (-1)%Z);
   (1008, 1008, 1, (-86)%Z);
   (1009, 1009, 1, (-80)%Z);
   (1010, 1010, 1, 7%Z);
   (1011, 1011, 1, (-116)%Z);
   (1013, 1013, 1, (-96)%Z);
   (1016, 1016, 1, (-1)%Z);
   (1019, 1019, 1, (-1)%Z);
   (1072, 1103, 1, (-32)%Z);
   (1104, 1119, 1, (-80)%Z);
   (1121, 1153, 2, (-1)%Z);
   (1163, 1215, 2, (-1)%Z);
   (1218, 1230, 2, (-1)%Z);
   (1231, 1231, 1, (-15)%Z);
   (1233, 1327, 2, (-1)%Z);
   (1377, 1414, 1, (-48)%Z);
   (4304, 4346, 1, 3008%Z);
   (4349, 4351, 1, 3008%Z);
   (5112, 5117, 1, (-8)%Z);
   (7296, 7296, 1, (-6254)%Z);
   (7297, 7297, 1, (-6253)%Z);
   (7298, 7298, 1, (-6244)%Z);
   (7299, 7300, 1, (-6242)%Z);
   (7301, 7301, 1, (-6243)%Z);
   (7302, 7302, 1, (-6236)%Z);
   (7303, 7303, 1, (-6181)%Z);
   (7304, 7304, 1, 35266%Z);
   (7545, 7545, 1, 35332%Z);
   (7549, 7549, 1, 3814%Z);
   (7566, 7566, 1, 35384%Z);
   (7681, 7829, 2, (-1)%Z);
   (7835, 7835, 1, (-59)%Z);
   (7841, 7935, 2, (-1)%Z);
   (7936, 7943, 1, 8%Z);
   (7952, 7957, 1, 8%Z);
   (7968, 7975, 1, 8%Z);
   (7984, 7991, 1, 8%Z);
   (8000, 8005, 1, 8%Z);
   (8017, 8023, 2, 8%Z);
   (8032, 8039, 1, 8%Z);
   (8048, 8049, 1, 74%Z);
   (8050, 8053, 1, 86%Z);
   (8054, 8055, 1, 100%Z);
   (8056, 8057, 1, 128%Z);
   (8058, 8059, 1, 112%Z);
   (8060, 8061, 1, 126%Z);
   (8112, 8113, 1, 8%Z);
   (8126, 8126, 1, (-7205)%Z);
   (8144, 8145, 1, 8%Z);
   (8160, 8161, 1, 8%Z);
   (8165, 8165, 1, 7%Z);
   (8526, 8526, 1, (-28)%Z);
   (8560, 8575, 1, (-16)%Z);
   (8580, 8580, 1, (-1)%Z);
   (9424, 9449, 1, (-26)%Z);
   (11312, 11359, 1, (-48)%Z);
   (11361, 11361, 1, (-1)%Z);
   (11365, 11365, 1, (-10795)%Z);
   (11366, 11366, 1, (-10792)%Z);
   (11368, 11372, 2, (-1)%Z);
   (11379, 11379, 1, (-1)%Z);
   (11382, 11382, 1, (-1)%Z);
   (11393, 11491, 2, (-1)%Z);
   (11500, 11502, 2, (-1)%Z);
   (11507, 11507, 1, (-1)%Z);
   (11520, 11557, 1, (-7264)%Z);
   (11559, 11559, 1, (-7264)%Z);
   (11565, 11565, 1, (-7264)%Z);
   (42561, 42605, 2, (-1)%Z);
   (42625, 42651, 2, (-1)%Z);
   (42787, 42799, 2, (-1)%Z);
   (42803, 42863, 2, (-1)%Z);
   (42874, 42876, 2, (-1)%Z);
   (42879, 42887, 2, (-1)%Z);
   (42892, 42892, 1, (-1)%Z);
   (42897, 42899, 2, (-1)%Z);
   (42900, 42900, 1, 48%Z);
   (42903, 42921, 2, (-1)%Z);
   (42933, 42947, 2, (-1)%Z);
   (42952, 42954, 2, (-1)%Z);
   (42961, 42961, 1, (-1)%Z);
   (42967, 42969, 2, (-1)%Z);
   (42998, 42998, 1, (-1)%Z);
   (43859, 43859, 1, (-928)%Z);
   (43888, 43967, 1, (-38864)%Z);
   (65345, 65370, 1, (-32)%Z);
   (66600, 66639, 1, (-40)%Z);
   (66776, 66811, 1, (-40)%Z);
   (66967, 66977, 1, (-39)%Z);
   (66979, 66993, 1, (-39)%Z);
   (66995, 67001, 1, (-39)%Z);
   (67003, 67004, 1, (-39)%Z);
   (68800, 68850, 1, (-64)%Z);
   (71872, 71903, 1, (-32)%Z);
   (93792, 93823, 1, (-32)%Z);
   (125218, 125251, 1, (-34)%Z)].

Definition upper_multi : list (N * list N) :=
  [(223, [83; 83]);
   (329, [700; 78]);
   (496, [74; 780]);
   (912, [921; 776; 769]);
   (944, [933; 776; 769]);
   (1415, [1333; 1362]);
   (7830, [72; 817]);
   (7831, [84; 776]);
   (7832, [87; 778]);
   (7833, [89; 778]);
   (7834, [65; 702]);
   (8016, [933; 787]);
   (8018, [933; 787; 768]);
   (8020, [933; 787; 769]);
   (8022, [933; 787; 834]);
   (8064, [7944; 921]);
   (8065, [7945; 921]);
   (8066, [7946; 921]);
   (8067, [7947; 921]);
   (8068, [7948; 921]);
   (8069, [7949; 921]);
   (8070, [7950; 921]);
   (8071, [7951; 921]);
   (8072, [7944; 921]);
   (8073, [7945; 921]);
   (8074, [7946; 921]);
   (8075, [7947; 921]);
   (8076, [7948; 921]);
   (8077, [7949; 921]);
   (8078, [7950; 921]);
   (8079, [7951; 921]);
   (8080, [7976; 921]);
   (8081, [7977; 921]);
   (8082, [7978; 921]);
   (8083, [7979; 921]);
   (8084, [7980; 921]);
   (8085, [7981; 921]);
   (8086, [7982; 921]);
   (8087, [7983; 921]);
   (8088, [7976; 921]);
   (8089, [7977; 921]);
   (8090, [7978; 921]);
   (8091, [7979; 921]);
   (8092, [7980; 921]);
   (8093, [7981; 921]);
   (8094, [7982; 921]);
   (8095, [7983; 921]);
   (8096, [8040; 921]);
   (8097, [8041; 921]);
   (8098, [8042; 921]);
   (8099, [8043; 921]);
   (8100, [8044; 921]);
   (8101, [8045; 921]);
   (8102, [8046; 921]);
   (8103, [8047; 921]);
   (8104, [8040; 921]);
   (8105, [8041; 921]);
   (8106, [8042; 921]);
   (8107, [8043; 921]);
   (8108, [8044; 921]);
   (8109, [8045; 921]);
   (8110, [8046; 921]);
   (8111, [8047; 921]);
   (8114, [8122; 921]);
   (8115, [913; 921]);
   (8116, [902; 921]);
   (8118, [913; 834]);
   (8119, [913; 834; 921]);
   (8124, [913; 921]);
   (8130, [8138; 921]);
   (8131, [919; 921]);
   (8132, [905; 921]);
   (8134, [919; 834]);
   (8135, [919; 834; 921]);
   (8140, [919; 921]);
   (8146, [921; 776; 768]);
   (8147, [921; 776; 769]);
   (8150, [921; 834]);
   (8151, [921; 776; 834]);
   (8162, [933; 776; 768]);
   (8163, [933; 776; 769]);
   (8164, [929; 787]);
   (8166, [933; 834]);
   (8167, [933; 776; 834]);
   (8178, [8186; 921]);
   (8179, [937; 921]);
   (8180, [911; 921]);
   (8182, [937; 834]);
   (8183, [937; 834; 921]);
   (8188, [937; 921]);
   (64256, [70; 70]);
   (64257, [70; 73]);
   (64258, [70; 76]);
   (64259, [70; 70; 73]);
   (64260, [70; 70; 76]);
   (64261, [83; 84]);
   (64262, [83; 84]);
   (64275, [1348; 1350]);
   (64276, [1348; 1333]);
   (64277, [1348; 1339]);
   (64278, [1358; 1350]);
   (64279, [1348; 1341])].
