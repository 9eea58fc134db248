(** * Decimal literals that stand for rational numbers
    GENERATED by tools/gen_read.py.  The formulas of the hierarchy classes contain floating literals with 16 or 17
    significant digits, e.g. 20474074074074073 / 10^14, that are roundings of rational numbers, here 5528/27.
    [hier_reading] lists, for 553 of the 574 literals, a rational number within 4 * 10^-16 of it (relatively); identities
    between formulas hold exactly only for these rationals. Nothing here is code: where it is used, the statement says so. *)
From Coq Require Import ZArith List.
Import ListNotations.
Local Open Scope Z_scope.

(** (m, k), (a, b): the literal m / 10^k is read as a / b *)
Definition hier_reading : list ((Z * Z) * (Z * positive)) := [
  ((267558024691358, 13), (108361, 4050%positive));
  ((333517037037037, 12), (225124, 675%positive));
  ((363037037037037, 12), (9802, 27%positive));
  ((434270658436214, 12), (10552777, 24300%positive));
  ((434787037037037, 13), (46957, 1080%positive));
  ((516797085048011, 12), (15069803, 29160%positive));
  ((535116049382716, 13), (108361, 2025%positive));
  ((634115454961134, 12), (2773621, 4374%positive));
  ((664172335600907, 14), (2929, 441%positive));
  ((696052994037121, 14), (8287903, 1190700%positive));
  ((723524901318552, 13), (8615011, 119070%positive));
  ((848290343915344, 14), (256523, 30240%positive));
  ((880679012345679, 13), (14267, 162%positive));
  ((904877462277092, 13), (65965567, 729000%positive));
  ((972837434920635, 9), (306443792, 315%positive));
  ((974135390946502, 13), (2367149, 24300%positive));
  ((990854119425548, 15), (13109, 13230%positive));
  ((1030179012345679, 13), (166889, 1620%positive));
  ((1033594170096022, 12), (15069803, 14580%positive));
  ((1039638683127572, 12), (1263161, 1215%positive));
  ((1047055157750343, 13), (76330321, 729000%positive));
  ((1071816402116402, 12), (2025733, 1890%positive));
  ((1121664609053498, 13), (545129, 4860%positive));
  ((1195824329218107, 12), (36323164, 30375%positive));
  ((1206039814814815, 12), (1302523, 1080%positive));
  ((1252907281431091, 14), (4972789, 396900%positive));
  ((1365684051398337, 15), (9034, 6615%positive));
  ((1368138477366255, 12), (6649153, 4860%positive));
  ((1376673072702332, 13), (100359467, 729000%positive));
  ((1399649785840262, 14), (555521, 39690%positive));
  ((1403352380952381, 12), (147352, 105%positive));
  ((1427379365079365, 12), (899249, 630%positive));
  ((1467968136853605, 13), (440473234459, 3000564000%positive));
  ((1473919148400101, 13), (58499851, 396900%positive));
  ((1476358024691358, 14), (23917, 1620%positive));
  ((1491268253968254, 12), (939499, 630%positive));
  ((1494746913580247, 13), (242149, 1620%positive));
  ((1508801470186938, 13), (452725537459, 3000564000%positive));
  ((1513649301931237, 14), (378483467, 25004700%positive));
  ((1613888888888889, 14), (581, 36%positive));
  ((1657490476190476, 12), (348073, 210%positive));
  ((1670354173415398, 15), (309383, 185220%positive));
  ((1677037037037037, 14), (2264, 135%positive));
  ((1698404168016413, 14), (15728921, 926100%positive));
  ((1733220122616948, 14), (5159363, 297675%positive));
  ((1749093621399177, 12), (1700119, 972%positive));
  ((1770679012345679, 14), (5737, 324%positive));
  ((1777343371446168, 14), (222209689, 12502350%positive));
  ((1777777777777778, 14), (160, 9%positive));
  ((1798967901234568, 12), (728582, 405%positive));
  ((1815185185185185, 13), (4901, 27%positive));
  ((1873496051734274, 12), (398352098, 212625%positive));
  ((1885172839506173, 13), (152699, 810%positive));
  ((1903527287429963, 13), (3966427397, 20837250%positive));
  ((1904424279835391, 13), (4627751, 24300%positive));
  ((1917798353909465, 14), (18641, 972%positive));
  ((1962111111111111, 12), (17659, 9%positive));
  ((2038689796251638, 13), (30586096049, 150028200%positive));
  ((2113489518770471, 13), (83884399, 396900%positive));
  ((2173935185185185, 14), (46957, 2160%positive));
  ((2180061728395062, 14), (35317, 1620%positive));
  ((2242274074074074, 13), (302707, 1350%positive));
  ((2247165532879819, 15), (991, 441%positive));
  ((2277037037037037, 13), (6148, 27%positive));
  ((2345557475994513, 12), (8549557, 3645%positive));
  ((2421432098765432, 14), (49034, 2025%positive));
  ((2511111111111111, 15), (113, 45%positive));
  ((2525348765432099, 13), (818213, 3240%positive));
  ((2577056386999244, 13), (8523614, 33075%positive));
  ((2621827160493827, 13), (106184, 405%positive));
  ((2656519022158834, 13), (531403689547, 2000376000%positive));
  ((2672878086419753, 13), (346405, 1296%positive));
  ((2684533251028807, 13), (32617079, 121500%positive));
  ((2693333333333333, 13), (808, 3%positive));
  ((2731368102796674, 15), (18068, 6615%positive));
  ((2753346145404664, 13), (100359467, 364500%positive));
  ((2777777777777778, 16), (5, 18%positive));
  ((2929938520304849, 12), (54946675289, 18753525%positive));
  ((2986666666666667, 13), (896, 3%positive));
  ((2986850529100529, 13), (2258059, 7560%positive));
  ((3001378086419753, 13), (1944893, 6480%positive));
  ((3048888888888889, 13), (2744, 9%positive));
  ((3127354938271605, 13), (1013263, 3240%positive));
  ((3148888888888889, 13), (2834, 9%positive));
  ((3149166666666667, 13), (3779, 12%positive));
  ((3154834164777022, 13), (10434614, 33075%positive));
  ((3172798353909465, 14), (77099, 2430%positive));
  ((3230218244170096, 14), (23548291, 729000%positive));
  ((3246990740740741, 13), (70135, 216%positive));
  ((3251234567901235, 14), (5267, 162%positive));
  ((3255555555555556, 14), (293, 9%positive));
  ((3262222222222222, 14), (1468, 45%positive));
  ((3308944644326867, 13), (140712871, 425250%positive));
  ((3314980952380952, 12), (348073, 105%positive));
  ((3331481481481482, 14), (1799, 54%positive));
  ((3340708346830796, 15), (309383, 92610%positive));
  ((3346883950617284, 13), (677744, 2025%positive));
  ((3361121882086168, 14), (5929019, 176400%positive));
  ((3382716049382716, 14), (2740, 81%positive));
  ((3394444444444444, 14), (611, 18%positive));
  ((3498187242798354, 12), (1700119, 486%positive));
  ((3505555555555556, 14), (631, 18%positive));
  ((3522222222222222, 15), (317, 90%positive));
  ((3546111111111111, 13), (6383, 18%positive));
  ((3554686742892336, 14), (222209689, 6251175%positive));
  ((3555555555555556, 14), (320, 9%positive));
  ((3558333333333333, 13), (2135, 6%positive));
  ((3587766975308642, 13), (2324873, 6480%positive));
  ((3633804294212688, 13), (181724372471, 500094000%positive));
  ((3669808641975309, 14), (594509, 16200%positive));
  ((3685208333333333, 13), (17689, 48%positive));
  ((3699166666666667, 13), (4439, 12%positive));
  ((3746379566641471, 14), (29738761, 793800%positive));
  ((3746992103468548, 12), (796704196, 212625%positive));
  ((3770416666666667, 13), (9049, 24%positive));
  ((3808296296296297, 14), (25706, 675%positive));
  ((3855222222222222, 14), (34697, 900%positive));
  ((3879568149934479, 12), (72755578289, 18753525%positive));
  ((3891543209876543, 14), (63043, 1620%positive));
  ((3972878086419753, 13), (514885, 1296%positive));
  ((3978600823045267, 14), (9668, 243%positive));
  ((4004804232804233, 13), (378454, 945%positive));
  ((4055555555555556, 14), (365, 9%positive));
  ((4062899291266575, 13), (35542243, 87480%positive));
  ((4077379592503276, 13), (30586096049, 75014100%positive));
  ((4092597736625514, 13), (795601, 1944%positive));
  ((4100423280423281, 14), (38749, 945%positive));
  ((4117079195011338, 13), (72625277, 176400%positive));
  ((4131092729766804, 12), (15057833, 3645%positive));
  ((4222222222222222, 15), (38, 9%positive));
  ((4249508692365835, 15), (56221, 13230%positive));
  ((4308888888888889, 13), (3878, 9%positive));
  ((4322899470899471, 13), (408514, 945%positive));
  ((4326984126984127, 15), (1363, 315%positive));
  ((4383446712018141, 15), (19331, 4410%positive));
  ((4444444444444445, 15), (40, 9%positive));
  ((4463716049382716, 14), (361561, 8100%positive));
  ((4477037037037037, 13), (12088, 27%positive));
  ((4623658770135215, 12), (983105446, 212625%positive));
  ((4625617283950617, 14), (14987, 324%positive));
  ((4646594650205761, 14), (451649, 9720%positive));
  ((4666666666666667, 15), (14, 3%positive));
  ((4692605281207133, 12), (13683637, 2916%positive));
  ((4705555555555556, 15), (847, 180%positive));
  ((4743703703703704, 13), (12808, 27%positive));
  ((4745840262030738, 14), (941812, 19845%positive));
  ((4756630658436214, 14), (924689, 19440%positive));
  ((4764166666666667, 13), (5717, 12%positive));
  ((4773436213991769, 14), (231989, 4860%positive));
  ((4814302469135802, 13), (779917, 1620%positive));
  ((4832548148148148, 12), (652394, 135%positive));
  ((4873938614540466, 12), (14212405, 2916%positive));
  ((4877777777777778, 14), (439, 9%positive));
  ((4890899470899471, 14), (46219, 945%positive));
  ((4972923096707819, 14), (773389, 15552%positive));
  ((5041352880658436, 14), (980039, 19440%positive));
  ((5043888888888889, 13), (9079, 18%positive));
  ((5122583486304575, 14), (142320737, 2778300%positive));
  ((5149222171831696, 13), (51093157, 99225%positive));
  ((5150895061728395, 14), (166889, 3240%positive));
  ((5188888888888889, 15), (467, 90%positive));
  ((5222901234567901, 14), (84611, 1620%positive));
  ((5243654320987654, 13), (212368, 405%positive));
  ((5275555555555555, 13), (4748, 9%positive));
  ((5345756172839506, 13), (346405, 648%positive));
  ((5352578189300411, 13), (2601353, 4860%positive));
  ((5359278609221467, 13), (17725814, 33075%positive));
  ((5361152102791342, 13), (201080999977, 375070500%positive));
  ((5367597736625514, 13), (1043461, 1944%positive));
  ((5377777777777778, 14), (484, 9%positive));
  ((5393518518518518, 14), (5825, 108%positive));
  ((5416666666666667, 15), (65, 12%positive));
  ((5431291609977325, 13), (5987999, 11025%positive));
  ((5449074074074074, 14), (5885, 108%positive));
  ((5494732510288066, 14), (66761, 1215%positive));
  ((5530797839506173, 12), (3583957, 648%positive));
  ((5540833333333334, 13), (6649, 12%positive));
  ((5545597659639988, 14), (99047147, 1786050%positive));
  ((5555555555555556, 16), (5, 9%positive));
  ((5575486111111111, 13), (80287, 144%positive));
  ((5605555555555555, 13), (5045, 9%positive));
  ((5704333333333333, 13), (17113, 30%positive));
  ((5707039094650206, 12), (2773621, 486%positive));
  ((5791343915343915, 13), (547282, 945%positive));
  ((5812930880994373, 13), (34607284, 59535%positive));
  ((5822222222222222, 15), (262, 45%positive));
  ((5851892843532082, 13), (219487237477, 375070500%positive));
  ((5870953360768176, 13), (855985, 1458%positive));
  ((5940859288013853, 13), (148549404239, 250047000%positive));
  ((5960571428571428, 13), (20862, 35%positive));
  ((5996859861506036, 13), (149949681779, 250047000%positive));
  ((6002756172839506, 13), (1944893, 3240%positive));
  ((6045820987654321, 13), (979423, 1620%positive));
  ((6097777777777778, 13), (5488, 9%positive));
  ((6173605967078189, 14), (1200149, 19440%positive));
  ((6185941700960219, 13), (9019103, 14580%positive));
  ((6219670781893004, 13), (151138, 243%positive));
  ((6228225754358181, 13), (1297790971, 2083725%positive));
  ((6281736268201578, 13), (314145861731, 500094000%positive));
  ((6283249657064472, 13), (4580489, 7290%positive));
  ((6291383219954648, 16), (5549, 8820%positive));
  ((6297777777777778, 13), (5668, 9%positive));
  ((6298333333333334, 13), (3779, 6%positive));
  ((6361111111111111, 15), (229, 36%positive));
  ((6442481481481482, 13), (173947, 270%positive));
  ((6458505291005291, 14), (488263, 7560%positive));
  ((6460436488340191, 14), (23548291, 364500%positive));
  ((6586121882086168, 14), (11617919, 176400%positive));
  ((6623148148148148, 14), (7153, 108%positive));
  ((6624060846560846, 14), (500779, 7560%positive));
  ((6629629629629629, 14), (1790, 27%positive));
  ((6658120973257028, 16), (7399303, 11113200%positive));
  ((6664814814814815, 14), (3599, 54%positive));
  ((6666666666666666, 16), (2, 3%positive));
  ((6666666666666667, 15), (20, 3%positive));
  ((6691358024691358, 14), (5420, 81%positive));
  ((6750720164609054, 14), (65617, 972%positive));
  ((6900618312757201, 13), (6707401, 9720%positive));
  ((6952444444444444, 12), (62572, 9%positive));
  ((6980036008230452, 14), (1356919, 19440%positive));
  ((7011111111111111, 14), (631, 9%positive));
  ((7067129629629629, 14), (15265, 216%positive));
  ((7077322197026959, 13), (140449459, 198450%positive));
  ((7092222222222222, 13), (6383, 9%positive));
  ((7127314814814815, 14), (15395, 216%positive));
  ((7133333333333333, 14), (214, 3%positive));
  ((7134670781893004, 14), (69349, 972%positive));
  ((7139201259763164, 13), (141677449, 198450%positive));
  ((7174372427983539, 14), (697349, 9720%positive));
  ((7175533950617285, 13), (2324873, 3240%positive));
  ((7176726864605652, 14), (703391, 9801%positive));
  ((7180550411522634, 14), (1395899, 19440%positive));
  ((7285714285714285, 16), (51, 70%positive));
  ((7369595742000504, 14), (58499851, 793800%positive));
  ((7370416666666666, 13), (17689, 24%positive));
  ((7378472976680384, 14), (13447267, 182250%positive));
  ((7387187379972565, 12), (26926298, 3645%positive));
  ((7398333333333334, 13), (4439, 6%positive));
  ((7434787037037037, 13), (802957, 1080%positive));
  ((7492759133282942, 14), (29738761, 396900%positive));
  ((7516137566137566, 15), (28411, 3780%positive));
  ((7566053917863442, 13), (15014834, 19845%positive));
  ((7566666666666667, 14), (227, 3%positive));
  ((7610320987654321, 13), (308218, 405%positive));
  ((7653372960293683, 14), (742606013, 9702990%positive));
  ((7666666666666667, 14), (230, 3%positive));
  ((7724522050654477, 13), (1609577971, 2083725%positive));
  ((7731861111111111, 13), (278347, 360%positive));
  ((7733484630889393, 14), (61388401, 793800%positive));
  ((7749382716049382, 14), (6277, 81%positive));
  ((7794391534391535, 14), (73657, 945%positive));
  ((7818382197186929, 13), (97748150663, 125023500%positive));
  ((7819061728395062, 14), (158336, 2025%positive));
  ((7822304526748971, 16), (95041, 121500%positive));
  ((7887883597883598, 14), (149081, 1890%positive));
  ((7901365226337448, 14), (7680127, 97200%positive));
  ((7913333333333334, 13), (2374, 3%positive));
  ((7945756172839506, 13), (514885, 648%positive));
  ((7954436625514403, 12), (19329281, 2430%positive));
  ((7958863384550371, 14), (119405394763, 1500282000%positive));
  ((7958994722092247, 14), (79604910131, 1000188000%positive));
  ((7981095679012346, 14), (103435, 1296%positive));
  ((7996333333333333, 13), (23989, 30%positive));
  ((8021111111111111, 13), (7219, 9%positive));
  ((8037269841269841, 13), (253174, 315%positive));
  ((8072952380952381, 13), (84766, 105%positive));
  ((8102826641631374, 13), (101304374663, 125023500%positive));
  ((8111111111111111, 14), (730, 9%positive));
  ((8185195473251028, 13), (795601, 972%positive));
  ((8234629629629629, 13), (44467, 54%positive));
  ((8261658179012345, 12), (10707109, 1296%positive));
  ((8266061980347694, 16), (5468, 6615%positive));
  ((8312379629629629, 13), (897737, 1080%positive));
  ((8351481481481482, 13), (22549, 27%positive));
  ((8361265432098766, 14), (54181, 648%positive));
  ((8394493827160494, 14), (339977, 4050%positive));
  ((8440344866031853, 14), (126628974763, 1500282000%positive));
  ((8471655328798186, 16), (1868, 2205%positive));
  ((8473523809523809, 13), (88972, 105%positive));
  ((8484074074074074, 13), (22907, 27%positive));
  ((8653922396522787, 13), (129833240009, 150028200%positive));
  ((8660398148148148, 13), (935323, 1080%positive));
  ((8666666666666667, 14), (260, 3%positive));
  ((8733744855967078, 14), (21223, 243%positive));
  ((8753310385647498, 14), (1094369501, 12502350%positive));
  ((8758981481481482, 13), (94597, 108%positive));
  ((8778148148148148, 13), (23701, 27%positive));
  ((8799989711934157, 14), (855359, 9720%positive));
  ((8816139917695473, 13), (1071161, 1215%positive));
  ((8851534391534392, 14), (83647, 945%positive));
  ((8868796296296297, 13), (95783, 108%positive));
  ((8895555555555555, 14), (4003, 45%positive));
  ((8918662551440329, 14), (433447, 4860%positive));
  ((8965714285714286, 14), (3138, 35%positive));
  ((9071851851851852, 13), (24494, 27%positive));
  ((9077757201646091, 14), (441179, 4860%positive));
  ((9129629629629629, 14), (2465, 27%positive));
  ((9243189300411522, 14), (449219, 4860%positive));
  ((9272211934156378, 14), (901259, 9720%positive));
  ((9293189300411522, 14), (451649, 4860%positive));
  ((9297559533607682, 14), (67779209, 729000%positive));
  ((9301239909297052, 13), (10254617, 11025%positive));
  ((9333333333333334, 15), (28, 3%positive));
  ((9366666666666667, 14), (281, 3%positive));
  ((9368582346518855, 14), (11155171, 119070%positive));
  ((9398981481481482, 13), (101509, 108%positive));
  ((9425864197530865, 14), (152699, 1620%positive));
  ((9456843537414966, 14), (347539, 3675%positive));
  ((9516896090534979, 14), (9250423, 97200%positive));
  ((9582962962962963, 13), (25874, 27%positive));
  ((9603533282942807, 13), (95291059, 99225%positive));
  ((9630333282942806, 13), (95556982, 99225%positive));
  ((9655703703703703, 14), (65176, 675%positive));
  ((9661111111111111, 13), (8695, 9%positive));
  ((9695148419197191, 14), (96969711071, 1000188000%positive));
  ((9770987654320987, 14), (15829, 162%positive));
  ((9888888888888889, 14), (890, 9%positive));
  ((9901996399176954, 13), (19249481, 19440%positive));
  ((9993816872427983, 14), (971399, 9720%positive));
  ((10011111111111111, 15), (901, 90%positive));
  ((10070386243386243, 13), (1903303, 1890%positive));
  ((10129629629629629, 14), (2735, 27%positive));
  ((10148220164609053, 14), (986407, 9720%positive));
  ((10177777777777777, 14), (916, 9%positive));
  ((10296795464852607, 13), (11352217, 11025%positive));
  ((10353004115226338, 13), (251578, 243%positive));
  ((10364814814814815, 14), (5597, 54%positive));
  ((10513227513227513, 15), (1987, 189%positive));
  ((10650581170739901, 15), (12681647, 1190700%positive));
  ((10702990137854083, 16), (11894447, 11113200%positive));
  ((10735195473251028, 13), (1043461, 972%positive));
  ((10841585681891803, 16), (1338719, 1234800%positive));
  ((10911799176954733, 14), (3314459, 30375%positive));
  ((10955663580246913, 14), (709927, 6480%positive));
  ((10979135802469136, 14), (88931, 810%positive));
  ((11018859670781893, 14), (26775829, 243000%positive));
  ((11083172839506174, 13), (897737, 810%positive));
  ((11226954732510288, 15), (54563, 4860%positive));
  ((11249099794238683, 14), (437365, 3888%positive));
  ((11342592592592593, 15), (1225, 108%positive));
  ((11533333333333333, 14), (346, 3%positive));
  ((11596466666666667, 12), (173947, 15%positive));
  ((11678951989026064, 13), (4256978, 3645%positive));
  ((11703703703703704, 15), (316, 27%positive));
  ((11722222222222221, 15), (211, 18%positive));
  ((11881718576027706, 13), (148549404239, 125023500%positive));
  ((11966666666666667, 14), (359, 3%positive));
  ((11993719723012073, 13), (149949681779, 125023500%positive));
  ((12061367262954565, 16), (1436147, 1190700%positive));
  ((12097407407407407, 14), (32663, 270%positive));
  ((12133086419753086, 15), (49139, 4050%positive));
  ((12137234567901234, 14), (245779, 2025%positive));
  ((12165925925925926, 15), (8212, 675%positive));
  ((12166666666666667, 14), (365, 3%positive));
  ((12311224321827497, 14), (36647437, 297675%positive));
  ((12389529492455418, 15), (9031967, 729000%positive));
  ((12533333333333333, 14), (376, 3%positive));
  ((12546296296296295, 16), (271, 216%positive));
  ((12754644718792867, 13), (4649068, 3645%positive));
  ((12755838871252204, 13), (90407008, 70875%positive));
  ((12796296296296296, 15), (691, 54%positive));
  ((12884830687830688, 13), (2435233, 1890%positive));
  ((12929128086419752, 14), (335123, 2592%positive));
  ((12957407407407408, 14), (6997, 54%positive));
  ((12992592592592592, 14), (3508, 27%positive));
  ((13096296296296296, 14), (3536, 27%positive));
  ((13166666666666666, 15), (79, 6%positive));
  ((13304550264550264, 14), (125728, 945%positive));
  ((13466666666666666, 14), (404, 3%positive));
  ((13801236625514402, 13), (6707401, 4860%positive));
  ((13868641975308641, 15), (28084, 2025%positive));
  ((13960072016460904, 14), (1356919, 9720%positive));
  ((14054626938375586, 13), (175715865103, 125023500%positive));
  ((14077777777777777, 14), (1267, 9%positive));
  ((14094528120713305, 13), (10274911, 7290%positive));
  ((14097654320987654, 13), (114191, 81%positive));
  ((14134259259259258, 14), (15265, 108%positive));
  ((14137566137566138, 16), (1336, 945%positive));
  ((14154644394053919, 13), (140449459, 99225%positive));
  ((14217769547325103, 15), (1727459, 121500%positive));
  ((14257471235407743, 14), (16976371, 119070%positive));
  ((14278402519526328, 13), (141677449, 99225%positive));
  ((14348744855967078, 14), (697349, 4860%positive));
  ((14558641975308642, 15), (4717, 324%positive));
  ((14814814814814815, 15), (400, 27%positive));
  ((14985608465608465, 14), (141614, 945%positive));
  ((15000856244066115, 13), (187545955063, 125023500%positive));
  ((15047685185185185, 14), (32503, 216%positive));
  ((15095520576131688, 14), (7336423, 48600%positive));
  ((15132107835726883, 13), (30029668, 19845%positive));
  ((15133333333333334, 14), (454, 3%positive));
  ((15319349206349207, 13), (965119, 630%positive));
  ((15342283950617284, 13), (248545, 162%positive));
  ((15365555555555557, 13), (13829, 9%positive));
  ((15538193689986284, 14), (14159179, 91125%positive));
  ((15557037037037037, 13), (42004, 27%positive));
  ((15589787379972566, 14), (2272991, 14580%positive));
  ((15666666666666666, 14), (470, 3%positive));
  ((15775767195767196, 14), (149081, 945%positive));
  ((15826666666666667, 13), (4748, 3%positive));
  ((15917989444184494, 14), (79604910131, 500094000%positive));
  ((16013483965014577, 17), (43941, 274400%positive));
  ((16256172839506174, 15), (5267, 324%positive));
  ((16532123960695388, 16), (10936, 6615%positive));
  ((16624759259259258, 13), (897737, 540%positive));
  ((16651666666666667, 13), (9991, 6%positive));
  ((16657654320987654, 13), (134927, 81%positive));
  ((16746360124296632, 14), (19939891, 119070%positive));
  ((16985608465608465, 14), (160514, 945%positive));
  ((17112243218274966, 15), (5093887, 297675%positive));
  ((17176748500881834, 14), (24348041, 141750%positive));
  ((17322652116402118, 15), (523837, 30240%positive));
  ((17474765432098766, 14), (353864, 2025%positive));
  ((17499706655148832, 16), (9723887, 5556600%positive));
  ((17506620771294996, 14), (1094369501, 6251175%positive));
  ((17516754355781114, 14), (3650009897, 20837250%positive));
  ((17599979423868314, 14), (855359, 4860%positive));
  ((17666444444444446, 14), (79499, 450%positive));
  ((17999506172839506, 15), (36449, 2025%positive));
  ((18039172204585539, 13), (127852633, 70875%positive));
  ((18094444444444446, 14), (3257, 18%positive));
  ((18238590744939952, 15), (2171669, 119070%positive));
  ((18290272153635118, 14), (33334021, 182250%positive));
  ((18385989417989417, 13), (1737476, 945%positive));
  ((18544423868312757, 14), (901259, 4860%positive));
  ((18556466666666667, 12), (278347, 15%positive));
  ((18595119067215364, 14), (67779209, 364500%positive));
  ((18796296296296298, 15), (1015, 54%positive));
  ((18852083333333334, 14), (9049, 48%positive));
  ((18915432098765432, 15), (30643, 1620%positive));
  ((18921814814814815, 14), (510889, 2700%positive));
  ((18936666666666668, 12), (56810, 3%positive));
  ((19046006298815823, 14), (75593599, 396900%positive));
  ((19165925925925926, 13), (51748, 27%positive));
  ((19322222222222222, 13), (17390, 9%positive));
  ((19390296838394383, 14), (96969711071, 500094000%positive));
  ((19628349710254471, 14), (3895246, 19845%positive));
  ((19655862427463637, 14), (12287223581, 62511750%positive));
  ((19734567901234566, 15), (3197, 162%positive));
  ((19803992798353909, 13), (19249481, 9720%positive));
  ((19987633744855967, 14), (971399, 4860%positive));
  ((19998139767323744, 14), (6250593568, 31255875%positive));
  ((20024021164021164, 14), (189227, 945%positive));
  ((20174098765432097, 14), (817051, 4050%positive));
  ((20420053497942388, 14), (4962073, 24300%positive));
  ((20474074074074073, 14), (5528, 27%positive));
  ((20490936213991768, 13), (1991719, 972%positive));
  ((21023283362727807, 14), (7152121, 34020%positive));
  ((21026455026455025, 15), (3974, 189%positive));
  ((21157716049382717, 14), (68551, 324%positive));
  ((21349860925479342, 14), (32030812049, 150028200%positive));
  ((21487936507936507, 14), (67687, 315%positive));
  ((21614497354497354, 14), (204257, 945%positive));
  ((21879919341563786, 13), (13292051, 6075%positive));
  ((21911327160493826, 14), (709927, 3240%positive));
  ((22207407407407408, 14), (5996, 27%positive));
  ((22331232608269644, 14), (5697814, 25515%positive));
  ((22709043209876543, 14), (735773, 3240%positive));
  ((22815217939027463, 15), (452768, 19845%positive));
  ((22877777777777777, 14), (2059, 9%positive));
  ((22962962962962963, 16), (62, 27%positive));
  ((23118293850676073, 13), (491552723, 212625%positive));
  ((23333333333333332, 15), (70, 3%positive));
  ((23444444444444443, 15), (211, 9%positive));
  ((23457324263038547, 15), (258617, 11025%positive));
  ((23647986178598424, 16), (109502, 46305%positive));
  ((23728785508324435, 14), (593331163, 2500470%positive));
  ((23825271580142933, 14), (14893594207, 62511750%positive));
  ((23907595982905215, 14), (478241812219, 2000376000%positive));
  ((23914462081128747, 16), (27119, 11340%positive));
  ((23933333333333334, 14), (718, 3%positive));
  ((24239197530864196, 15), (15707, 648%positive));
  ((24779058984910836, 15), (9031967, 364500%positive));
  ((24781172839506173, 15), (80291, 3240%positive));
  ((24983904320987654, 13), (1618957, 648%positive));
  ((25296987654320986, 14), (512264, 2025%positive));
  ((25333590534979425, 15), (98497, 3888%positive));
  ((25424382716049382, 14), (82375, 324%positive));
  ((25493734567901234, 14), (825997, 3240%positive));
  ((25937654320987654, 13), (210095, 81%positive));
  ((26333333333333332, 15), (79, 3%positive));
  ((26353703703703705, 15), (14231, 540%positive));
  ((26575942386831276, 15), (3228977, 121500%positive));
  ((26666666666666665, 16), (8, 3%positive));
  ((26891975308641975, 14), (43565, 162%positive));
  ((27308603395061727, 13), (3539195, 1296%positive));
  ((27599470899470898, 15), (52163, 1890%positive));
  ((27663925002099607, 15), (65878871, 2381400%positive));
  ((27666666666666666, 16), (83, 30%positive));
  ((28155555555555554, 14), (2534, 9%positive));
  ((28335316666666665, 10), (8500595, 3%positive));
  ((28564814814814814, 16), (617, 216%positive));
  ((29117283950617285, 15), (4717, 162%positive));
  ((29324826908541195, 14), (19398373, 66150%positive));
  ((29339173091458804, 14), (19407863, 66150%positive));
  ((29427737997256514, 15), (21452821, 729000%positive));
  ((30137808641975308, 15), (195293, 6480%positive));
  ((30191041152263375, 14), (7336423, 24300%positive));
  ((30209968449931413, 15), (22023067, 729000%positive));
  ((30229104938271604, 14), (979423, 3240%positive));
  ((30394318636096414, 13), (25850368, 8505%positive));
  ((30524826908541195, 14), (20192173, 66150%positive));
  ((30638698412698413, 13), (965119, 315%positive));
  ((30929708504801096, 14), (9019103, 29160%positive));
  ((31141128771790903, 14), (1297790971, 4167450%positive));
  ((31377654320987654, 13), (254159, 81%positive));
  ((32026967930029154, 17), (43941, 137200%positive));
  ((32221604938271606, 16), (52199, 16200%positive));
  ((32221840780308305, 15), (257823187891, 8001504000%positive));
  ((32322576530612244, 16), (253409, 78400%positive));
  ((32333333333333336, 15), (97, 3%positive));
  ((32611111111111114, 15), (587, 18%positive));
  ((33195316666666665, 10), (9958595, 3%positive));
  ((33333333333333335, 16), (10, 3%positive));
  ((35682629270197204, 15), (71378675209, 2000376000%positive));
  ((35881655848700444, 16), (22430251, 6251175%positive));
  ((36171579743008314, 17), (9571, 26460%positive));
  ((36477181489879904, 15), (2171669, 59535%positive));
  ((36767919341563784, 13), (22336511, 6075%positive));
  ((36771978835978834, 13), (3474952, 945%positive));
  ((37043333333333334, 14), (11113, 30%positive));
  ((37114814814814815, 14), (10021, 27%positive));
  ((37173935185185184, 14), (802957, 2160%positive));
  ((37777777777777777, 16), (34, 9%positive));
  ((38051604938271606, 14), (154109, 405%positive));
  ((38622610253272387, 14), (1609577971, 4167450%positive));
  ((39970458847736626, 14), (19425643, 48600%positive));
  ((40186349206349206, 14), (126587, 315%positive));
  ((40271234567901234, 14), (326197, 810%positive));
  ((42637458616780043, 14), (75212477, 176400%positive));
  ((42666666666666664, 15), (128, 3%positive));
  ((42699721850958684, 14), (32030812049, 75014100%positive));
  ((42877777777777777, 14), (3859, 9%positive));
  ((43144444444444446, 14), (3883, 9%positive));
  ((43276982167352537, 14), (1577446, 3645%positive));
  ((43332081128747797, 14), (2456929, 5670%positive));
  ((44290854119425546, 15), (292984, 6615%positive));
  ((45418086419753087, 14), (735773, 1620%positive));
  ((45630435878054925, 15), (905536, 19845%positive));
  ((45755555555555554, 14), (4118, 9%positive));
  ((46112244897959185, 16), (4519, 980%positive));
  ((46745471895783595, 15), (93508520089, 2000376000%positive));
  ((48017666414714034, 14), (95291059, 198450%positive));
  ((48098395061728394, 14), (389597, 810%positive));
  ((48318611111111113, 14), (173947, 360%positive));
  ((48366979423868315, 15), (1469147, 30375%positive));
  ((51273148148148145, 15), (11075, 216%positive));
  ((53385802469135804, 15), (17297, 324%positive));
  ((57666666666666664, 15), (173, 3%positive));
  ((60275617283950616, 15), (195293, 3240%positive));
  ((60407407407407405, 15), (1631, 27%positive));
  ((60833333333333336, 15), (365, 6%positive));
  ((61111111111111114, 15), (550, 9%positive))
].
