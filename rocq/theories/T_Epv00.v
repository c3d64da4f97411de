(** * Tables of crates/tofas/src/epv00_data.rs

    Generated by tools/gen_tables.py from crates/tofas/src/epv00_data.rs; every literal is the exact
    decimal (mantissa, exponent of ten) of the source. *)

From Coq Require Import ZArith List.
Import ListNotations.
Open Scope Z_scope.

(** epv00_data.rs [E0] : [[[R;3];501];3] *)
Definition E0_0 : list (list (Z * Z)) := [
  [(9998292878132, (-13)); (9998921098898, (-13)); (2796207639075, (-18))];
  [(8352579567414, (-15)); ((-2442700893735), (-14)); (1016042198142, (-18))];
  [(5611445335148, (-15)); (8352929742915, (-15)); (8044305033647, (-19))];
  [(1046664295572, (-16)); (1046697300177, (-16)); (4385347909274, (-19))];
  [(3110842534677, (-17)); (3110841876663, (-17)); (3186156414906, (-19))];
  [(255241350355, (-16)); (2570269094593, (-17)); (2272412285792, (-19))];
  [(2137207845781, (-17)); (214738962361, (-16)); (1645620103007, (-19))];
  [(1680240182951, (-17)); (168034438405, (-16)); (1815836921166, (-19))];
  [(1679012370795, (-17)); (1679117312193, (-17)); (1447461676364, (-19))];
  [(1445526946777, (-17)); (144051206844, (-16)); (1430760876382, (-19))];
  [(1091038246184, (-17)); (1135139664999, (-17)); (1120445753226, (-19))];
  [(9344399733932, (-18)); (9345482571018, (-18)); (1090232840797, (-19))];
  [(8993182910652, (-18)); (9007418719568, (-18)); (9715727346551, (-20))];
  [(5665546034116, (-18)); (5671536712314, (-18)); (1036267136217, (-19))];
  [(6844146703035, (-18)); (7451401861666, (-18)); (875266527134, (-19))];
  [(7346610905565, (-18)); (6393470057114, (-18)); (8331864956004, (-20))];
  [(6815396474414, (-18)); (6814275881697, (-18)); (6901658670245, (-20))];
  [(6112787253053, (-18)); (6113705628887, (-18)); (9144536848998, (-20))];
  [(4518120711239, (-18)); (4503851367273, (-18)); (7205085037435, (-20))];
  [(4521963430706, (-18)); (4522249141926, (-18)); (7697874654176, (-20))];
  [(4497426764085, (-18)); (4501794307018, (-18)); (5197545738384, (-20))];
  [(4062190566959, (-18)); (551492748018, (-17)); (5031345378608, (-20))];
  [(5412193480192, (-18)); (4062862799995, (-18)); (452711020584, (-19))];
  [(5469839049386, (-18)); (5414900429712, (-18)); (4753355798089, (-20))];
  [(5205264083477, (-18)); (5463153987424, (-18)); (4296951977516, (-20))];
  [(2149759935455, (-18)); (5071611859329, (-18)); (3855341568387, (-20))];
  [(2279109618501, (-18)); (2195112094455, (-18)); (525393097099, (-19))];
  [(2259282939683, (-18)); (2279139233919, (-18)); (4024630496471, (-20))];
  [(2558950271319, (-18)); (2278386100876, (-18)); (4061069791453, (-20))];
  [(2561581447555, (-18)); (2559088003308, (-18)); (3797883804205, (-20))];
  [(178144111544, (-17)); (2561079286856, (-18)); (2933033225587, (-20))];
  [(1612005874644, (-18)); (1792755796387, (-18)); (3503000930426, (-20))];
  [(1818630667105, (-18)); (1818715656502, (-18)); (367009621405, (-19))];
  [(1818601377529, (-18)); (1818744924791, (-18)); (2905609437008, (-20))];
  [(1554475925257, (-18)); (155451879139, (-17)); (2466827821713, (-20))];
  [(2090948029241, (-18)); (2063265737239, (-18)); (2691647295332, (-20))];
  [(200017634546, (-17)); (1497613520041, (-18)); (2150554667946, (-20))];
  [(1289535917759, (-18)); (2000617940427, (-18)); (223748192268, (-19))];
  [(1281135307881, (-18)); (128973119558, (-17)); (1817741038157, (-20))];
  [(1518229005692, (-18)); (1282657998934, (-18)); (2227820762132, (-20))];
  [(9450128579027, (-19)); (1528915968658, (-18)); (1944713772307, (-20))];
  [(7781119494996, (-19)); (1187304098432, (-18)); (1527340520662, (-20))];
  [(7733407759912, (-19)); (7842782928118, (-19)); (1577282574914, (-20))];
  [(735064431812, (-18)); (7352892280868, (-19)); (1424738825424, (-20))];
  [(6535928827023, (-19)); (6570189360797, (-19)); (1616563121701, (-20))];
  [(6324624183656, (-19)); (632496759041, (-18)); (1401210391692, (-20))];
  [(6298565300557, (-19)); (6298289872283, (-19)); (1488726974214, (-20))];
  [(8587037089179, (-19)); (6476686465855, (-19)); (1692626442388, (-20))];
  [(8299954491035, (-19)); (8587034651234, (-19)); (112357158291, (-19))];
  [(6311263503401, (-19)); (8068948788113, (-19)); (9903308606317, (-21))];
  [(6005646745452, (-19)); (8353786011661, (-19)); (9174533187191, (-21))];
  [(7917715109929, (-19)); (6009324532132, (-19)); (8645985631457, (-21))];
  [(7556958099685, (-19)); (7558158559566, (-19)); ((-1085876492688), (-20))];
  [(6773228244949, (-19)); (5809279504503, (-19)); (9264309077815, (-21))];
  [(5370708577847, (-19)); (5374131950254, (-19)); (8243116984954, (-21))];
  [(5710804266203, (-19)); (5711160507326, (-19)); (8268102113708, (-21))];
  [(5709824583726, (-19)); (5710183170746, (-19)); (9043613988227, (-21))];
  [(5143950896447, (-19)); (514437359061, (-18)); (7432912038789, (-21))];
  [(5088010604546, (-19)); (5103108927267, (-19)); (8586233727285, (-21))];
  [(4960369085172, (-19)); (4960654697891, (-19)); (7612230060131, (-21))];
  [(4803137891183, (-19)); (478638568928, (-18)); (7097787751408, (-21))];
  [(5731747768225, (-19)); (6109911263665, (-19)); (7640237040175, (-21))];
  [(4735947960579, (-19)); (4839898944024, (-19)); (7070445688081, (-21))];
  [(4808348796625, (-19)); (4734822623919, (-19)); (7690770957702, (-21))];
  [(4115073743137, (-19)); (483474147329, (-18)); (8051292542594, (-21))];
  [(5230575889287, (-19)); (5134858581156, (-19)); (5902709104515, (-21))];
  [(5133977889215, (-19)); (5064004264978, (-19)); (5134567496462, (-21))];
  [(5065815825327, (-19)); (3753476772761, (-19)); (5525802046102, (-21))];
  [(4339831593868, (-19)); (4935264014283, (-19)); (5880724784221, (-21))];
  [(3952928638953, (-19)); (3950929600897, (-19)); (521169908137, (-20))];
  [(4898498111942, (-19)); (4895849789777, (-19)); (4891849573562, (-21))];
  [(4757490209328, (-19)); (4215241688886, (-19)); (5150246069997, (-21))];
  [(4727701669749, (-19)); (3796773731132, (-19)); (5102434319633, (-21))];
  [(3800966681863, (-19)); (3114178142515, (-19)); (5083405254252, (-21))];
  [(3257301077939, (-19)); (3260664220838, (-19)); (4206562585682, (-21))];
  [(3255810528674, (-19)); (3976996123008, (-19)); (4663249683579, (-21))];
  [(3252029748187, (-19)); (2801459672924, (-19)); (409947441653, (-20))];
  [(3255505635308, (-19)); (3638931868861, (-19)); (4628251220767, (-21))];
  [(280134521199, (-18)); (2487013269476, (-19)); (5024068728142, (-21))];
  [(368898774097, (-18)); (3034165481994, (-19)); (5120234327758, (-21))];
  [(2475153429458, (-19)); (2676278825586, (-19)); (552402981528, (-20))];
  [(303345774915, (-18)); (2764903818918, (-19)); (475741571886, (-20))];
  [(218674376311, (-18)); (2485149930507, (-19)); (3915786131127, (-21))];
  [(2764777032774, (-19)); (2199305540941, (-19)); (4869053149991, (-21))];
  [(2199028768592, (-19)); (2571106500435, (-19)); (3649365703729, (-21))];
  [(204648282476, (-18)); (2049751817158, (-19)); (3992493949002, (-21))];
  [(2611209147507, (-19)); (2599707296297, (-19)); (3320247477418, (-21))];
  [(2286079656818, (-19)); (1785018072217, (-19)); (3287123739696, (-21))];
  [(1855071202587, (-19)); (2324833891115, (-19)); (3472776811103, (-21))];
  [(2324669506784, (-19)); (1709711119545, (-19)); (3423253294767, (-21))];
  [(1709528015688, (-19)); (2107159351716, (-19)); (3896173898244, (-21))];
  [(2168156875828, (-19)); (1750333080295, (-19)); (3388455337924, (-21))];
  [(2106675556535, (-19)); (2000598210339, (-19)); (3062704716523, (-21))];
  [(1430213830465, (-19)); (1380920248681, (-19)); (32700756004, (-19))];
  [(1388396901944, (-19)); (1412460470299, (-19)); (3101209215259, (-21))];
  [(192225884419, (-18)); (1888459803001, (-19)); (2780883347311, (-21))];
  [(1888460058292, (-19)); (1788370542585, (-19)); (2903605931824, (-21))];
  [(1789449386107, (-19)); (1360893296167, (-19)); (2682014743119, (-21))];
  [(1360803685374, (-19)); (150684653016, (-18)); (2534360108492, (-21))];
  [(1504038014709, (-19)); (1800913376176, (-19)); (2392564882509, (-21))];
  [(1382769533389, (-19)); (1436261390649, (-19)); (2656667254856, (-21))];
  [(1438059769079, (-19)); (1220227114151, (-19)); (2331242096773, (-21))];
  [(1326303260037, (-19)); (1337883603592, (-19)); (2287898363668, (-21))];
  [(115924495054, (-18)); (1159326650738, (-19)); (2336944521306, (-21))];
  [(1433118149136, (-19)); (1352853128569, (-19)); (3156632236269, (-21))];
  [(1234623148594, (-19)); (1433408296083, (-19)); (2982612402766, (-21))];
  [(1233949875344, (-19)); (1234701666518, (-19)); (2774031674807, (-21))];
  [(9927196061299, (-20)); (1234027192007, (-19)); (2295236548638, (-21))];
  [(1242302191316, (-19)); (1244024091797, (-19)); (2190714699873, (-21))];
  [(1098402195201, (-19)); (1097934945516, (-19)); (2191495845045, (-21))];
  [(1158191395315, (-19)); (1254611329856, (-19)); (2492901628386, (-21))];
  [(9048475596241, (-20)); (1158247286784, (-19)); (1993778064319, (-21))];
  [(8889853269023, (-20)); (903907825296, (-19)); (1898146479022, (-21))];
  [(1048694242164, (-19)); (9108024978836, (-20)); (1918280127634, (-21))];
  [(1112308378646, (-19)); (8887068108436, (-20)); (1916351061607, (-21))];
  [(8631729709901, (-20)); (8632374035438, (-20)); (1834720181466, (-21))];
  [(8527816951664, (-20)); (7893186992967, (-20)); (1249201523806, (-21))];
  [(7892139456991, (-20)); (8297650201172, (-20)); (1477304050539, (-21))];
  [(1051782905236, (-19)); (1019759578988, (-19)); (1264316431249, (-21))];
  [(1048219943164, (-19)); (1010037696236, (-19)); (1203526495039, (-21))];
  [(7435760775143, (-20)); (1047727548266, (-19)); (9221681059831, (-22))];
  [(9869574106949, (-20)); (7351993881086, (-20)); (7849278367646, (-22))];
  [(9156886364226, (-20)); (9868771092341, (-20)); (7983392077387, (-22))];
  [(7006834356188, (-20)); (700732195939, (-19)); (7925395431654, (-22))];
  [(9806170182601, (-20)); (6861411679709, (-20)); (7640473285886, (-22))];
  [(9052289673607, (-20)); (7554519809614, (-20)); (5398937754482, (-22))];
  [(7554200867893, (-20)); (9541880448335, (-20)); (5626247550193, (-22))];
  [(8215741286498, (-20)); (7185606722155, (-20)); (5525197197855, (-22))];
  [(7185178575397, (-20)); (713136087171, (-19)); (5407629837898, (-22))];
  [(713072647618, (-19)); (6651142021039, (-20)); (3856739119801, (-22))];
  [(6650894461162, (-20)); (8538618213667, (-20)); (3856425239987, (-22))];
  [(7396888823688, (-20)); (8634954288044, (-20)); (4350867755983, (-22))];
  [(7420588884775, (-20)); (7449415051484, (-20)); (3844113924996, (-22))];
  [(6141181642908, (-20)); (7421047599169, (-20)); (2854869155431, (-22))];
  [(6373557924058, (-20)); (6140694354424, (-20)); (1719227671416, (-22))];
  [(6359474329261, (-20)); (6353525143033, (-20)); (1527846879755, (-22))];
  [(5740173582646, (-20)); (6221964013447, (-20)); (1128229264847, (-22))];
  [(7019864084602, (-20)); (5852480257244, (-20)); (0, 0)];
  [(6398054487042, (-20)); (6398637498911, (-20)); (0, 0)];
  [(7797092650498, (-20)); (7039744069878, (-20)); (0, 0)];
  [(64667600009, (-18)); (6977997694382, (-20)); (0, 0)];
  [(752941704389, (-19)); (7460629558396, (-20)); (0, 0)];
  [(6924571140892, (-20)); (5376577536101, (-20)); (0, 0)];
  [(6220798650222, (-20)); (7530607893556, (-20)); (0, 0)];
  [(5870209391853, (-20)); (6822928971605, (-20)); (0, 0)];
  [(6263953473888, (-20)); (6220772380094, (-20)); (0, 0)];
  [(6257781390012, (-20)); (6586950799043, (-20)); (0, 0)];
  [(5697304945123, (-20)); (5873800565771, (-20)); (0, 0)];
  [(6335438746791, (-20)); (6264346929745, (-20)); (0, 0)];
  [(6377258441152, (-20)); (6257929115669, (-20)); (0, 0)];
  [(6484841818165, (-20)); (5343536033409, (-20)); (0, 0)];
  [(473555148525, (-19)); (5587849781714, (-20)); (0, 0)];
  [(462859599617, (-19)); (6905100845603, (-20)); (0, 0)];
  [(6258152336933, (-20)); (6178957066649, (-20)); (0, 0)];
  [(6196171366594, (-20)); (6187270224331, (-20)); (0, 0)];
  [(6159556952126, (-20)); (5385664291426, (-20)); (0, 0)];
  [(4987741172394, (-20)); (6329363917926, (-20)); (0, 0)];
  [(5459280703142, (-20)); (4546018761604, (-20)); (0, 0)];
  [(4863461189999, (-20)); (6196091049375, (-20)); (0, 0)];
  [(5349912093158, (-20)); (6159555108218, (-20)); (0, 0)];
  [(5673725607806, (-20)); (4995340539317, (-20)); (0, 0)];
  [(4745485060512, (-20)); (5457031243572, (-20)); (0, 0)];
  [(4745379005326, (-20)); (4863461418397, (-20)); (0, 0)];
  [(4049002796321, (-20)); (534294762687, (-19)); (0, 0)];
  [(4247084014515, (-20)); (5674296648439, (-20)); (0, 0)];
  [(4026912363055, (-20)); (4745783120161, (-20)); (0, 0)];
  [(4062935011774, (-20)); (4745676961198, (-20)); (0, 0)];
  [(5347771048509, (-20)); (4049796869973, (-20)); (0, 0)];
  [(4829494136505, (-20)); (424833359694, (-19)); (0, 0)];
  [(4342554404599, (-20)); (4027178070205, (-20)); (0, 0)];
  [(4021599184361, (-20)); (4066543943476, (-20)); (0, 0)];
  [(4104900474558, (-20)); (485886378788, (-19)); (0, 0)];
  [(4376532905131, (-20)); (527739826353, (-19)); (0, 0)];
  [(331459048065, (-19)); (4105635656559, (-20)); (0, 0)];
  [(3232421839643, (-20)); (4376781925772, (-20)); (0, 0)];
  [(3541176318876, (-20)); (3235827894693, (-20)); (0, 0)];
  [(3689831242681, (-20)); (3073244740308, (-20)); (0, 0)];
  [(3890605376774, (-20)); (3088609271373, (-20)); (0, 0)];
  [(303855933978, (-19)); (3393022279836, (-20)); (0, 0)];
  [(3137083969782, (-20)); (3038686508802, (-20)); (0, 0)];
  [(4024004081854, (-20)); (4019677752497, (-20)); (0, 0)];
  [(3300234879283, (-20)); (3288834998232, (-20)); (0, 0)];
  [(3635399155575, (-20)); (3889973794631, (-20)); (0, 0)];
  [(3032668691356, (-20)); (3050438987141, (-20)); (0, 0)];
  [(2809652069058, (-20)); (3601142564638, (-20)); (0, 0)];
  [(3696955383823, (-20)); (3689015557141, (-20)); (0, 0)];
  [(3562894142503, (-20)); (3563471893565, (-20)); (0, 0)];
  [(3510598524148, (-20)); (2776183170667, (-20)); (0, 0)];
  [(3617736142953, (-20)); (2922350530341, (-20)); (0, 0)];
  [(262452491073, (-19)); (3511076917302, (-20)); (0, 0)];
  [(253582420449, (-19)); (3619351007632, (-20)); (0, 0)];
  [(3519787226257, (-20)); (2561254711098, (-20)); (0, 0)];
  [(2578406709982, (-20)); (262690394292, (-19)); (0, 0)];
  [(3423887981473, (-20)); (2550187397083, (-20)); (0, 0)];
  [(2776083886467, (-20)); (2535873526138, (-20)); (0, 0)];
  [(3379592818379, (-20)); (3519786153847, (-20)); (0, 0)];
  [(3050255426284, (-20)); (3424651492873, (-20)); (0, 0)];
  [(2652378350236, (-20)); (2372676630861, (-20)); (0, 0)];
  [(2374498173768, (-20)); (2710980779541, (-20)); (0, 0)];
  [(271645125514, (-19)); (3038710889704, (-20)); (0, 0)];
  [(3038583699229, (-20)); (2220364130585, (-20)); (0, 0)];
  [(222068122876, (-19)); (302588082546, (-19)); (0, 0)];
  [(3044156540912, (-20)); (2784493486864, (-20)); (0, 0)];
  [(2731859923561, (-20)); (2294414142438, (-20)); (0, 0)];
  [(2285603018171, (-20)); (2012723294724, (-20)); (0, 0)];
  [(2025006454555, (-20)); (2036357831958, (-20)); (0, 0)];
  [(2012597519804, (-20)); (2003474823288, (-20)); (0, 0)];
  [(2003406962258, (-20)); (2207144900109, (-20)); (0, 0)];
  [(2207863441371, (-20)); (2481664905135, (-20)); (0, 0)];
  [(2481374305624, (-20)); (2674949182295, (-20)); (0, 0)];
  [(213092328887, (-19)); (2450554720322, (-20)); (0, 0)];
  [(2446370543391, (-20)); (2601975986457, (-20)); (0, 0)];
  [(1932492759052, (-20)); (2199860022848, (-20)); (0, 0)];
  [(2600122568049, (-20)); (2448121172316, (-20)); (0, 0)];
  [(2431754047488, (-20)); (1876014864049, (-20)); (0, 0)];
  [(1875902869209, (-20)); (1874513219396, (-20)); (0, 0)];
  [(1874381139426, (-20)); (2156380842559, (-20)); (0, 0)];
  [(2156696047173, (-20)); (1981691240061, (-20)); (0, 0)];
  [(1965076182484, (-20)); (2329992648539, (-20)); (0, 0)];
  [(2334816372359, (-20)); (1765184135302, (-20)); (0, 0)];
  [(1869937408802, (-20)); (2436368366085, (-20)); (0, 0)];
  [(2436236460883, (-20)); (2164089203889, (-20)); (0, 0)];
  [(1761365216611, (-20)); (1847755034221, (-20)); (0, 0)];
  [(2156289480503, (-20)); (1674798769966, (-20)); (0, 0)];
  [(2164748979255, (-20)); (2222542124356, (-20)); (0, 0)];
  [(2222286670853, (-20)); (2071074505925, (-20)); (0, 0)];
  [(2070901414929, (-20)); (1608224471835, (-20)); (0, 0)];
  [(179274517702, (-19)); (1857583439071, (-20)); (0, 0)];
  [(1841802068445, (-20)); (1793018836159, (-20)); (0, 0)];
  [(1578401631718, (-20)); (1575391221692, (-20)); (0, 0)];
  [(1561690152531, (-20)); (1840132009557, (-20)); (0, 0)];
  [(1558591045463, (-20)); (1760917288281, (-20)); (0, 0)];
  [(1737356469576, (-20)); (1561779518516, (-20)); (0, 0)];
  [(1434755619991, (-20)); (1558687885205, (-20)); (0, 0)];
  [(1482187806654, (-20)); (1951359382579, (-20)); (0, 0)];
  [(1424812827089, (-20)); (1569144275614, (-20)); (0, 0)];
  [(1380282448623, (-20)); (1479130389462, (-20)); (0, 0)];
  [(1811481244566, (-20)); (1467828510764, (-20)); (0, 0)];
  [(1504446185696, (-20)); (162762733744, (-19)); (0, 0)];
  [(1740776154137, (-20)); (1503498479758, (-20)); (0, 0)];
  [(1374339536251, (-20)); (1297967708237, (-20)); (0, 0)];
  [(1761377477704, (-20)); (1374416896634, (-20)); (0, 0)];
  [(1535138225795, (-20)); (1783812325219, (-20)); (0, 0)];
  [(1788140543676, (-20)); (1525884228756, (-20)); (0, 0)];
  [(1375002807996, (-20)); (1451067396763, (-20)); (0, 0)];
  [(1242115758632, (-20)); (129771311195, (-19)); (0, 0)];
  [(1450977333938, (-20)); (146278401282, (-19)); (0, 0)];
  [(1297579575023, (-20)); (1384185980007, (-20)); (0, 0)];
  [(1462667934821, (-20)); (1221497599801, (-20)); (0, 0)];
  [(1381774374799, (-20)); (1560574525896, (-20)); (0, 0)];
  [(1682333169307, (-20)); (1544598372036, (-20)); (0, 0)];
  [(1190812918837, (-20)); (1531678928696, (-20)); (0, 0)];
  [(1221434762106, (-20)); (1349321503795, (-20)); (0, 0)];
  [(154993464486, (-19)); (1252030290917, (-20)); (0, 0)];
  [(125213895305, (-19)); (1459243816687, (-20)); (0, 0)];
  [(1237078905387, (-20)); (1226103625262, (-20)); (0, 0)];
  [(1446953389615, (-20)); (1019449641504, (-20)); (0, 0)];
  [(138844645717, (-19)); (1380789433607, (-20)); (0, 0)];
  [(1019339179228, (-20)); (1019453421658, (-20)); (0, 0)];
  [(1258880815343, (-20)); (1297929434405, (-20)); (0, 0)];
  [(1297768238261, (-20)); (9912677786097, (-21)); (0, 0)];
  [(9913505718094, (-21)); (9829386098599, (-21)); (0, 0)];
  [(9830453155969, (-21)); (1226807746104, (-20)); (0, 0)];
  [(1192615865309, (-20)); (1192691755997, (-20)); (0, 0)];
  [(9835874798277, (-21)); (9836499227081, (-21)); (0, 0)];
  [(9639087569277, (-21)); (9642862564285, (-21)); (0, 0)];
  [(1175716107001, (-20)); (1165184404862, (-20)); (0, 0)];
  [(1018926508678, (-20)); (1175794418818, (-20)); (0, 0)];
  [(9500087869225, (-21)); (1018948635601, (-20)); (0, 0)];
  [(9664192916575, (-21)); (9500383606676, (-21)); (0, 0)];
  [(9612858712203, (-21)); (1227512202906, (-20)); (0, 0)];
  [(1117645675413, (-20)); (9664792009993, (-21)); (0, 0)];
  [(115886405216, (-19)); (9613285666331, (-21)); (0, 0)];
  [(9021043467028, (-21)); (1117906736211, (-20)); (0, 0)];
  [(8836134773563, (-21)); (9611378640782, (-21)); (0, 0)];
  [(1045872200691, (-20)); (884535485237, (-20)); (0, 0)];
  [(1211463487798, (-20)); (10540469666, (-18)); (0, 0)];
  [(8541990804094, (-21)); (1215539124483, (-20)); (0, 0)];
  [(1038720703636, (-20)); (9932460955209, (-21)); (0, 0)];
  [(1126722351445, (-20)); (8785804715043, (-21)); (0, 0)];
  [(8697373859631, (-21)); (8538084097562, (-21)); (0, 0)];
  [(8869380028441, (-21)); (8648994369529, (-21)); (0, 0)];
  [(9247014693258, (-21)); (1039063219067, (-20)); (0, 0)];
  [(920506293095, (-20)); (8867983926439, (-21)); (0, 0)];
  [(8000745038049, (-21)); (8327495955244, (-21)); (0, 0)];
  [(9168973650819, (-21)); (9243088356133, (-21)); (0, 0)];
  [(1075444949238, (-20)); (9205657357835, (-21)); (0, 0)];
  [(7817298525817, (-21)); (1033269714606, (-20)); (0, 0)];
  [(9541469226356, (-21)); (8001706275552, (-21)); (0, 0)];
  [(9821910122027, (-21)); (9171858254191, (-21)); (0, 0)];
  [(9897822023777, (-21)); (1075327150242, (-20)); (0, 0)];
  [(7737289283765, (-21)); (9884866689828, (-21)); (0, 0)];
  [(926020403471, (-20)); (9541835576677, (-21)); (0, 0)];
  [(7320252888486, (-21)); (7739903376237, (-21)); (0, 0)];
  [(7319785780946, (-21)); (7311962684106, (-21)); (0, 0)];
  [(7147219933778, (-21)); (9724904869624, (-21)); (0, 0)];
  [(7946502829878, (-21)); (9251628983612, (-21)); (0, 0)];
  [(9001711808932, (-21)); (7320763787842, (-21)); (0, 0)];
  [(8994041507257, (-21)); (7320296650962, (-21)); (0, 0)];
  [(8298582787358, (-21)); (7947032271039, (-21)); (0, 0)];
  [(852659652071, (-20)); (9005277053115, (-21)); (0, 0)];
  [(8209822103197, (-21)); (8995601652048, (-21)); (0, 0)];
  [(6357049861094, (-21)); (8288040568796, (-21)); (0, 0)];
  [(7370473179049, (-21)); (6359381347255, (-21)); (0, 0)];
  [(7232154664726, (-21)); (8699572228626, (-21)); (0, 0)];
  [(6328765494903, (-21)); (6456797542736, (-21)); (0, 0)];
  [(8030064908595, (-21)); (7424573475452, (-21)); (0, 0)];
  [(6275464259232, (-21)); (7235671196168, (-21)); (0, 0)];
  [(7051897446325, (-21)); (8104015182733, (-21)); (0, 0)];
  [(6161593705428, (-21)); (8098576535937, (-21)); (0, 0)];
  [(7754683957278, (-21)); (6275292346625, (-21)); (0, 0)];
  [(5889928990701, (-21)); (6052432989112, (-21)); (0, 0)];
  [(5705756047075, (-21)); (5705651535817, (-21)); (0, 0)];
  [(5964178808332, (-21)); (5789650115138, (-21)); (0, 0)];
  [(6712446027467, (-21)); (5512132153377, (-21)); (0, 0)];
  [(5941809275464, (-21)); (7388890819102, (-21)); (0, 0)];
  [(5466993627395, (-21)); (5467593991798, (-21)); (0, 0)];
  [(634051209098, (-20)); (6388519802999, (-21)); (0, 0)];
  [(6325505710045, (-21)); (6106777149944, (-21)); (0, 0)];
  [(6164789509685, (-21)); (7383420275489, (-21)); (0, 0)];
  [(526333081243, (-20)); (5505208141738, (-21)); (0, 0)];
  [(5597087780221, (-21)); (6310757462877, (-21)); (0, 0)];
  [(5396556236817, (-21)); (6166904929691, (-21)); (0, 0)];
  [(5396615148223, (-21)); (5263442042754, (-21)); (0, 0)];
  [(7091832443341, (-21)); (5591828082629, (-21)); (0, 0)];
  [(6572352589782, (-21)); (5397051680497, (-21)); (0, 0)];
  [(5960236060795, (-21)); (5396992745159, (-21)); (0, 0)];
  [(5125480043511, (-21)); (6572913000726, (-21)); (0, 0)];
  [(592824186641, (-20)); (5123421866413, (-21)); (0, 0)];
  [(5249600357424, (-21)); (5930495725999, (-21)); (0, 0)];
  [(6059171276087, (-21)); (6431797403933, (-21)); (0, 0)];
  [(5295235081662, (-21)); (5003182207604, (-21)); (0, 0)];
  [(5820561875933, (-21)); (5587731032504, (-21)); (0, 0)];
  [(475469660644, (-20)); (5935263407816, (-21)); (0, 0)];
  [(6385053548955, (-21)); (475601982776, (-20)); (0, 0)];
  [(6589828273941, (-21)); (6599951172637, (-21)); (0, 0)];
  [(5383376567189, (-21)); (5902606868464, (-21)); (0, 0)];
  [(5928941683538, (-21)); (5921147809031, (-21)); (0, 0)];
  [(4816060709794, (-21)); (5505382581266, (-21)); (0, 0)];
  [(6003381586512, (-21)); (5353771071862, (-21)); (0, 0)];
  [(5504225393105, (-21)); (5063282210946, (-21)); (0, 0)];
  [(5353772620129, (-21)); (5926120403383, (-21)); (0, 0)];
  [(5786253768544, (-21)); (5211016176149, (-21)); (0, 0)];
  [(5065706702002, (-21)); (5347075084894, (-21)); (0, 0)];
  [(5972838885276, (-21)); (4872609773574, (-21)); (0, 0)];
  [(5323585877961, (-21)); (472771132142, (-20)); (0, 0)];
  [(5210772682858, (-21)); (6029426018652, (-21)); (0, 0)];
  [(4726549040535, (-21)); (4321485284369, (-21)); (0, 0)];
  [(6029425105059, (-21)); (4476406760553, (-21)); (0, 0)];
  [(4481542826513, (-21)); (583526827742, (-20)); (0, 0)];
  [(5836024505068, (-21)); (5172183602748, (-21)); (0, 0)];
  [(4137046613272, (-21)); (5693571465184, (-21)); (0, 0)];
  [(5171977473924, (-21)); (4060634965349, (-21)); (0, 0)];
  [(5694429833732, (-21)); (3967398770473, (-21)); (0, 0)];
  [(4009158925298, (-21)); (3943754005255, (-21)); (0, 0)];
  [(4784939596873, (-21)); (4781323427824, (-21)); (0, 0)];
  [(398372502261, (-20)); (3871483781204, (-21)); (0, 0)];
  [(3870535232462, (-21)); (5141741733997, (-21)); (0, 0)];
  [(5140501213951, (-21)); (4002385978497, (-21)); (0, 0)];
  [(3849034819355, (-21)); (4901092604097, (-21)); (0, 0)];
  [(400238307506, (-20)); (3740932630345, (-21)); (0, 0)];
  [(3890719543549, (-21)); (4387283718538, (-21)); (0, 0)];
  [(4887084607881, (-21)); (5019197802033, (-21)); (0, 0)];
  [(3739939287592, (-21)); (3834931695175, (-21)); (0, 0)];
  [(5031925918209, (-21)); (3760413942497, (-21)); (0, 0)];
  [(4387748764954, (-21)); (3719717204628, (-21)); (0, 0)];
  [(4147398098865, (-21)); (4145623530149, (-21)); (0, 0)];
  [(3719089993586, (-21)); (393278842538, (-20)); (0, 0)];
  [(3934238461056, (-21)); (3686377476857, (-21)); (0, 0)];
  [(3672471375622, (-21)); (3779077950339, (-21)); (0, 0)];
  [(3768911277583, (-21)); (4091334550598, (-21)); (0, 0)];
  [(4033388417295, (-21)); (3926694536146, (-21)); (0, 0)];
  [(3764194617832, (-21)); (4841000253289, (-21)); (0, 0)];
  [(4840628226284, (-21)); (494934013024, (-20)); (0, 0)];
  [(4949443923785, (-21)); (376155773736, (-20)); (0, 0)];
  [(4117393089971, (-21)); (3647396268188, (-21)); (0, 0)];
  [(3925754020428, (-21)); (3932405074189, (-21)); (0, 0)];
  [(3630551757923, (-21)); (3631322501141, (-21)); (0, 0)];
  [(3627274802357, (-21)); (4130007425139, (-21)); (0, 0)];
  [(3806143885093, (-21)); (4433905965176, (-21)); (0, 0)];
  [(4433254641565, (-21)); (3851814176947, (-21)); (0, 0)];
  [(3712319846576, (-21)); (3485807052785, (-21)); (0, 0)];
  [(3849847534783, (-21)); (3979772816991, (-21)); (0, 0)];
  [(3483955430165, (-21)); (34026074605, (-19)); (0, 0)];
  [(3961912730982, (-21)); (4049993000926, (-21)); (0, 0)];
  [(3419978244481, (-21)); (3420511182382, (-21)); (0, 0)];
  [(3329417758177, (-21)); (3640772365012, (-21)); (0, 0)];
  [(4207206893193, (-21)); (3323037987501, (-21)); (0, 0)];
  [(326854897641, (-20)); (4503141663637, (-21)); (0, 0)];
  [(3321880082685, (-21)); (4314560055588, (-21)); (0, 0)];
  [(4503173010852, (-21)); (329422694911, (-20)); (0, 0)];
  [(4316599090954, (-21)); (3215657197281, (-21)); (0, 0)];
  [(328349332385, (-20)); (4129362656266, (-21)); (0, 0)];
  [(3164033542343, (-21)); (3137762976388, (-21)); (0, 0)];
  [(4159720956725, (-21)); (3514010952384, (-21)); (0, 0)];
  [(3565176892217, (-21)); (332760757153, (-20)); (0, 0)];
  [(3514440950221, (-21)); (3541066946675, (-21)); (0, 0)];
  [(3540596871909, (-21)); (3216179847052, (-21)); (0, 0)];
  [(2960769905118, (-21)); (295904505957, (-20)); (0, 0)];
  [(2962213739684, (-21)); (3884040326665, (-21)); (0, 0)];
  [(3883556700251, (-21)); (2922027539886, (-21)); (0, 0)];
  [(2919225516346, (-21)); (4110846382042, (-21)); (0, 0)];
  [(311515886337, (-20)); (2934508411032, (-21)); (0, 0)];
  [(4099438144212, (-21)); (3966896193, (-18)); (0, 0)];
  [(2899531858964, (-21)); (328669582761, (-20)); (0, 0)];
  [(3289733429855, (-21)); (3720643094196, (-21)); (0, 0)];
  [(3933075612875, (-21)); (3285508906174, (-21)); (0, 0)];
  [(3021403764467, (-21)); (3753880575973, (-21)); (0, 0)];
  [(2798598949757, (-21)); (3022129385587, (-21)); (0, 0)];
  [(3397421302707, (-21)); (2798569205621, (-21)); (0, 0)];
  [(3720398002179, (-21)); (3397872070505, (-21)); (0, 0)];
  [(3598484186267, (-21)); (3708099772977, (-21)); (0, 0)];
  [(369459402731, (-20)); (359928354151, (-20)); (0, 0)];
  [(2680444152969, (-21)); (3688702753059, (-21)); (0, 0)];
  [(3497574865641, (-21)); (2681084724003, (-21)); (0, 0)];
  [(3130274129494, (-21)); (3495993460759, (-21)); (0, 0)];
  [(3241119069551, (-21)); (3130770324995, (-21)); (0, 0)];
  [(2601960842061, (-21)); (2744353821941, (-21)); (0, 0)];
  [(2690601527504, (-21)); (2842732906341, (-21)); (0, 0)];
  [(2908688152664, (-21)); (3046882682154, (-21)); (0, 0)];
  [(3120456131875, (-21)); (2399072455143, (-21)); (0, 0)];
  [(3148855423384, (-21)); (2384306274204, (-21)); (0, 0)];
  [(3051044261017, (-21)); (2977324500559, (-21)); (0, 0)];
  [(282600687666, (-20)); (3062835258972, (-21)); (0, 0)];
  [(3100034191711, (-21)); (3109682589231, (-21)); (0, 0)];
  [(2398771640101, (-21)); (2903920355299, (-21)); (0, 0)];
  [(2384002842728, (-21)); (2823221989212, (-21)); (0, 0)];
  [(2842146517568, (-21)); (3187949696649, (-21)); (0, 0)];
  [(284767437134, (-20)); (2922559771655, (-21)); (0, 0)];
  [(2903722140764, (-21)); (2436302066603, (-21)); (0, 0)];
  [(3187610710605, (-21)); (3049473043606, (-21)); (0, 0)];
  [(3048869992813, (-21)); (2863682575784, (-21)); (0, 0)];
  [(2860216950984, (-21)); (2641750517966, (-21)); (0, 0)];
  [(2701117683113, (-21)); (2704093466243, (-21)); (0, 0)];
  [(2509891590152, (-21)); (2445522177011, (-21)); (0, 0)];
  [(2623200252223, (-21)); (262360881023, (-20)); (0, 0)];
  [(2622541669202, (-21)); (2079259704053, (-21)); (0, 0)];
  [(2818435667099, (-21)); (2820225596771, (-21)); (0, 0)];
  [(2365196797465, (-21)); (2365221950927, (-21)); (0, 0)];
  [(2358704646143, (-21)); (2359682077149, (-21)); (0, 0)];
  [(238829948139, (-20)); (2387577137206, (-21)); (0, 0)];
  [(1996041217224, (-21)); (1982102089816, (-21)); (0, 0)];
  [(2687593060336, (-21)); (2687502389925, (-21)); (0, 0)];
  [(261891367081, (-20)); (2207751669135, (-21)); (0, 0)];
  [(2571523050364, (-21)); (2618370214274, (-21)); (0, 0)];
  [(2582135006946, (-21)); (2591951887361, (-21)); (0, 0)];
  [(2372530190361, (-21)); (2375055656248, (-21)); (0, 0)];
  [(2357178484712, (-21)); (2472019978911, (-21)); (0, 0)];
  [(2451590394723, (-21)); (2368157127199, (-21)); (0, 0)];
  [(2370045949608, (-21)); (1764846605693, (-21)); (0, 0)];
  [(2268997267358, (-21)); (2291769608798, (-21)); (0, 0)];
  [(1731432137906, (-21)); (2209997316943, (-21)); (0, 0)];
  [(1629869741622, (-21)); (2292699097923, (-21)); (0, 0)];
  [(2206215801974, (-21)); (1629683015329, (-21)); (0, 0)];
  [(220546955468, (-20)); (2206492862426, (-21)); (0, 0)];
  [(2148792362509, (-21)); (2205746568257, (-21)); (0, 0)];
  [(1873733657847, (-21)); (2026310767991, (-21)); (0, 0)];
  [(2026573758959, (-21)); (1762977622163, (-21)); (0, 0)];
  [(180777032511, (-20)); (1368535049606, (-21)); (0, 0)];
  [(1881174408581, (-21)); (172059877545, (-20)); (0, 0)];
  [(136802367169, (-20)); (1702429015449, (-21)); (0, 0)];
  [(172001791628, (-20)); (1414033197685, (-21)); (0, 0)];
  [(1702427665131, (-21)); (1573768958043, (-21)); (0, 0)];
  [(1414032510054, (-21)); (1650705184447, (-21)); (0, 0)];
  [(1652626045364, (-21)); (1651087618855, (-21)); (0, 0)];
  [(1642957769686, (-21)); (1616409518983, (-21)); (0, 0)];
  [(1614952403624, (-21)); (1537175173581, (-21)); (0, 0)];
  [(1535988291188, (-21)); (1593191980553, (-21)); (0, 0)];
  [(1593193738177, (-21)); (1499480170643, (-21)); (0, 0)];
  [(1074569126382, (-21)); (1493807843235, (-21)); (0, 0)];
  [(1074408214509, (-21)); (1074571199328, (-21)); (0, 0)];
  [(9700199670465, (-22)); (1074406983417, (-21)); (0, 0)];
  [(1258433517061, (-21)); (9757576855851, (-22)); (0, 0)];
  [(1240303229539, (-21)); (1258432887565, (-21)); (0, 0)];
  [(9018345948127, (-22)); (1240336343282, (-21)); (0, 0)];
  [(1135301432805, (-21)); (9016107005164, (-22)); (0, 0)];
  [(921588795137, (-21)); (1135392360918, (-21)); (0, 0)];
  [(1055401054147, (-21)); (9216046089565, (-22)); (0, 0)];
  [(1008725979831, (-21)); (106127661503, (-20)); (0, 0)];
  [(7217398104321, (-22)); (1010110596263, (-21)); (0, 0)];
  [(6912033134447, (-22)); (7217424756199, (-22)); (0, 0)];
  [(6833881523549, (-22)); (6912003846756, (-22)); (0, 0)];
  [(4887304205142, (-22)); (6871814664847, (-22)); (0, 0)];
  [(5173709754788, (-22)); (4887158016343, (-22)); (0, 0)];
  [(4671353097145, (-22)); (5161802866314, (-22)); (0, 0)];
  [(565260843948, (-21)); (5652599559057, (-22)); (0, 0)];
  [(5604061331253, (-22)); (4710812608586, (-22)); (0, 0)];
  [(47127233654, (-20)); (4909977500324, (-22)); (0, 0)];
  [(4909967465112, (-22)); (4772641839378, (-22)); (0, 0)];
  [(4771358267658, (-22)); (4487562567153, (-22)); (0, 0)];
  [(3943451445989, (-22)); (3943441230497, (-22)); (0, 0)];
  [(3952109120244, (-22)); (3952236913598, (-22)); (0, 0)];
  [(3788134594789, (-22)); (3788898363417, (-22)); (0, 0)];
  [(3738330190479, (-22)); (3738329328831, (-22)); (0, 0)];
  [(3099866678136, (-22)); (2451199165151, (-22)); (0, 0)];
  [(2002962716768, (-22)); (2436734402904, (-22)); (0, 0)];
  [(2198291338754, (-22)); (2213605274325, (-22)); (0, 0)];
  [(1491958330784, (-22)); (1491521204829, (-22)); (0, 0)];
  [(1475384076173, (-22)); (1474995329744, (-22)); (0, 0)];
  [(1661626624624, (-22)); (1661939475656, (-22)); (0, 0)];
  [(9015823460025, (-23)); (9015946748003, (-23)); (0, 0)]
].
Definition E0_1 : list (list (Z * Z)) := [
  [(1753485171504, (-12)); (1826583913846, (-13)); (3198701560209, (-12))];
  [(1710344404582, (-12)); (0, 0); (5422360395913, (-12))];
  [(0, 0); (139527799868, (-12)); (3880222866652, (-12))];
  [(166722541677, (-11)); (9641423109763, (-14)); (3704369937468, (-12))];
  [(6687513390251, (-13)); (5381140401712, (-12)); (3999639363235, (-12))];
  [(5830637358413, (-13)); (5301016407128, (-12)); (3984738315952, (-12))];
  [(1092330954011, (-12)); (266251086985, (-11)); (3565412516841, (-12))];
  [(4955366134987, (-13)); (5207904119704, (-12)); (498450705902, (-11))];
  [(6153014091901, (-12)); (4582187486968, (-12)); (3702753570108, (-12))];
  [(3472744100492, (-12)); (1900688517726, (-12)); (3409658712357, (-12))];
  [(3689845786119, (-12)); (5273108538556, (-12)); (4829561570246, (-12))];
  [(6073934645672, (-12)); (4503047687738, (-12)); (2080729178066, (-12))];
  [(3175705249069, (-12)); (1605621059637, (-12)); (3476295881948, (-12))];
  [(2152484672246, (-12)); (5812849070861, (-13)); (4056639536648, (-12))];
  [(130696409975, (-11)); (2807346794836, (-12)); (4448159519911, (-12))];
  [(4354980070466, (-12)); (6029224133855, (-12)); (4991704044208, (-12))];
  [(2218229211267, (-12)); (6472990145974, (-13)); (4325358994219, (-12))];
  [(5384788425458, (-12)); (38138434197, (-10)); (1141826375363, (-12))];
  [(6087604012291, (-12)); (4527804370996, (-12)); (3624344170143, (-12))];
  [(1279424524906, (-12)); (5991783029224, (-12)); (5554257458998, (-12))];
  [(5369129144266, (-12)); (3798703844397, (-12)); (6251760961735, (-12))];
  [(5436473303367, (-13)); (3961257833388, (-12)); (2497341091913, (-12))];
  [(7867838528395, (-13)); (5256247296369, (-12)); (2335079920992, (-12))];
  [(1461440311134, (-12)); (5499032014097, (-12)); (7094148987474, (-13))];
  [(4432944696116, (-12)); (6173092454097, (-12)); (1101916352091, (-12))];
  [(4502237496846, (-12)); (2870244247651, (-12)); (1825495405486, (-12))];
  [(1239441308815, (-12)); (2952338617201, (-12)); (4424740687208, (-12))];
  [(3272430985331, (-12)); (5951775132933, (-12)); (5120498157053, (-12))];
  [(2265471086404, (-12)); (4845456398785, (-12)); (6029771435451, (-12))];
  [(1454740653245, (-12)); (6945321117311, (-13)); (4435193600836, (-13))];
  [(2962068630206, (-12)); (6167224608301, (-12)); (5124157356507, (-12))];
  [(1473255041006, (-12)); (1400122509632, (-12)); (5421830162065, (-12))];
  [(3743903293447, (-13)); (470334761183, (-11)); (4582101667297, (-12))];
  [(6274174354554, (-12)); (5086748900237, (-12)); (1926566420072, (-12))];
  [(1624110906816, (-12)); (5331008042713, (-14)); (6090174539834, (-13))];
  [(5852052276256, (-12)); (4283680484178, (-12)); (1393432595077, (-12))];
  [(4072093298513, (-12)); (6074207826073, (-12)); (4308671715951, (-12))];
  [(5217019331069, (-12)); (250142628145, (-11)); (8133968269414, (-13))];
  [(4802054538934, (-12)); (3646340599536, (-12)); (3755205127454, (-12))];
  [(8691914742502, (-13)); (3232864804902, (-12)); (2759558596664, (-12))];
  [(460185952995, (-11)); (5581433416669, (-12)); (5699645869121, (-12))];
  [(1844352816694, (-12)); (5453576453694, (-12)); (1986749091746, (-12))];
  [(358279015475, (-11)); (2823953922273, (-13)); (3205017217983, (-12))];
  [(269527778823, (-11)); (1124369580175, (-12)); (6256747903666, (-12))];
  [(3651327986142, (-12)); (208915404284, (-11)); (2601671259394, (-13))];
  [(2241302375862, (-12)); (670485558123, (-12)); (4686939173506, (-12))];
  [(4407122406081, (-12)); (283641485584, (-11)); (2815862451372, (-12))];
  [(3024307223119, (-12)); (4852433866467, (-13)); (4956894109797, (-12))];
  [(6192539428237, (-12)); (1453511005668, (-12)); (2381192697696, (-12))];
  [(2014758795416, (-12)); (9224087798609, (-13)); (4294851657684, (-12))];
  [(3399500503397, (-12)); (4631707184895, (-12)); (3075171510642, (-12))];
  [(2493386877837, (-12)); (1829498827726, (-12)); (5477534821633, (-13))];
  [(4159491740143, (-12)); (2588596800317, (-12)); (0, 0)];
  [(403416293423, (-11)); (5516818853476, (-13)); (5968571670097, (-12))];
  [(1562219163734, (-12)); (627567473496, (-11)); (1489098777643, (-12))];
  [(2662730803386, (-12)); (1091905956872, (-12)); (3512977691983, (-12))];
  [(3985828430833, (-12)); (241500163509, (-11)); (1290704408221, (-13))];
  [(1308144688689, (-12)); (6020336443438, (-12)); (1991086893337, (-12))];
  [(5352817214804, (-12)); (3775634564605, (-12)); (4238357924414, (-12))];
  [(2644267922349, (-12)); (1073450946756, (-12)); (2911090150166, (-12))];
  [(400884419208, (-11)); (243117801231, (-11)); (190893839239, (-11))];
  [(3794550174597, (-12)); (5343356157914, (-12)); (6129219000168, (-13))];
  [(6107118308982, (-12)); (5830833594047, (-14)); (1380417036651, (-12))];
  [(4771458618163, (-12)); (4536080134821, (-12)); (1680504249084, (-12))];
  [(3327111335159, (-12)); (2585090489754, (-13)); (5127423484511, (-12))];
  [(5305708551694, (-12)); (4213317172603, (-12)); (2020274190917, (-12))];
  [(5784230738814, (-12)); (4814418806478, (-13)); (2606778676418, (-12))];
  [(2052064793679, (-12)); (1599953399788, (-12)); (1613011769663, (-12))];
  [(364499419583, (-11)); (2157417556873, (-12)); (4604483417236, (-12))];
  [(4930376436758, (-12)); (3359394184254, (-12)); (5718964114193, (-12))];
  [(4542084219731, (-13)); (5165704376558, (-12)); (3689658932196, (-12))];
  [(3161126388878, (-12)); (2065368800993, (-12)); (4099769855122, (-12))];
  [(6214993845446, (-13)); (1468606346612, (-12)); (5660834602509, (-12))];
  [(3040132339297, (-12)); (3615638079474, (-12)); (9842221218974, (-13))];
  [(8064977360087, (-13)); (4417134922435, (-12)); (1341363634163, (-13))];
  [(1974147981034, (-12)); (4700866883004, (-12)); (8130132735866, (-13))];
  [(2845924913135, (-12)); (4538902060922, (-12)); (5791497770644, (-12))];
  [(301790082412, (-11)); (1334197991475, (-12)); (1249802769331, (-12))];
  [(6109717793179, (-12)); (3749275558275, (-12)); (4795684802743, (-12))];
  [(2911550235289, (-12)); (4236622030873, (-13)); (3810420387208, (-12))];
  [(2179146025856, (-12)); (5970848007811, (-12)); (1029264714351, (-12))];
  [(1994161050744, (-12)); (5194636754501, (-12)); (3528044781779, (-12))];
  [(5125687237936, (-12)); (1002434207846, (-12)); (5593889282646, (-12))];
  [(4822646860252, (-13)); (3066773098403, (-12)); (3299636454433, (-12))];
  [(4637633293831, (-12)); (7588312459063, (-13)); (1286049002584, (-12))];
  [(1467038733093, (-12)); (3444977434856, (-12)); (3100307589464, (-12))];
  [(3044718783485, (-13)); (1873128542205, (-12)); (6212683940807, (-12))];
  [(4764220356805, (-12)); (5015891306615, (-12)); (4699118445928, (-12))];
  [(3383637774428, (-12)); (461827123973, (-11)); (2630507142004, (-12))];
  [(6189088449251, (-12)); (5300003455669, (-12)); (2946432844305, (-12))];
  [(5874966729774, (-13)); (2229819815115, (-12)); (1224834179264, (-12))];
  [(4302994009132, (-12)); (6161485880008, (-12)); (1543807616351, (-12))];
  [(3800475419891, (-12)); (2967357299999, (-12)); (119177757231, (-11))];
  [(1294660846502, (-12)); (3027007923917, (-12)); (5483498767737, (-12))];
  [(4594797202114, (-12)); (6037597163798, (-12)); (8000833804348, (-13))];
  [(4943044543591, (-13)); (8561476243374, (-13)); (4077980721888, (-13))];
  [(2426943912028, (-12)); (4869736290209, (-12)); (2617490302147, (-12))];
  [(1582973303499, (-13)); (3626411886436, (-12)); (263470315829, (-11))];
  [(5197240440504, (-12)); (1550975377427, (-12)); (6102446114873, (-12))];
  [(3120360916217, (-12)); (207582603319, (-11)); (3681820208691, (-12))];
  [(6164702888205, (-12)); (6148876420255, (-12)); (6216045388886, (-12))];
  [(1437423770979, (-12)); (4382583879906, (-12)); (5864949777744, (-12))];
  [(3609688799679, (-12)); (2036644327361, (-12)); (4566628532802, (-12))];
  [(5463018167225, (-12)); (3892276994687, (-12)); (244272212693, (-11))];
  [(6028909912097, (-12)); (1447950649744, (-12)); (1626628050682, (-12))];
  [(3109645574997, (-12)); (4457854692961, (-12)); (2803604512609, (-12))];
  [(3539359332866, (-12)); (1538818147151, (-12)); (4654002897158, (-12))];
  [(1259321569772, (-12)); (196852322076, (-11)); (4326518333253, (-12))];
  [(1065949392609, (-12)); (5779803499985, (-12)); (4519614578328, (-12))];
  [(2192508743837, (-12)); (6210975221388, (-13)); (3012626912549, (-12))];
  [(405441127865, (-11)); (2591963807998, (-12)); (1290101424052, (-13))];
  [(5429764748518, (-12)); (248361281267, (-11)); (3864046799414, (-12))];
  [(5046586206575, (-12)); (3857554579796, (-12)); (5053777235891, (-12))];
  [(2628858030806, (-12)); (5826368512984, (-12)); (2222470192548, (-12))];
  [(4177292719907, (-12)); (3475694573987, (-12)); (8719067257774, (-13))];
  [(1601345232557, (-12)); (3059070488983, (-14)); (403149109804, (-11))];
  [(2463888997513, (-12)); (1583194837728, (-12)); (5938379466835, (-12))];
  [(3154022088718, (-12)); (8519770534637, (-13)); (6544722606797, (-13))];
  [(4795035816088, (-12)); (1319598738732, (-13)); (2059072853236, (-12))];
  [(295298339523, (-11)); (9937860115618, (-13)); (3644813532605, (-12))];
  [(5420547991464, (-12)); (1382138405399, (-12)); (3241815055602, (-12))];
  [(3695646753667, (-12)); (3833397851735, (-12)); (5043812342457, (-12))];
  [(3922675306609, (-12)); (212491381439, (-11)); (5000024502753, (-12))];
  [(1233968624861, (-12)); (5946305343763, (-12)); (1398734871821, (-14))];
  [(1919542280684, (-12)); (4574654977089, (-12)); (506711172313, (-11))];
  [(4615902724369, (-12)); (5949232686844, (-12)); (5597382200075, (-12))];
  [(1236863719072, (-12)); (3495242990564, (-12)); (2601338209422, (-12))];
  [(3286800101559, (-13)); (4310113471661, (-12)); (5814832109256, (-12))];
  [(5880942158367, (-12)); (548030932365, (-11)); (3384820609076, (-12))];
  [(7674871987661, (-13)); (5411097713654, (-12)); (1072391840473, (-12))];
  [(6987129150116, (-13)); (1827849973951, (-12)); (2369540393327, (-12))];
  [(3576824794443, (-12)); (5443584943349, (-12)); (5255575751082, (-12))];
  [(5033615245369, (-12)); (201153545906, (-11)); (5482356246182, (-12))];
  [(9449927045673, (-13)); (3464562529249, (-12)); (9573634763143, (-13))];
  [(6206342280341, (-12)); (5657556228815, (-12)); (1887203025202, (-12))];
  [(5036079095757, (-12)); (3463816593821, (-12)); (3982183931157, (-12))];
  [(610510637135, (-11)); (1532259498697, (-12)); (2787457156298, (-12))];
  [(7237747359018, (-13)); (1375396598875, (-12)); (0, 0)];
  [(3976367969666, (-12)); (2405645801972, (-12)); (0, 0)];
  [(4305423910623, (-12)); (5397541799027, (-12)); (0, 0)];
  [(35001368252, (-10)); (4762347105419, (-12)); (0, 0)];
  [(35147792461, (-10)); (2711944692164, (-12)); (0, 0)];
  [(2743457928679, (-12)); (2352980430239, (-12)); (0, 0)];
  [(2242598118209, (-12)); (1943940180699, (-12)); (0, 0)];
  [(2332832707527, (-12)); (4337651846959, (-12)); (0, 0)];
  [(2191105358956, (-12)); (6716871369278, (-13)); (0, 0)];
  [(4457559396698, (-12)); (2229714460505, (-12)); (0, 0)];
  [(3499234761404, (-12)); (762701392058, (-12)); (0, 0)];
  [(6441691079251, (-13)); (6202785478961, (-13)); (0, 0)];
  [(2252599151092, (-12)); (2886775596668, (-12)); (0, 0)];
  [(1992812417646, (-12)); (1977241012051, (-12)); (0, 0)];
  [(3744672082942, (-12)); (1922923484825, (-12)); (0, 0)];
  [(1334226211745, (-12)); (3570757164631, (-12)); (0, 0)];
  [(4395836159154, (-12)); (5197558947765, (-12)); (0, 0)];
  [(2587043007997, (-12)); (8193497368922, (-13)); (0, 0)];
  [(4782499769128, (-12)); (5406336665586, (-12)); (0, 0)];
  [(7312257619924, (-13)); (2837760654536, (-12)); (0, 0)];
  [(3001376372532, (-12)); (293358029705, (-11)); (0, 0)];
  [(3767222128541, (-12)); (4157871494377, (-12)); (0, 0)];
  [(3663594450273, (-12)); (3211703561703, (-12)); (0, 0)];
  [(4331187919049, (-12)); (1459098102922, (-12)); (0, 0)];
  [(5816195745518, (-12)); (1430457676136, (-12)); (0, 0)];
  [(8323672435672, (-13)); (219642591673, (-11)); (0, 0)];
  [(3785023976293, (-12)); (2086612890268, (-12)); (0, 0)];
  [(2378220728783, (-12)); (2760204966535, (-12)); (0, 0)];
  [(2864103423269, (-12)); (4245368971862, (-12)); (0, 0)];
  [(2415408595975, (-12)); (5544725787016, (-12)); (0, 0)];
  [(3343479309801, (-12)); (2213984363586, (-12)); (0, 0)];
  [(2821742398262, (-12)); (8075781952896, (-13)); (0, 0)];
  [(5624662458712, (-12)); (1293268540378, (-12)); (0, 0)];
  [(5557250275009, (-13)); (3986141175804, (-12)); (0, 0)];
  [(3296691780005, (-12)); (1276112738231, (-12)); (0, 0)];
  [(3814443999443, (-12)); (4916111741527, (-12)); (0, 0)];
  [(356022918925, (-11)); (1725805864426, (-12)); (0, 0)];
  [(5185389180568, (-12)); (2243642442106, (-12)); (0, 0)];
  [(3921381909679, (-12)); (3614135118271, (-12)); (0, 0)];
  [(4190658955386, (-12)); (246087339346, (-11)); (0, 0)];
  [(5546023371097, (-12)); (567843177179, (-11)); (0, 0)];
  [(6231032794494, (-12)); (3814017477291, (-12)); (0, 0)];
  [(620706341919, (-11)); (4660216229171, (-12)); (0, 0)];
  [(1195257375713, (-12)); (5906906243735, (-12)); (0, 0)];
  [(1804694240998, (-12)); (9536146445882, (-13)); (0, 0)];
  [(55978113435, (-10)); (3942205097644, (-12)); (0, 0)];
  [(319105936653, (-11)); (1624810271286, (-12)); (0, 0)];
  [(409434803257, (-11)); (4030467142575, (-12)); (0, 0)];
  [(5219282738794, (-12)); (3648878818694, (-12)); (0, 0)];
  [(1037247544554, (-12)); (5749584017096, (-12)); (0, 0)];
  [(1430020816116, (-12)); (263012418707, (-11)); (0, 0)];
  [(3002911403677, (-12)); (1790346403629, (-12)); (0, 0)];
  [(2437046757292, (-12)); (6142198301611, (-12)); (0, 0)];
  [(1581594689647, (-12)); (1432421386492, (-12)); (0, 0)];
  [(5379863121521, (-12)); (2302822475792, (-12)); (0, 0)];
  [(4904222639329, (-12)); (8660470994571, (-13)); (0, 0)];
  [(3646448997315, (-12)); (6069721995383, (-12)); (0, 0)];
  [(3307829300144, (-12)); (1079020331795, (-14)); (0, 0)];
  [(1747541251125, (-12)); (3809066902283, (-12)); (0, 0)];
  [(1784689432607, (-14)); (2075435114417, (-12)); (0, 0)];
  [(442005527626, (-11)); (2057803120154, (-12)); (0, 0)];
  [(3629773929208, (-12)); (151006848801, (-11)); (0, 0)];
  [(307962370678, (-11)); (5043617528901, (-12)); (0, 0)];
  [(3312487903507, (-13)); (3694793218205, (-12)); (0, 0)];
  [(5265520401774, (-12)); (5450618999049, (-14)); (0, 0)];
  [(476666408125, (-11)); (3381164084502, (-12)); (0, 0)];
  [(5069146530691, (-12)); (438230902521, (-11)); (0, 0)];
  [(5954935112271, (-12)); (9142212256518, (-13)); (0, 0)];
  [(4061789589267, (-12)); (5676172293154, (-12)); (0, 0)];
  [(2485047705241, (-12)); (2592767977625, (-12)); (0, 0)];
  [(416377920932, (-11)); (540497627118, (-11)); (0, 0)];
  [(6923839133828, (-13)); (4373284587027, (-12)); (0, 0)];
  [(5944173595676, (-12)); (5859182188482, (-12)); (0, 0)];
  [(4641013671967, (-12)); (4555381557451, (-12)); (0, 0)];
  [(6125796518757, (-12)); (3933165584959, (-12)); (0, 0)];
  [(2234572324504, (-13)); (5227977189087, (-12)); (0, 0)];
  [(428101240544, (-11)); (4858060353949, (-12)); (0, 0)];
  [(142994387487, (-12)); (5690546553605, (-12)); (0, 0)];
  [(9781803816948, (-13)); (4099539297446, (-12)); (0, 0)];
  [(5670368130173, (-12)); (4382594769913, (-13)); (0, 0)];
  [(2008985006833, (-12)); (1829784152444, (-12)); (0, 0)];
  [(2566186202453, (-13)); (2836254278973, (-12)); (0, 0)];
  [(4408121891493, (-12)); (2803494925833, (-12)); (0, 0)];
  [(5272745038656, (-12)); (2836897959677, (-12)); (0, 0)];
  [(4407720479029, (-12)); (6127522446024, (-12)); (0, 0)];
  [(1943892315074, (-13)); (3683163635008, (-12)); (0, 0)];
  [(1418570924545, (-12)); (3316993867246, (-13)); (0, 0)];
  [(472460343943, (-11)); (829409780548, (-12)); (0, 0)];
  [(2400266874598, (-12)); (3659492220261, (-12)); (0, 0)];
  [(5230348028732, (-12)); (4774492067182, (-12)); (0, 0)];
  [(2099190328945, (-12)); (2873120597682, (-12)); (0, 0)];
  [(3467527844848, (-13)); (5282441177929, (-13)); (0, 0)];
  [(709864235634, (-12)); (1320789654258, (-12)); (0, 0)];
  [(5943349620372, (-12)); (1917110916256, (-12)); (0, 0)];
  [(704065347898, (-12)); (2972635937132, (-12)); (0, 0)];
  [(4487064760345, (-12)); (4372569261981, (-12)); (0, 0)];
  [(2993391570995, (-12)); (5416424926425, (-12)); (0, 0)];
  [(2278049198251, (-12)); (3094448898752, (-12)); (0, 0)];
  [(1682114725827, (-12)); (2802103689808, (-12)); (0, 0)];
  [(3262668602579, (-12)); (2136435020467, (-12)); (0, 0)];
  [(3187771221777, (-12)); (7072627435674, (-13)); (0, 0)];
  [(5650162308647, (-12)); (3947607143237, (-12)); (0, 0)];
  [(5487068607507, (-12)); (407924890919, (-11)); (0, 0)];
  [(5745688172201, (-12)); (626963712284, (-11)); (0, 0)];
  [(5748060203659, (-12)); (4175657970702, (-12)); (0, 0)];
  [(622684850579, (-11)); (147654054756, (-11)); (0, 0)];
  [(6189318878563, (-12)); (4653477715241, (-12)); (0, 0)];
  [(5371812884394, (-12)); (2573001128225, (-12)); (0, 0)];
  [(1471687569712, (-12)); (5612799618771, (-12)); (0, 0)];
  [(4143836662127, (-12)); (418966162387, (-11)); (0, 0)];
  [(9003477661957, (-13)); (2656915472196, (-12)); (0, 0)];
  [(5760505536428, (-12)); (5612515760138, (-12)); (0, 0)];
  [(1085471729463, (-12)); (4783414317919, (-12)); (0, 0)];
  [(5409870870133, (-12)); (2694431138063, (-12)); (0, 0)];
  [(1397205174601, (-12)); (4105103489666, (-12)); (0, 0)];
  [(9001804809095, (-13)); (3082437194015, (-13)); (0, 0)];
  [(4262528275544, (-12)); (6124072334087, (-12)); (0, 0)];
  [(1411642012027, (-12)); (3733103981697, (-12)); (0, 0)];
  [(2844472403615, (-12)); (1267127706817, (-12)); (0, 0)];
  [(5295835522223, (-12)); (4367790112269, (-12)); (0, 0)];
  [(4969428135497, (-12)); (33872017687, (-10)); (0, 0)];
  [(2491369561806, (-12)); (9204143073737, (-13)); (0, 0)];
  [(4679426248976, (-12)); (5786874896426, (-12)); (0, 0)];
  [(1074509953328, (-12)); (3164232870746, (-12)); (0, 0)];
  [(4735097918224, (-12)); (2586762413351, (-12)); (0, 0)];
  [(4158649187338, (-12)); (6239068436607, (-12)); (0, 0)];
  [(3438208613699, (-12)); (1867380051424, (-12)); (0, 0)];
  [(1913300781229, (-12)); (3424716293727, (-13)); (0, 0)];
  [(9487683644125, (-13)); (5661372990657, (-12)); (0, 0)];
  [(3228141664287, (-12)); (5768367239093, (-12)); (0, 0)];
  [(22166078543, (-10)); (1657351222943, (-12)); (0, 0)];
  [(2625116459733, (-12)); (6458292350865, (-13)); (0, 0)];
  [(5860562449214, (-12)); (1054306140741, (-12)); (0, 0)];
  [(7885682917381, (-13)); (2505278379114, (-12)); (0, 0)];
  [(3932148831189, (-12)); (4289737277, (-9)); (0, 0)];
  [(9995605521691, (-13)); (5500597673141, (-12)); (0, 0)];
  [(5263769742673, (-12)); (2361405953468, (-12)); (0, 0)];
  [(1496843220365, (-12)); (2851310576269, (-12)); (0, 0)];
  [(7009039517214, (-13)); (6208777705343, (-12)); (0, 0)];
  [(4041544938511, (-12)); (5413091423934, (-12)); (0, 0)];
  [(1447586692316, (-12)); (5613969479755, (-12)); (0, 0)];
  [(4594249718112, (-13)); (1106124877015, (-12)); (0, 0)];
  [(3925550579036, (-12)); (2869224476477, (-12)); (0, 0)];
  [(4411341856037, (-12)); (6159640899344, (-12)); (0, 0)];
  [(2402659724813, (-12)); (1374901198784, (-12)); (0, 0)];
  [(1401579743423, (-12)); (5171080641327, (-12)); (0, 0)];
  [(5245978000814, (-12)); (8317320304902, (-13)); (0, 0)];
  [(3590803356945, (-12)); (360559196918, (-11)); (0, 0)];
  [(2470150501679, (-12)); (6114299196843, (-12)); (0, 0)];
  [(132860616123, (-11)); (3675153683737, (-12)); (0, 0)];
  [(6162256225998, (-12)); (3313328813024, (-12)); (0, 0)];
  [(3942568967039, (-12)); (2019980960053, (-12)); (0, 0)];
  [(2360246287233, (-13)); (8992015524177, (-13)); (0, 0)];
  [(461980563428, (-11)); (2898669963648, (-12)); (0, 0)];
  [(3784727847451, (-12)); (4946715904478, (-12)); (0, 0)];
  [(2223352487601, (-12)); (2371787888469, (-12)); (0, 0)];
  [(1288694636874, (-12)); (2213775190612, (-12)); (0, 0)];
  [(5359869567774, (-12)); (3429378787739, (-12)); (0, 0)];
  [(5516616675856, (-12)); (6195878564404, (-12)); (0, 0)];
  [(2630459984567, (-12)); (651150952739, (-12)); (0, 0)];
  [(2849815827227, (-12)); (6001083639421, (-12)); (0, 0)];
  [(379524445075, (-11)); (3789073265087, (-12)); (0, 0)];
  [(5236413127363, (-13)); (1059659582204, (-12)); (0, 0)];
  [(4794605424426, (-12)); (1280315624361, (-12)); (0, 0)];
  [(1578752370328, (-12)); (2224439106766, (-12)); (0, 0)];
  [(5708926113761, (-12)); (5234914433867, (-12)); (0, 0)];
  [(3842402530241, (-12)); (413798944149, (-11)); (0, 0)];
  [(3067548981535, (-12)); (1758411009497, (-12)); (0, 0)];
  [(1313930030069, (-12)); (5919285089994, (-12)); (0, 0)];
  [(3488500408886, (-12)); (5414616938827, (-12)); (0, 0)];
  [(1532061626198, (-12)); (1496516557134, (-12)); (0, 0)];
  [(3285859929993, (-12)); (1919918242764, (-12)); (0, 0)];
  [(1477341999464, (-12)); (3819615855458, (-12)); (0, 0)];
  [(1586118663096, (-12)); (6244264115141, (-12)); (0, 0)];
  [(1304887868803, (-12)); (503773187261, (-12)); (0, 0)];
  [(455533358935, (-11)); (2984557271995, (-12)); (0, 0)];
  [(3001762842062, (-12)); (6087038140697, (-12)); (0, 0)];
  [(4886780007595, (-12)); (5855668994076, (-12)); (0, 0)];
  [(4701509603824, (-12)); (244312857474, (-11)); (0, 0)];
  [(4588357817278, (-12)); (3017561234194, (-12)); (0, 0)];
  [(1164543038893, (-12)); (5887386712935, (-12)); (0, 0)];
  [(3919171259645, (-12)); (3483461059895, (-13)); (0, 0)];
  [(2143828253542, (-12)); (5417387056707, (-12)); (0, 0)];
  [(6066564434241, (-12)); (2848193644783, (-12)); (0, 0)];
  [(2926316429472, (-12)); (2349882520828, (-12)); (0, 0)];
  [(3244303591505, (-12)); (5728575944077, (-13)); (0, 0)];
  [(3404304703662, (-12)); (4495796125937, (-12)); (0, 0)];
  [(8532377803192, (-13)); (1355441967677, (-12)); (0, 0)];
  [(4901966774419, (-12)); (1673422864307, (-12)); (0, 0)];
  [(1874672315797, (-12)); (1833502206373, (-12)); (0, 0)];
  [(3735726064334, (-12)); (3331122065824, (-12)); (0, 0)];
  [(4502033899935, (-12)); (2165327142679, (-12)); (0, 0)];
  [(4372334799878, (-12)); (2931146089284, (-12)); (0, 0)];
  [(2581617302908, (-12)); (4134407994088, (-12)); (0, 0)];
  [(2974811513158, (-12)); (3805420303749, (-12)); (0, 0)];
  [(1796073748244, (-13)); (1082469260599, (-12)); (0, 0)];
  [(1981998136973, (-12)); (8384333678401, (-13)); (0, 0)];
  [(2559174171605, (-13)); (3552588749309, (-12)); (0, 0)];
  [(2750967106776, (-12)); (4320826409528, (-12)); (0, 0)];
  [(6325947523578, (-13)); (4811879454445, (-12)); (0, 0)];
  [(1672304519067, (-12)); (9942628922396, (-14)); (0, 0)];
  [(3512566172575, (-12)); (2466557607764, (-12)); (0, 0)];
  [(5610932219189, (-12)); (4551978748683, (-12)); (0, 0)];
  [(4037501131256, (-12)); (5710812312425, (-12)); (0, 0)];
  [(612277496824, (-11)); (1333998428358, (-12)); (0, 0)];
  [(5527984999515, (-12)); (464931536076, (-11)); (0, 0)];
  [(9980765573624, (-13)); (5512754081205, (-12)); (0, 0)];
  [(6044489493203, (-12)); (1308025299938, (-12)); (0, 0)];
  [(3924265998147, (-12)); (2144908368062, (-12)); (0, 0)];
  [(6220111376901, (-12)); (5567259412084, (-12)); (0, 0)];
  [(3716043206862, (-12)); (5230667156451, (-12)); (0, 0)];
  [(8548704071116, (-13)); (6134081115303, (-12)); (0, 0)];
  [(1426925072829, (-12)); (4783808492071, (-12)); (0, 0)];
  [(7135651752625, (-14)); (5161817911099, (-12)); (0, 0)];
  [(5330767643283, (-12)); (1381646203111, (-12)); (0, 0)];
  [(4494262335353, (-13)); (3876705259495, (-13)); (0, 0)];
  [(2952369582215, (-12)); (5029491776223, (-12)); (0, 0)];
  [(3500003416535, (-12)); (192316295549, (-11)); (0, 0)];
  [(6196709413181, (-12)); (4633332586423, (-12)); (0, 0)];
  [(5103690031897, (-12)); (1616650009743, (-12)); (0, 0)];
  [(3187569587401, (-12)); (9817316704659, (-14)); (0, 0)];
  [(1668924357457, (-12)); (3656161212139, (-12)); (0, 0)];
  [(4445722510309, (-12)); (4404098713092, (-12)); (0, 0)];
  [(5226224152423, (-12)); (5181188732639, (-13)); (0, 0)];
  [(4371166550274, (-12)); (3254859566869, (-12)); (0, 0)];
  [(5973556689693, (-12)); (3086773224677, (-12)); (0, 0)];
  [(20890847146, (-10)); (2797882673542, (-12)); (0, 0)];
  [(4658371936827, (-12)); (2892676280217, (-12)); (0, 0)];
  [(4825580552819, (-12)); (5861046025739, (-12)); (0, 0)];
  [(3739003524998, (-12)); (2168239627033, (-12)); (0, 0)];
  [(1148941386536, (-12)); (6271811124181, (-12)); (0, 0)];
  [(1559893008343, (-12)); (3936853151404, (-12)); (0, 0)];
  [(5516145383612, (-12)); (1404148734043, (-12)); (0, 0)];
  [(6116053700563, (-12)); (2452436180854, (-12)); (0, 0)];
  [(5076821746017, (-12)); (610229273904, (-11)); (0, 0)];
  [(8164676232075, (-13)); (6072760457276, (-12)); (0, 0)];
  [(1360479453671, (-12)); (1154832815171, (-12)); (0, 0)];
  [(2725622229926, (-12)); (5527545321897, (-12)); (0, 0)];
  [(6054459628492, (-13)); (1525035688629, (-12)); (0, 0)];
  [(857046213521, (-12)); (5570681040569, (-12)); (0, 0)];
  [(3552067338279, (-12)); (198124060116, (-11)); (0, 0)];
  [(3096565085313, (-12)); (2050060880201, (-12)); (0, 0)];
  [(6367751709777, (-13)); (3277477970321, (-12)); (0, 0)];
  [(4848461503937, (-12)); (5210690074886, (-12)); (0, 0)];
  [(1331950643655, (-12)); (6653274904611, (-13)); (0, 0)];
  [(4958368297746, (-13)); (1767941436148, (-12)); (0, 0)];
  [(2237215515707, (-12)); (3421746306465, (-12)); (0, 0)];
  [(3332402188575, (-12)); (1127144787547, (-12)); (0, 0)];
  [(5785600576016, (-12)); (4214794779161, (-12)); (0, 0)];
  [(9812676559709, (-14)); (5324905497687, (-12)); (0, 0)];
  [(9494780468236, (-13)); (6135761838271, (-12)); (0, 0)];
  [(1739332095686, (-13)); (1802305450666, (-12)); (0, 0)];
  [(1423354800666, (-12)); (4812299731574, (-12)); (0, 0)];
  [(2314972675293, (-13)); (3657547059723, (-12)); (0, 0)];
  [(1012646782616, (-13)); (4866676894425, (-12)); (0, 0)];
  [(5233306881265, (-12)); (3809342558906, (-12)); (0, 0)];
  [(4005597257511, (-12)); (2494635174443, (-12)); (0, 0)];
  [(536567624202, (-11)); (2699961831678, (-12)); (0, 0)];
  [(4284440620612, (-12)); (3318457714816, (-12)); (0, 0)];
  [(4270562636575, (-12)); (4382703582466, (-12)); (0, 0)];
  [(595355320106, (-11)); (5271066317054, (-12)); (0, 0)];
  [(1115180417718, (-12)); (5819591585302, (-12)); (0, 0)];
  [(3863811918186, (-12)); (5980934960428, (-12)); (0, 0)];
  [(1268617928302, (-12)); (3337290282483, (-12)); (0, 0)];
  [(4908605223265, (-12)); (5742978187327, (-12)); (0, 0)];
  [(3744519976885, (-12)); (22780758042, (-10)); (0, 0)];
  [(4173244670532, (-12)); (5835747858477, (-12)); (0, 0)];
  [(591060142885, (-11)); (5838898193902, (-12)); (0, 0)];
  [(2488050078239, (-12)); (1122212337858, (-12)); (0, 0)];
  [(1122363652883, (-12)); (9182250996416, (-13)); (0, 0)];
  [(4951973724904, (-12)); (5174761973266, (-12)); (0, 0)];
  [(5117057845513, (-12)); (3381611020639, (-12)); (0, 0)];
  [(6104159180476, (-12)); (3546193723922, (-12)); (0, 0)];
  [(1184933429829, (-12)); (4533203197934, (-12)); (0, 0)];
  [(3505282086105, (-12)); (2756168198616, (-12)); (0, 0)];
  [(2286651088141, (-12)); (1934395469918, (-12)); (0, 0)];
  [(1871816775482, (-13)); (7149920971109, (-13)); (0, 0)];
  [(3143251755431, (-12)); (4899819493154, (-12)); (0, 0)];
  [(2462167316018, (-12)); (1572418915115, (-12)); (0, 0)];
  [(4256374004686, (-12)); (8912190180489, (-13)); (0, 0)];
  [(4970362941425, (-12)); (3800821940055, (-12)); (0, 0)];
  [(2372657824898, (-12)); (2644717440029, (-12)); (0, 0)];
  [(4232652627721, (-12)); (3987793020179, (-12)); (0, 0)];
  [(3925747001137, (-13)); (9908826440764, (-13)); (0, 0)];
  [(3093478330445, (-12)); (251614975222, (-11)); (0, 0)];
  [(5560948248212, (-12)); (5849195642118, (-12)); (0, 0)];
  [(5072790310072, (-12)); (1681660100162, (-12)); (0, 0)];
  [(4998530231096, (-12)); (5804143987737, (-13)); (0, 0)];
  [(2561739802176, (-12)); (5800768280123, (-12)); (0, 0)];
  [(4087420284111, (-12)); (9241118370216, (-13)); (0, 0)];
  [(2515048217955, (-12)); (3139776445735, (-12)); (0, 0)];
  [(5235326497443, (-12)); (3549440782984, (-12)); (0, 0)];
  [(1088200795797, (-12)); (4735540696319, (-12)); (0, 0)];
  [(4710624424816, (-12)); (4998289124561, (-12)); (0, 0)];
  [(2857975896445, (-13)); (6709515671102, (-13)); (0, 0)];
  [(2241619020815, (-12)); (5410978257284, (-12)); (0, 0)];
  [(6651573305272, (-14)); (4778317207821, (-12)); (0, 0)];
  [(1285135324585, (-12)); (6009020662222, (-12)); (0, 0)];
  [(298122983453, (-12)); (5010449777147, (-12)); (0, 0)];
  [(6122470726189, (-12)); (5980943768809, (-12)); (0, 0)];
  [(4251087148947, (-12)); (2679965110468, (-12)); (0, 0)];
  [(346507046079, (-11)); (189423114881, (-11)); (0, 0)];
  [(579160381535, (-11)); (422075295078, (-11)); (0, 0)];
  [(4142483772941, (-12)); (2571783940617, (-12)); (0, 0)];
  [(2101901889496, (-12)); (5169765997119, (-13)); (0, 0)];
  [(1526689456959, (-12)); (6239078264579, (-12)); (0, 0)];
  [(2397684236095, (-12)); (2031184412677, (-12)); (0, 0)];
  [(5751929456787, (-13)); (8266079985979, (-13)); (0, 0)];
  [(5595464352926, (-12)); (8819350522008, (-13)); (0, 0)];
  [(5092689490655, (-12)); (3520944177789, (-12)); (0, 0)];
  [(4444363527851, (-12)); (1551431908671, (-12)); (0, 0)];
  [(3108251687661, (-12)); (4178610147412, (-12)); (0, 0)];
  [(2608133861079, (-12)); (1506764000157, (-12)); (0, 0)];
  [(3639717753384, (-12)); (2118250611782, (-12)); (0, 0)];
  [(1741898445707, (-13)); (3363255261678, (-12)); (0, 0)];
  [(3902225646724, (-12)); (420042395646, (-12)); (0, 0)];
  [(4971131250731, (-12)); (2331362582487, (-12)); (0, 0)];
  [(167746235711, (-11)); (3400274026992, (-12)); (0, 0)];
  [(4236259604006, (-12)); (1066051230724, (-13)); (0, 0)];
  [(5926814998687, (-12)); (2779066487979, (-12)); (0, 0)];
  [(4349643351962, (-12)); (995145069184, (-12)); (0, 0)];
  [(5700940482701, (-12)); (6402447365817, (-13)); (0, 0)];
  [(660128636343, (-12)); (2303524214705, (-13)); (0, 0)];
  [(2211098592752, (-12)); (6164622655048, (-12)); (0, 0)];
  [(4942488551129, (-12)); (395456118558, (-11)); (0, 0)];
  [(1452233856386, (-12)); (2028286308984, (-12)); (0, 0)];
  [(5525357721439, (-12)); (2304040666128, (-12)); (0, 0)];
  [(4108794283624, (-12)); (253846105728, (-11)); (0, 0)];
  [(7344335209984, (-13)); (5111054348152, (-12)); (0, 0)];
  [(3541213951363, (-12)); (5601130666603, (-12)); (0, 0)];
  [(4031094072151, (-12)); (2614340453411, (-12)); (0, 0)];
  [(4185136203609, (-12)); (3624721577264, (-12)); (0, 0)];
  [(1720485636868, (-12)); (4214569879008, (-12)); (0, 0)];
  [(2758613420318, (-12)); (1496911744704, (-13)); (0, 0)];
  [(4216686842097, (-12)); (1187817671922, (-12)); (0, 0)];
  [(2575068876639, (-13)); (2655703035858, (-12)); (0, 0)];
  [(4800844956756, (-13)); (4969896184844, (-12)); (0, 0)];
  [(3896756361552, (-13)); (5192460776926, (-12)); (0, 0)];
  [(370080502355, (-12)); (1960356923057, (-12)); (0, 0)];
  [(4364579276638, (-12)); (5082427809068, (-12)); (0, 0)];
  [(2156564222111, (-12)); (2793775037273, (-12)); (0, 0)];
  [(5454015785234, (-12)); (3726144311409, (-12)); (0, 0)];
  [(1597772562175, (-12)); (7404080708937, (-13)); (0, 0)];
  [(5824090621461, (-12)); (2697449980577, (-14)); (0, 0)];
  [(3578778482835, (-12)); (4253296276335, (-12)); (0, 0)];
  [(3724362812423, (-12)); (5148072412354, (-12)); (0, 0)];
  [(5422427507933, (-12)); (2153581148294, (-12)); (0, 0)];
  [(2396106924439, (-12)); (3852750634351, (-12)); (0, 0)];
  [(2804028838685, (-12)); (123323335627, (-11)); (0, 0)];
  [(1638816006247, (-12)); (5610486976767, (-12)); (0, 0)];
  [(8979003224474, (-13)); (1639629524123, (-12)); (0, 0)];
  [(3210426725516, (-12)); (3737100368583, (-12)); (0, 0)];
  [(5308027211629, (-12)); (1158417054478, (-13)); (0, 0)];
  [(2195145341074, (-12)); (6243502862796, (-13)); (0, 0)];
  [(5081189491586, (-12)); (3510377382385, (-12)); (0, 0)];
  [(4345171264441, (-12)); (5916128302299, (-12)); (0, 0)];
  [(2613062847997, (-12)); (1042266763456, (-12)); (0, 0)];
  [(2846760817689, (-12)); (11667884357, (-10)); (0, 0)];
  [(4921360989412, (-12)); (3254726114901, (-12)); (0, 0)];
  [(1130360117454, (-13)); (168721059853, (-11)); (0, 0)];
  [(4228195232278, (-12)); (2657541786794, (-12)); (0, 0)];
  [(3005721811604, (-13)); (5013089805819, (-12)); (0, 0)];
  [(7830125621203, (-13)); (5495315428418, (-12)); (0, 0)];
  [(3807792942715, (-12)); (2236989966505, (-12)); (0, 0)]
].
Definition E0_2 : list (list (Z * Z)) := [
  [(6283075850446, (-12)); (6283075850446, (-12)); (8433466158131, (-11))];
  [(1256615170089, (-11)); (0, 0); (5507553240374, (-12))];
  [(0, 0); (1256615170089, (-11)); (5223693906222, (-12))];
  [(1884922755134, (-11)); (1884922755134, (-11)); (2352866153506, (-12))];
  [(8399684731857, (-11)); (8399684731857, (-11)); (1577343543434, (-12))];
  [(5296909721118, (-13)); (5296909721118, (-13)); (1047747311755, (-12))];
  [(1577343543434, (-12)); (1577343543434, (-12)); (5856477690889, (-12))];
  [(6279552690824, (-12)); (6279552690824, (-12)); (6283075850446, (-12))];
  [(6286599010068, (-12)); (6286599010068, (-12)); (9437762937313, (-12))];
  [(2352866153506, (-12)); (2352866153506, (-12)); (1021328554739, (-11))];
  [(5223693906222, (-12)); (5223693906222, (-12)); (1414349524433, (-11))];
  [(1203646072878, (-11)); (1203646072878, (-11)); (6812766822558, (-12))];
  [(1021328554739, (-11)); (1021328554739, (-11)); (469400293411, (-11))];
  [(1059381944224, (-12)); (1059381944224, (-12)); (7109288135493, (-11))];
  [(5753384878334, (-12)); (3981490189893, (-13)); (5753384878334, (-12))];
  [(3981490189893, (-13)); (5753384878334, (-12)); (7084896783808, (-12))];
  [(4705732307012, (-12)); (4705732307012, (-12)); (6275962395778, (-12))];
  [(6812766822558, (-12)); (6812766822558, (-12)); (6620890113188, (-12))];
  [(5884926831456, (-12)); (5884926831456, (-12)); (5296909721118, (-13))];
  [(6256777527156, (-12)); (6256777527156, (-12)); (1676215758509, (-10))];
  [(6309374173736, (-12)); (6309374173736, (-12)); (1807370494127, (-11))];
  [(6681224869435, (-12)); (5507553240374, (-12)); (4705732307012, (-12))];
  [(775522610072, (-12)); (6681224869435, (-12)); (6309374173736, (-12))];
  [(1414349524433, (-11)); (775522610072, (-12)); (5884926831456, (-12))];
  [(786041939388, (-11)); (1414349524433, (-11)); (6681224869435, (-12))];
  [(1150676975667, (-11)); (786041939388, (-11)); (5486777812467, (-12))];
  [(7058598460518, (-12)); (1150676975667, (-11)); (786041939388, (-11))];
  [(469400293411, (-11)); (7058598460518, (-12)); (1336797263425, (-11))];
  [(121680026819, (-10)); (469400293411, (-11)); (393020969694, (-11))];
  [(7099330490126, (-13)); (121680026819, (-10)); (3154687086868, (-12))];
  [(7962980379786, (-13)); (7099330490126, (-13)); (1059381944224, (-12))];
  [(5486777812467, (-12)); (7962980379786, (-13)); (6069776770667, (-12))];
  [(6283008715021, (-12)); (628314298587, (-11)); (1219403291462, (-11))];
  [(628314298587, (-11)); (6283008715021, (-12)); (1097707878456, (-11))];
  [(2513230340178, (-11)); (2513230340178, (-11)); (6496374930224, (-12))];
  [(1179062909082, (-11)); (1179062909082, (-11)); (220039146382, (-10))];
  [(1778984560711, (-11)); (5486777812467, (-12)); (5643178611111, (-12))];
  [(7079373888424, (-12)); (1778984560711, (-11)); (8635942003952, (-12))];
  [(3738761453707, (-12)); (7079373888424, (-12)); (3340612434717, (-12))];
  [(2132990797783, (-13)); (3738761453707, (-12)); (1203646072878, (-11))];
  [(1097707878456, (-11)); (2132990797783, (-13)); (1179062909082, (-11))];
  [(8827390247185, (-12)); (9437762937313, (-12)); (3981490189893, (-13))];
  [(5507553240374, (-12)); (8827390247185, (-12)); (5088628793478, (-12))];
  [(1589072916335, (-12)); (1589072916335, (-12)); (2544314396739, (-12))];
  [(1176985366291, (-11)); (1176985366291, (-11)); (1729818233119, (-11))];
  [(6262300422539, (-12)); (6262300422539, (-12)); (7058598460518, (-12))];
  [(6303851278352, (-12)); (6303851278352, (-12)); (2593412433514, (-11))];
  [(1672837615881, (-10)); (71134546679, (-13)); (156475290248, (-9))];
  [(3340612434717, (-12)); (1672837615881, (-10)); (3738761453707, (-12))];
  [(71134546679, (-13)); (6069776770667, (-12)); (9225539266174, (-12))];
  [(4136910472696, (-12)); (3340612434717, (-12)); (4164311961999, (-12))];
  [(6069776770667, (-12)); (4136910472696, (-12)); (8429241228195, (-12))];
  [(6496374930224, (-12)); (6496374930224, (-12)); (0, 0)];
  [(9437762937313, (-12)); (1097707878456, (-11)); (7079373888424, (-12))];
  [(1194447056968, (-12)); (1194447056968, (-12)); (1044738781244, (-11))];
  [(6282095334605, (-12)); (6282095334605, (-12)); (1150676975667, (-11))];
  [(6284056366286, (-12)); (6284056366286, (-12)); (1101510648075, (-11))];
  [(6290189305114, (-12)); (6290189305114, (-12)); (260879031406, (-10))];
  [(6275962395778, (-12)); (6275962395778, (-12)); (2986433403208, (-11))];
  [(6127655567643, (-12)); (6127655567643, (-12)); (4732030630302, (-12))];
  [(6438496133249, (-12)); (6438496133249, (-12)); (8031092209206, (-12))];
  [(3154687086868, (-12)); (3154687086868, (-12)); (7962980379786, (-13))];
  [(3128388763578, (-12)); (8018209333619, (-13)); (214616537775, (-11))];
  [(8018209333619, (-13)); (3128388763578, (-12)); (2122839202813, (-11))];
  [(8429241228195, (-12)); (7084896783808, (-12)); (2942463415728, (-12))];
  [(1336797263425, (-11)); (1235285262111, (-11)); (775522610072, (-12))];
  [(1235285262111, (-11)); (1185621865188, (-11)); (1256615170089, (-11))];
  [(1185621865188, (-11)); (8429241228195, (-12)); (8018209333619, (-13))];
  [(17260154635, (-9)); (2544314396739, (-12)); (4690479774488, (-12))];
  [(5481254917084, (-12)); (5481254917084, (-12)); (8827390247185, (-12))];
  [(9225539266174, (-12)); (9225539266174, (-12)); (2132990797783, (-13))];
  [(5856477690889, (-12)); (17260154635, (-9)); (6480980550449, (-11))];
  [(2544314396739, (-12)); (4265981595566, (-13)); (3379454372902, (-11))];
  [(4265981595566, (-13)); (214616537775, (-11)); (4136910472696, (-12))];
  [(393020969694, (-11)); (4164311961999, (-12)); (3128388763578, (-12))];
  [(214616537775, (-11)); (5856477690889, (-12)); (5216580451554, (-12))];
  [(4164311961999, (-12)); (1256967486051, (-11)); (4265981595566, (-13))];
  [(5088628793478, (-12)); (1807370494127, (-11)); (1572083878776, (-11))];
  [(1256967486051, (-11)); (262983232899, (-13)); (6290189305114, (-12))];
  [(1807370494127, (-11)); (4535059491685, (-12)); (523080736089, (-11))];
  [(262983232899, (-13)); (393020969694, (-11)); (2397622045175, (-10))];
  [(4535059491685, (-12)); (1256262854127, (-11)); (1649636139783, (-11))];
  [(1137170464392, (-11)); (5088628793478, (-12)); (1589072916335, (-12))];
  [(1256262854127, (-11)); (1255903824622, (-11)); (7632943190217, (-12))];
  [(1255903824622, (-11)); (1336797263425, (-11)); (6206810014183, (-12))];
  [(7084896783808, (-12)); (1137170464392, (-11)); (2515860172507, (-11))];
  [(7143069561767, (-11)); (7143069561767, (-11)); (121680026819, (-10))];
  [(8031092209206, (-12)); (174801635876, (-11)); (7234794171227, (-12))];
  [(174801635876, (-11)); (1831953657923, (-11)); (7342457794669, (-12))];
  [(1831953657923, (-11)); (4933208510675, (-12)); (9623688285163, (-12))];
  [(4933208510675, (-12)); (7477522907414, (-12)); (6438496133249, (-12))];
  [(1044738781244, (-11)); (1044738781244, (-11)); (1494531617769, (-11))];
  [(7477522907414, (-12)); (8031092209206, (-12)); (8662240327241, (-12))];
  [(2942463415728, (-12)); (8635942003952, (-12)); (1194447056968, (-12))];
  [(8635942003952, (-12)); (2942463415728, (-12)); (3772475342596, (-11))];
  [(1729818233119, (-11)); (1561374759853, (-10)); (5863591145557, (-12))];
  [(1561374759853, (-10)); (1592596075957, (-12)); (196510484847, (-10))];
  [(1592596075957, (-12)); (13095842673, (-9)); (7238675589263, (-12))];
  [(13095842673, (-9)); (1649636139783, (-11)); (6836645152238, (-12))];
  [(1649636139783, (-11)); (1729818233119, (-11)); (5849364236221, (-12))];
  [(7632943190217, (-12)); (2042657109477, (-11)); (6133512519065, (-12))];
  [(2042657109477, (-11)); (7632943190217, (-12)); (4535059491685, (-12))];
  [(1213955354133, (-11)); (1213955354133, (-11)); (7477522907414, (-12))];
  [(5331357529664, (-12)); (5331357529664, (-12)); (1137170464392, (-11))];
  [(7342457794669, (-12)); (1673046366289, (-11)); (2509084901204, (-10))];
  [(62794855554, (-10)); (7342457794669, (-12)); (174801635876, (-11))];
  [(6286666145492, (-12)); (62794855554, (-10)); (822391669578, (-10))];
  [(7234794171227, (-12)); (6286666145492, (-12)); (3378142627421, (-13))];
  [(1511046609763, (-11)); (1511046609763, (-11)); (2908881142201, (-11))];
  [(1098880815746, (-11)); (1098880815746, (-11)); (1673046366289, (-11))];
  [(5729506548653, (-12)); (1572083878776, (-11)); (1543797956245, (-10))];
  [(9623688285163, (-12)); (5729506548653, (-12)); (1778984560711, (-11))];
  [(6148010737701, (-12)); (9623688285163, (-12)); (2042657109477, (-11))];
  [(6836645152238, (-12)); (7234794171227, (-12)); (416549631229, (-10))];
  [(1572083878776, (-11)); (6148010737701, (-12)); (7737595720538, (-11))];
  [(641814096319, (-11)); (641814096319, (-11)); (2358125818164, (-11))];
  [(1471231707864, (-11)); (2118763888447, (-12)); (3301902111895, (-11))];
  [(2118763888447, (-12)); (1471231707864, (-11)); (9548094718417, (-11))];
  [(1349867339771, (-12)); (1349867339771, (-12)); (8399684731857, (-11))];
  [(5999216516294, (-12)); (6836645152238, (-12)); (4558517281984, (-11))];
  [(604034711426, (-11)); (5999216516294, (-12)); (7805158573086, (-11))];
  [(6566935184597, (-12)); (604034711426, (-11)); (521758062812, (-10))];
  [(5643178611111, (-12)); (6566935184597, (-12)); (1501922143975, (-10))];
  [(6525804586632, (-12)); (6525804586632, (-12)); (9061773743175, (-11))];
  [(2122839202813, (-11)); (7238675589263, (-12)); (4951538251678, (-11))];
  [(4690479774488, (-12)); (125398533776, (-10)); (1613385000004, (-10))];
  [(125398533776, (-10)); (2122839202813, (-11)); (7318837597844, (-11))];
  [(1097355562493, (-11)); (6245048154254, (-12)); (1432335100216, (-10))];
  [(6245048154254, (-12)); (6321103546637, (-12)); (3230491187871, (-10))];
  [(6321103546637, (-12)); (5327476111629, (-12)); (2334791286671, (-10))];
  [(5327476111629, (-12)); (1101510648075, (-11)); (1739046517013, (-10))];
  [(5368044267797, (-13)); (5643178611111, (-12)); (1620484330494, (-10))];
  [(2354323048545, (-11)); (5368044267797, (-13)); (9757644180768, (-11))];
  [(1296430071988, (-11)); (2354323048545, (-11)); (1697170704744, (-10))];
  [(9517183207817, (-13)); (1296430071988, (-11)); (2265204242912, (-10))];
  [(1990745094947, (-12)); (1990745094947, (-12)); (33419540439, (-8))];
  [(9555997388169, (-13)); (9517183207817, (-13)); (3119028331842, (-10))];
  [(5225775174439, (-13)); (9555997388169, (-13)); (0, 0)];
  [(2407292145756, (-11)); (2407292145756, (-11)); (0, 0)];
  [(220039146382, (-10)); (5225775174439, (-13)); (0, 0)];
  [(523080736089, (-11)); (1097355562493, (-11)); (0, 0)];
  [(1842262939178, (-11)); (220039146382, (-10)); (0, 0)];
  [(1554202828031, (-13)); (1431416805965, (-11)); (0, 0)];
  [(1845107853235, (-11)); (1842262939178, (-11)); (0, 0)];
  [(6398972393349, (-13)); (1554202828031, (-13)); (0, 0)];
  [(6277552955062, (-12)); (1845107853235, (-11)); (0, 0)];
  [(6288598745829, (-12)); (5216580451554, (-12)); (0, 0)];
  [(1551045220144, (-12)); (6398972393349, (-13)); (0, 0)];
  [(5216580451554, (-12)); (6277552955062, (-12)); (0, 0)];
  [(5650292065779, (-12)); (6288598745829, (-12)); (0, 0)];
  [(1030928125552, (-13)); (4690479774488, (-12)); (0, 0)];
  [(1431416805965, (-11)); (1551045220144, (-12)); (0, 0)];
  [(5535693017924, (-13)); (1030928125552, (-13)); (0, 0)];
  [(260879031406, (-10)); (523080736089, (-11)); (0, 0)];
  [(8467247584405, (-11)); (5650292065779, (-12)); (0, 0)];
  [(2394243902548, (-10)); (7771377146812, (-11)); (0, 0)];
  [(7771377146812, (-11)); (260879031406, (-10)); (0, 0)];
  [(617998303789, (-11)); (5535693017924, (-13)); (0, 0)];
  [(9027992316901, (-11)); (8467247584405, (-11)); (0, 0)];
  [(6386168663001, (-12)); (2394243902548, (-10)); (0, 0)];
  [(6915859635113, (-12)); (4732030630302, (-12)); (0, 0)];
  [(6282970628506, (-12)); (617998303789, (-11)); (0, 0)];
  [(6283181072386, (-12)); (9027992316901, (-11)); (0, 0)];
  [(6254626709878, (-12)); (6386168663001, (-12)); (0, 0)];
  [(7875671926403, (-12)); (6915859635113, (-12)); (0, 0)];
  [(6311524991013, (-12)); (6282970628506, (-12)); (0, 0)];
  [(3634620989887, (-12)); (6283181072386, (-12)); (0, 0)];
  [(2515860172507, (-11)); (6254626709878, (-12)); (0, 0)];
  [(5760498333002, (-12)); (7875671926403, (-12)); (0, 0)];
  [(7238675589263, (-12)); (6311524991013, (-12)); (0, 0)];
  [(1101510648075, (-11)); (3634620989887, (-12)); (0, 0)];
  [(6709674010002, (-12)); (5760498333002, (-12)); (0, 0)];
  [(680565336789, (-11)); (2515860172507, (-11)); (0, 0)];
  [(1259245002418, (-11)); (6709674010002, (-12)); (0, 0)];
  [(1066495398892, (-12)); (680565336789, (-11)); (0, 0)];
  [(9917696840332, (-12)); (1066495398892, (-12)); (0, 0)];
  [(1192625446156, (-11)); (5863591145557, (-12)); (0, 0)];
  [(747816656905, (-13)); (9917696840332, (-12)); (0, 0)];
  [(1256621883632, (-11)); (1391601904066, (-11)); (0, 0)];
  [(4292330755499, (-12)); (1256621883632, (-11)); (0, 0)];
  [(1334167431096, (-11)); (1334167431096, (-11)); (0, 0)];
  [(1057540660594, (-11)); (1620077269078, (-11)); (0, 0)];
  [(6208294184755, (-12)); (747816656905, (-13)); (0, 0)];
  [(1805292951336, (-11)); (1805292951336, (-11)); (0, 0)];
  [(3523159621801, (-15)); (6208294184755, (-12)); (0, 0)];
  [(5966683958112, (-12)); (5966683958112, (-12)); (0, 0)];
  [(6357857516136, (-12)); (6357857516136, (-12)); (0, 0)];
  [(6599467742779, (-12)); (3523159621801, (-15)); (0, 0)];
  [(6019991944201, (-12)); (1272157198369, (-11)); (0, 0)];
  [(6702560555334, (-12)); (6599467742779, (-12)); (0, 0)];
  [(3141537925223, (-11)); (6019991944201, (-12)); (0, 0)];
  [(2505706758577, (-10)); (1259245002418, (-11)); (0, 0)];
  [(1673046366289, (-11)); (6702560555334, (-12)); (0, 0)];
  [(6546159756691, (-12)); (1057540660594, (-11)); (0, 0)];
  [(1272157198369, (-11)); (3141537925223, (-11)); (0, 0)];
  [(1494531617769, (-11)); (2505706758577, (-10)); (0, 0)];
  [(4732030630302, (-12)); (6546159756691, (-12)); (0, 0)];
  [(5863591145557, (-12)); (2388894113936, (-12)); (0, 0)];
  [(2388894113936, (-12)); (1202934727411, (-11)); (0, 0)];
  [(1202934727411, (-11)); (1256608456547, (-11)); (0, 0)];
  [(1256608456547, (-11)); (1336244973887, (-11)); (0, 0)];
  [(1336244973887, (-11)); (2908881142201, (-11)); (0, 0)];
  [(2908881142201, (-11)); (1494531617769, (-11)); (0, 0)];
  [(1391601904066, (-11)); (6076890225335, (-12)); (0, 0)];
  [(6076890225335, (-12)); (6262720680387, (-12)); (0, 0)];
  [(4701116388778, (-12)); (4701116388778, (-12)); (0, 0)];
  [(6262720680387, (-12)); (6303431020504, (-12)); (0, 0)];
  [(6303431020504, (-12)); (6489261475556, (-12)); (0, 0)];
  [(6489261475556, (-12)); (1204357418345, (-11)); (0, 0)];
  [(1204357418345, (-11)); (4590910121555, (-12)); (0, 0)];
  [(5746271423666, (-12)); (149563331381, (-12)); (0, 0)];
  [(149563331381, (-12)); (196510484847, (-10)); (0, 0)];
  [(1352175143971, (-11)); (1351787002167, (-11)); (0, 0)];
  [(4590910121555, (-12)); (1162474756779, (-12)); (0, 0)];
  [(1162474756779, (-12)); (627919443241, (-11)); (0, 0)];
  [(627919443241, (-11)); (6286957268481, (-12)); (0, 0)];
  [(6286957268481, (-12)); (1813929450232, (-11)); (0, 0)];
  [(1813929450232, (-11)); (4686889479442, (-12)); (0, 0)];
  [(4686889479442, (-12)); (1002183730415, (-11)); (0, 0)];
  [(1002183730415, (-11)); (4292330755499, (-12)); (0, 0)];
  [(2427287361862, (-13)); (9514313292143, (-11)); (0, 0)];
  [(9514313292143, (-11)); (6037244212485, (-12)); (0, 0)];
  [(1351787002167, (-11)); (2427287361862, (-13)); (0, 0)];
  [(6037244212485, (-12)); (1311972100268, (-11)); (0, 0)];
  [(2301353951334, (-11)); (1266924451345, (-11)); (0, 0)];
  [(1266924451345, (-11)); (6528907488406, (-12)); (0, 0)];
  [(6528907488406, (-12)); (1352175143971, (-11)); (0, 0)];
  [(6819880277225, (-12)); (8662240327241, (-12)); (0, 0)];
  [(6514761976723, (-11)); (6819880277225, (-12)); (0, 0)];
  [(207754279066, (-13)); (1102062672231, (-13)); (0, 0)];
  [(6272439236156, (-12)); (6514761976723, (-11)); (0, 0)];
  [(6293712464735, (-12)); (5746271423666, (-12)); (0, 0)];
  [(1765478049437, (-11)); (6272439236156, (-12)); (0, 0)];
  [(1102062672231, (-13)); (6293712464735, (-12)); (0, 0)];
  [(1052268489556, (-12)); (2301353951334, (-11)); (0, 0)];
  [(1311972100268, (-11)); (1765478049437, (-11)); (0, 0)];
  [(1017725758696, (-11)); (207754279066, (-13)); (0, 0)];
  [(1887552587463, (-11)); (1052268489556, (-12)); (0, 0)];
  [(762658362624, (-13)); (632783784667, (-12)); (0, 0)];
  [(196510484847, (-10)); (762658362624, (-13)); (0, 0)];
  [(6016468784579, (-12)); (11499656302, (-9)); (0, 0)];
  [(2593412433514, (-11)); (6016468784579, (-12)); (0, 0)];
  [(9411464614024, (-12)); (3301902111895, (-11)); (0, 0)];
  [(3301902111895, (-11)); (9411464614024, (-12)); (0, 0)];
  [(632783784667, (-12)); (1277945078067, (-11)); (0, 0)];
  [(389418173651, (-11)); (6549682916313, (-12)); (0, 0)];
  [(1277945078067, (-11)); (1863592847156, (-11)); (0, 0)];
  [(6549682916313, (-12)); (2379164476796, (-12)); (0, 0)];
  [(1863592847156, (-11)); (1257326515556, (-11)); (0, 0)];
  [(2379164476796, (-12)); (1887552587463, (-11)); (0, 0)];
  [(1620077269078, (-11)); (18209330312, (-9)); (0, 0)];
  [(11499656302, (-9)); (2593412433514, (-11)); (0, 0)];
  [(1257326515556, (-11)); (5120601093667, (-12)); (0, 0)];
  [(18209330312, (-9)); (6993008899458, (-12)); (0, 0)];
  [(6993008899458, (-12)); (381329181312, (-13)); (0, 0)];
  [(2435678079171, (-11)); (2435678079171, (-11)); (0, 0)];
  [(381329181312, (-13)); (1725663147538, (-11)); (0, 0)];
  [(2458316379602, (-13)); (2458316379602, (-13)); (0, 0)];
  [(6112403035119, (-12)); (6112403035119, (-12)); (0, 0)];
  [(5429879531333, (-12)); (124913700352, (-10)); (0, 0)];
  [(124913700352, (-10)); (6247047890016, (-12)); (0, 0)];
  [(6247047890016, (-12)); (6453748665772, (-12)); (0, 0)];
  [(6453748665772, (-12)); (5429879531333, (-12)); (0, 0)];
  [(6290122169689, (-12)); (6290122169689, (-12)); (0, 0)];
  [(6319103810876, (-12)); (6319103810876, (-12)); (0, 0)];
  [(8273820945392, (-12)); (8273820945392, (-12)); (0, 0)];
  [(6276029531202, (-12)); (1778273215245, (-11)); (0, 0)];
  [(1254537627298, (-11)); (6276029531202, (-12)); (0, 0)];
  [(1256517118505, (-11)); (1254537627298, (-11)); (0, 0)];
  [(6259197520765, (-12)); (1256517118505, (-11)); (0, 0)];
  [(6306954180126, (-12)); (2248384854122, (-11)); (0, 0)];
  [(1779695906178, (-11)); (6259197520765, (-12)); (0, 0)];
  [(1778273215245, (-11)); (6306954180126, (-12)); (0, 0)];
  [(6172869583223, (-12)); (1779695906178, (-11)); (0, 0)];
  [(1692165728891, (-12)); (2061856251104, (-13)); (0, 0)];
  [(2204125344462, (-13)); (1692165728891, (-12)); (0, 0)];
  [(8257698122054, (-11)); (2204125344462, (-13)); (0, 0)];
  [(6393282117669, (-12)); (8257698122054, (-11)); (0, 0)];
  [(1550861511662, (-11)); (1017725758696, (-11)); (0, 0)];
  [(2061856251104, (-13)); (9491756770005, (-13)); (0, 0)];
  [(9491756770005, (-13)); (6393282117669, (-12)); (0, 0)];
  [(390391137365, (-11)); (4804209201333, (-12)); (0, 0)];
  [(6267823317922, (-12)); (1550861511662, (-11)); (0, 0)];
  [(6298328382969, (-12)); (390391137365, (-11)); (0, 0)];
  [(2648454860559, (-12)); (6172869583223, (-12)); (0, 0)];
  [(1498544001348, (-10)); (6267823317922, (-12)); (0, 0)];
  [(3694923081589, (-11)); (6298328382969, (-12)); (0, 0)];
  [(4804209201333, (-12)); (5573142801433, (-12)); (0, 0)];
  [(1256713221673, (-11)); (2648454860559, (-12)); (0, 0)];
  [(1140367694411, (-11)); (1498544001348, (-10)); (0, 0)];
  [(2280573557157, (-11)); (3694923081589, (-11)); (0, 0)];
  [(783412107059, (-11)); (1140367694411, (-11)); (0, 0)];
  [(2787043132925, (-12)); (1256713221673, (-11)); (0, 0)];
  [(6282655592598, (-12)); (783412107059, (-11)); (0, 0)];
  [(6283496108294, (-12)); (1192625446156, (-11)); (0, 0)];
  [(1725663147538, (-11)); (2280573557157, (-11)); (0, 0)];
  [(1241073141809, (-11)); (2787043132925, (-12)); (0, 0)];
  [(6281591679874, (-12)); (6282655592598, (-12)); (0, 0)];
  [(6284560021018, (-12)); (6283496108294, (-12)); (0, 0)];
  [(1241658836951, (-11)); (1241073141809, (-11)); (0, 0)];
  [(1098419223922, (-11)); (6281591679874, (-12)); (0, 0)];
  [(1096996532989, (-11)); (6284560021018, (-12)); (0, 0)];
  [(1596186371003, (-12)); (1241658836951, (-11)); (0, 0)];
  [(4061219149443, (-12)); (1596186371003, (-12)); (0, 0)];
  [(1610006857377, (-10)); (6133512519065, (-12)); (0, 0)];
  [(1193336791622, (-11)); (1685848245639, (-11)); (0, 0)];
  [(8460828644453, (-13)); (4061219149443, (-12)); (0, 0)];
  [(8531963191132, (-13)); (1610006857377, (-10)); (0, 0)];
  [(5849364236221, (-12)); (8460828644453, (-13)); (0, 0)];
  [(5573142801433, (-12)); (389418173651, (-11)); (0, 0)];
  [(8662240327241, (-12)); (8531963191132, (-13)); (0, 0)];
  [(1232342296471, (-11)); (1567108171867, (-11)); (0, 0)];
  [(125869271288, (-10)); (125869271288, (-10)); (0, 0)];
  [(5333900173445, (-12)); (1193336791622, (-11)); (0, 0)];
  [(1171295538178, (-11)); (1232342296471, (-11)); (0, 0)];
  [(9779108567966, (-12)); (4907302013889, (-12)); (0, 0)];
  [(1884211409667, (-11)); (1884211409667, (-11)); (0, 0)];
  [(521758062812, (-10)); (521758062812, (-10)); (0, 0)];
  [(1041998632314, (-11)); (142269093358, (-13)); (0, 0)];
  [(6151533897323, (-12)); (2358125818164, (-11)); (0, 0)];
  [(1885275071096, (-11)); (1151388321134, (-11)); (0, 0)];
  [(4337116142245, (-13)); (1041998632314, (-11)); (0, 0)];
  [(6286362197481, (-12)); (6151533897323, (-12)); (0, 0)];
  [(627978950341, (-11)); (1885275071096, (-11)); (0, 0)];
  [(4907302013889, (-12)); (4337116142245, (-13)); (0, 0)];
  [(1176433076753, (-11)); (6286362197481, (-12)); (0, 0)];
  [(142269093358, (-13)); (627978950341, (-11)); (0, 0)];
  [(1245594543367, (-11)); (1176433076753, (-11)); (0, 0)];
  [(6414617803568, (-12)); (1245594543367, (-11)); (0, 0)];
  [(1151388321134, (-11)); (6414617803568, (-12)); (0, 0)];
  [(6062663316, (-9)); (1350651127443, (-13)); (0, 0)];
  [(3496032717521, (-12)); (1096996532989, (-11)); (0, 0)];
  [(2838593341516, (-13)); (6062663316, (-9)); (0, 0)];
  [(3104930017775, (-12)); (5326786718777, (-12)); (0, 0)];
  [(6133512519065, (-12)); (3104930017775, (-12)); (0, 0)];
  [(4087944051283, (-11)); (4087944051283, (-11)); (0, 0)];
  [(2248384854122, (-11)); (5849364236221, (-12)); (0, 0)];
  [(1581959461667, (-12)); (1581959461667, (-12)); (0, 0)];
  [(9388005868221, (-12)); (6503488384892, (-12)); (0, 0)];
  [(5326786718777, (-12)); (1735668374386, (-10)); (0, 0)];
  [(6503488384892, (-12)); (1248988586463, (-11)); (0, 0)];
  [(1735668374386, (-10)); (2673594526851, (-11)); (0, 0)];
  [(1350651127443, (-13)); (2460261242967, (-11)); (0, 0)];
  [(1248988586463, (-11)); (4171425416666, (-12)); (0, 0)];
  [(2673594526851, (-11)); (5333900173445, (-12)); (0, 0)];
  [(4171425416666, (-12)); (7232251527446, (-12)); (0, 0)];
  [(2460261242967, (-11)); (3227113045244, (-10)); (0, 0)];
  [(7232251527446, (-12)); (9388005868221, (-12)); (0, 0)];
  [(3227113045244, (-10)); (5547199253223, (-12)); (0, 0)];
  [(5547199253223, (-12)); (728505617157, (-10)); (0, 0)];
  [(728505617157, (-10)); (1884570439172, (-11)); (0, 0)];
  [(10873985972, (-9)); (9723862754494, (-11)); (0, 0)];
  [(1884570439172, (-11)); (4274518229222, (-12)); (0, 0)];
  [(9723862754494, (-11)); (3496032717521, (-12)); (0, 0)];
  [(6244942932314, (-12)); (6244942932314, (-12)); (0, 0)];
  [(2929661536378, (-11)); (2929661536378, (-11)); (0, 0)];
  [(4274518229222, (-12)); (6321208768577, (-12)); (0, 0)];
  [(6321208768577, (-12)); (1232032006293, (-11)); (0, 0)];
  [(1232032006293, (-11)); (7018952447668, (-12)); (0, 0)];
  [(1726726808967, (-11)); (1478866649112, (-12)); (0, 0)];
  [(7018952447668, (-12)); (6922973089781, (-12)); (0, 0)];
  [(149190178544, (-10)); (2331413144044, (-10)); (0, 0)];
  [(1478866649112, (-12)); (1715706182245, (-11)); (0, 0)];
  [(6922973089781, (-12)); (149190178544, (-10)); (0, 0)];
  [(1715706182245, (-11)); (1726726808967, (-11)); (0, 0)];
  [(2331413144044, (-10)); (6297302759782, (-12)); (0, 0)];
  [(1376059875786, (-11)); (1376059875786, (-11)); (0, 0)];
  [(6297302759782, (-12)); (7872148766781, (-12)); (0, 0)];
  [(7872148766781, (-12)); (626884894111, (-11)); (0, 0)];
  [(626884894111, (-11)); (4157198507331, (-12)); (0, 0)];
  [(4157198507331, (-12)); (9779108567966, (-12)); (0, 0)];
  [(1567108171867, (-11)); (1098419223922, (-11)); (0, 0)];
  [(3185192151914, (-12)); (1252801878276, (-11)); (0, 0)];
  [(1252801878276, (-11)); (1617106187867, (-10)); (0, 0)];
  [(1617106187867, (-10)); (3185192151914, (-12)); (0, 0)];
  [(564219809527, (-11)); (6271346477544, (-12)); (0, 0)];
  [(2139354194808, (-11)); (2139354194808, (-11)); (0, 0)];
  [(6294805223347, (-12)); (6294805223347, (-12)); (0, 0)];
  [(6271346477544, (-12)); (2195415756911, (-11)); (0, 0)];
  [(1725304118033, (-11)); (7445550607224, (-12)); (0, 0)];
  [(7445550607224, (-12)); (9562891316684, (-13)); (0, 0)];
  [(4194847048887, (-13)); (1161697602389, (-11)); (0, 0)];
  [(9562891316684, (-13)); (2277943724828, (-11)); (0, 0)];
  [(1161697602389, (-11)); (10873985972, (-9)); (0, 0)];
  [(2277943724828, (-11)); (3163918923335, (-13)); (0, 0)];
  [(1362553364512, (-11)); (1362553364512, (-11)); (0, 0)];
  [(1685848245639, (-11)); (1725304118033, (-11)); (0, 0)];
  [(2986433403208, (-11)); (627914338782, (-11)); (0, 0)];
  [(5749861718712, (-12)); (1385561574497, (-12)); (0, 0)];
  [(627914338782, (-11)); (41760413349, (-10)); (0, 0)];
  [(1385561574497, (-12)); (6287008313071, (-12)); (0, 0)];
  [(41760413349, (-10)); (5749861718712, (-12)); (0, 0)];
  [(6287008313071, (-12)); (5905702259363, (-12)); (0, 0)];
  [(2099539292909, (-11)); (2099539292909, (-11)); (0, 0)];
  [(5905702259363, (-12)); (7335344340001, (-12)); (0, 0)];
  [(39324626253, (-13)); (5436992986, (-9)); (0, 0)];
  [(7335344340001, (-12)); (1234573916645, (-11)); (0, 0)];
  [(1234573916645, (-11)); (380276961914, (-13)); (0, 0)];
  [(2670964694522, (-11)); (2670964694522, (-11)); (0, 0)];
  [(6408777551755, (-13)); (6660449441528, (-12)); (0, 0)];
  [(6660449441528, (-12)); (1375773836557, (-12)); (0, 0)];
  [(1375773836557, (-12)); (4480965020977, (-11)); (0, 0)];
  [(380276961914, (-13)); (6408777551755, (-13)); (0, 0)];
  [(4480965020977, (-11)); (3773735910827, (-13)); (0, 0)];
  [(205972439101, (-10)); (39324626253, (-13)); (0, 0)];
  [(1081813534213, (-11)); (164603334374, (-10)); (0, 0)];
  [(3773735910827, (-13)); (1081813534213, (-11)); (0, 0)];
  [(2982630633589, (-11)); (564219809527, (-11)); (0, 0)];
  [(1937891852345, (-11)); (2982630633589, (-11)); (0, 0)];
  [(6923953605621, (-12)); (1937891852345, (-11)); (0, 0)];
  [(3066615496545, (-11)); (6923953605621, (-12)); (0, 0)];
  [(6147450479709, (-12)); (3066615496545, (-11)); (0, 0)];
  [(2636725487657, (-12)); (6147450479709, (-12)); (0, 0)];
  [(6816289982179, (-12)); (2636725487657, (-12)); (0, 0)];
  [(6418701221183, (-12)); (6816289982179, (-12)); (0, 0)];
  [(1235996607578, (-11)); (6418701221183, (-12)); (0, 0)];
  [(1652265972112, (-11)); (1235996607578, (-11)); (0, 0)];
  [(1045450126711, (-11)); (205972439101, (-10)); (0, 0)];
  [(3163918923335, (-13)); (2828699048865, (-11)); (0, 0)];
  [(2828699048865, (-11)); (6055599646783, (-12)); (0, 0)];
  [(2195415756911, (-11)); (6255674361143, (-12)); (0, 0)];
  [(1172006883645, (-11)); (6310477339748, (-12)); (0, 0)];
  [(6055599646783, (-12)); (1652265972112, (-11)); (0, 0)];
  [(5120601093667, (-12)); (1172006883645, (-11)); (0, 0)];
  [(1799603123222, (-11)); (2751146787858, (-11)); (0, 0)];
  [(6255674361143, (-12)); (6510552054109, (-12)); (0, 0)];
  [(6310477339748, (-12)); (5469525544182, (-12)); (0, 0)];
  [(5469525544182, (-12)); (1693792562116, (-10)); (0, 0)];
  [(1034429499989, (-11)); (263083906245, (-12)); (0, 0)];
  [(6510552054109, (-12)); (3946258593675, (-13)); (0, 0)];
  [(1693792562116, (-10)); (8390110365991, (-12)); (0, 0)];
  [(8390110365991, (-12)); (2243449970715, (-13)); (0, 0)];
  [(2243449970715, (-13)); (2986433403208, (-11)); (0, 0)];
  [(6129297044991, (-12)); (6129297044991, (-12)); (0, 0)];
  [(1044027435778, (-11)); (1171295538178, (-11)); (0, 0)];
  [(6436854655901, (-12)); (6436854655901, (-12)); (0, 0)];
  [(9380959548977, (-12)); (2019909489111, (-11)); (0, 0)];
  [(593415139993, (-11)); (593415139993, (-11)); (0, 0)];
  [(2470570524223, (-11)); (2470570524223, (-11)); (0, 0)];
  [(8671969964381, (-12)); (8671969964381, (-12)); (0, 0)];
  [(7096626156709, (-12)); (7096626156709, (-12)); (0, 0)];
  [(172718840079, (-10)); (172718840079, (-10)); (0, 0)];
  [(7075506709219, (-11)); (7075506709219, (-11)); (0, 0)];
  [(6632000300961, (-12)); (4377611041777, (-12)); (0, 0)];
  [(6206810014183, (-12)); (6632000300961, (-12)); (0, 0)];
  [(4873985990671, (-11)); (4873985990671, (-11)); (0, 0)];
  [(1590676413561, (-11)); (1590676413561, (-11)); (0, 0)];
  [(3097883698531, (-12)); (6612329252343, (-13)); (0, 0)];
  [(6612329252343, (-13)); (3459636466239, (-11)); (0, 0)];
  [(3459636466239, (-11)); (1980094587212, (-11)); (0, 0)];
  [(284491405673, (-13)); (284491405673, (-13)); (0, 0)];
  [(2019909489111, (-11)); (2666070658668, (-13)); (0, 0)];
  [(30355997308, (-9)); (14841705719, (-13)); (0, 0)];
  [(6281667977667, (-12)); (30355997308, (-9)); (0, 0)];
  [(6284483723224, (-12)); (6281667977667, (-12)); (0, 0)];
  [(1980482729015, (-11)); (6284483723224, (-12)); (0, 0)];
  [(2876692439167, (-11)); (2449240616245, (-11)); (0, 0)];
  [(2449240616245, (-11)); (2045286941806, (-11)); (0, 0)];
  [(2045286941806, (-11)); (2473415438279, (-11)); (0, 0)];
  [(2358125818164, (-11)); (1679593901136, (-10)); (0, 0)];
  [(2473415438279, (-11)); (3338575901272, (-10)); (0, 0)];
  [(1679593901136, (-10)); (1624205518357, (-10)); (0, 0)];
  [(3338575901272, (-10)); (3144167757552, (-11)); (0, 0)];
  [(1624205518357, (-10)); (5267006960365, (-11)); (0, 0)];
  [(8956999012, (-8)); (8956999012, (-8)); (0, 0)];
  [(5267006960365, (-11)); (3332657872986, (-11)); (0, 0)];
  [(3332657872986, (-11)); (3852657435933, (-11)); (0, 0)];
  [(3852657435933, (-11)); (2282781046519, (-10)); (0, 0)];
  [(2282781046519, (-10)); (2823723341956, (-11)); (0, 0)];
  [(8397383534231, (-11)); (2876692439167, (-11)); (0, 0)];
  [(8401985929482, (-11)); (8397383534231, (-11)); (0, 0)];
  [(782637094218, (-10)); (8401985929482, (-11)); (0, 0)];
  [(3115650189215, (-10)); (782637094218, (-10)); (0, 0)];
  [(178430047191, (-9)); (3115650189215, (-10)); (0, 0)];
  [(5886454391678, (-11)); (178430047191, (-9)); (0, 0)];
  [(7842370451713, (-11)); (5886454391678, (-11)); (0, 0)];
  [(1014262087719, (-10)); (7842370451713, (-11)); (0, 0)];
  [(5660027930059, (-11)); (1014262087719, (-10)); (0, 0)];
  [(4245678405627, (-11)); (5660027930059, (-11)); (0, 0)];
  [(2457074661053, (-10)); (4245678405627, (-11)); (0, 0)];
  [(1679936946371, (-10)); (2457074661053, (-10)); (0, 0)];
  [(6053048899753, (-11)); (1679936946371, (-10)); (0, 0)];
  [(9656299901946, (-11)); (6053048899753, (-11)); (0, 0)];
  [(2442876000072, (-10)); (9656299901946, (-11)); (0, 0)];
  [(1435713242844, (-10)); (2442876000072, (-10)); (0, 0)];
  [(8365903305582, (-11)); (8365903305582, (-11)); (0, 0)];
  [(8433466158131, (-11)); (3164282286739, (-10)); (0, 0)];
  [(3164282286739, (-10)); (4059982187939, (-10)); (0, 0)];
  [(4059982187939, (-10)); (1805255418145, (-10)); (0, 0)];
  [(1805255418145, (-10)); (8433466158131, (-11)); (0, 0)];
  [(2568537517081, (-10)); (2568537517081, (-10)); (0, 0)];
  [(2449975330562, (-10)); (2449975330562, (-10)); (0, 0)];
  [(1568131045107, (-10)); (1568131045107, (-10)); (0, 0)];
  [(394851933191, (-9)); (394851933191, (-9)); (0, 0)];
  [(1547176098872, (-10)); (1435713242844, (-10)); (0, 0)];
  [(2268582385539, (-10)); (2268582385539, (-10)); (0, 0)];
  [(1658638954901, (-10)); (1658638954901, (-10)); (0, 0)];
  [(2219950288015, (-10)); (2219950288015, (-10)); (0, 0)];
  [(305281943071, (-9)); (305281943071, (-9)); (0, 0)];
  [(2526661704812, (-10)); (2526661704812, (-10)); (0, 0)];
  [(4171445043968, (-10)); (4171445043968, (-10)); (0, 0)]
].
Definition E0 : list (list (list (Z * Z))) := [E0_0; E0_1; E0_2].

(** epv00_data.rs [E1] : [[[R;3];80];3] *)
Definition E1_0 : list (list (Z * Z)) := [
  [(1234046326004, (-18)); (9304690546528, (-19)); (2278290449966, (-18))];
  [(5150068824701, (-19)); (5150715570663, (-19)); (542945820983, (-19))];
  [(1290743923245, (-20)); (1290825411056, (-20)); (1903240492525, (-20))];
  [(1068615564952, (-20)); (4645466665386, (-21)); (2385409276743, (-22))];
  [(2079619142538, (-21)); (2079625310718, (-21)); (8676928342573, (-23))];
  [(2078009243969, (-21)); (2078189850907, (-21)); (7765442593544, (-23))];
  [(6206330058856, (-22)); (6207190138027, (-22)); (7066158332715, (-23))];
  [(5989335313746, (-22)); (5989826532569, (-22)); (7092175288657, (-23))];
  [(595849566384, (-21)); (5961360812618, (-22)); (5357582213535, (-23))];
  [(4866923261539, (-22)); (4874165471016, (-22)); (3828035865021, (-23))];
  [(4267785823142, (-22)); (428383403436, (-21)); (3824857220427, (-23))];
  [(4610675141648, (-22)); (4652389287529, (-22)); (3286995181628, (-23))];
  [(3626989993973, (-22)); (3751707476401, (-22)); (0, 0)];
  [(3563071194389, (-22)); (3559998806198, (-22)); (0, 0)];
  [(3557015642807, (-22)); (3558447558857, (-22)); (0, 0)];
  [(3210412089122, (-22)); (3211116927106, (-22)); (0, 0)];
  [(2875473577986, (-22)); (2875609914672, (-22)); (0, 0)];
  [(2842913681629, (-22)); (2843109704069, (-22)); (0, 0)];
  [(2751248215916, (-22)); (2744676468427, (-22)); (0, 0)];
  [(2481432881127, (-22)); (2481285237789, (-22)); (0, 0)];
  [(205988597656, (-21)); (2060338481033, (-22)); (0, 0)];
  [(2015522342591, (-22)); (2015822358331, (-22)); (0, 0)];
  [(1995364084253, (-22)); (2001195944195, (-22)); (0, 0)];
  [(1957436436943, (-22)); (1953667642377, (-22)); (0, 0)];
  [(1651609818948, (-22)); (1839744078713, (-22)); (0, 0)];
  [(1822980550699, (-22)); (1643334294845, (-22)); (0, 0)];
  [(167522315976, (-21)); (1768051018652, (-22)); (0, 0)];
  [(1706491764745, (-22)); (1674874205489, (-22)); (0, 0)];
  [(1392952362615, (-22)); (1421445397609, (-22)); (0, 0)];
  [(1209868266342, (-22)); (1255163958267, (-22)); (0, 0)];
  [(1009827202611, (-22)); (1013945281961, (-22)); (0, 0)];
  [(1047261388602, (-22)); (1047294335852, (-22)); (0, 0)];
  [(1047006652004, (-22)); (1047103879392, (-22)); (0, 0)];
  [(9609993143095, (-23)); (9530343962826, (-23)); (0, 0)];
  [(9590900593873, (-23)); (960463761169, (-22)); (0, 0)];
  [(9146249188071, (-23)); (9153518537177, (-23)); (0, 0)];
  [(854527448029, (-22)); (8562458214922, (-23)); (0, 0)];
  [(8224377881194, (-23)); (8232525360654, (-23)); (0, 0)];
  [(618352951041, (-22)); (6150223411438, (-23)); (0, 0)];
  [(6259255147141, (-23)); (6272087858, (-20)); (0, 0)];
  [(5539291694151, (-23)); (554047631104, (-22)); (0, 0)];
  [(7328259466314, (-23)); (7331901699361, (-23)); (0, 0)];
  [(601783584356, (-22)); (6018528702791, (-23)); (0, 0)];
  [(7079827775243, (-23)); (5150530724804, (-23)); (0, 0)];
  [(5170358878213, (-23)); (6471933741811, (-23)); (0, 0)];
  [(4872301838682, (-23)); (5317460644174, (-23)); (0, 0)];
  [(5249869411058, (-23)); (4832187748783, (-23)); (0, 0)];
  [(4716172354411, (-23)); (471676355511, (-22)); (0, 0)];
  [(4871214940964, (-23)); (4871509139861, (-23)); (0, 0)];
  [(4598076850751, (-23)); (4598417696768, (-23)); (0, 0)];
  [(4562196089485, (-23)); (5674189533175, (-23)); (0, 0)];
  [(4325493872224, (-23)); (4073560328195, (-23)); (0, 0)];
  [(5673781176748, (-23)); (5040994945359, (-23)); (0, 0)];
  [(3961436642503, (-23)); (5078185134679, (-23)); (0, 0)];
  [(5101868209058, (-23)); (3769343537061, (-23)); (0, 0)];
  [(5257043167676, (-23)); (4980331365299, (-23)); (0, 0)];
  [(5076613989393, (-23)); (3458236594757, (-23)); (0, 0)];
  [(3342169352778, (-23)); (3578859493602, (-23)); (0, 0)];
  [(3545881983591, (-23)); (3370504646419, (-23)); (0, 0)];
  [(3364063738599, (-23)); (3299873338428, (-23)); (0, 0)];
  [(3357039670776, (-23)); (4304917318409, (-23)); (0, 0)];
  [(4307412268687, (-23)); (3402418753455, (-23)); (0, 0)];
  [(3405769115435, (-23)); (2778460572146, (-23)); (0, 0)];
  [(300192619848, (-22)); (2782710128902, (-23)); (0, 0)];
  [(2778264787325, (-23)); (2711725179646, (-23)); (0, 0)];
  [(2676159480666, (-23)); (298176094634, (-22)); (0, 0)];
  [(2954273399939, (-23)); (2811672977772, (-23)); (0, 0)];
  [(3309362888795, (-23)); (2863454474467, (-23)); (0, 0)];
  [(2810283608438, (-23)); (3333464634051, (-23)); (0, 0)];
  [(3378045637764, (-23)); (3312991747609, (-23)); (0, 0)];
  [(255813497984, (-22)); (2813255564006, (-23)); (0, 0)];
  [(2273755578447, (-23)); (2665098083966, (-23)); (0, 0)];
  [(229417603769, (-22)); (2349795705216, (-23)); (0, 0)];
  [(2533506099435, (-23)); (2330352293961, (-23)); (0, 0)];
  [(2716685375812, (-23)); (2728001683419, (-23)); (0, 0)];
  [(2419043435198, (-23)); (2484061007669, (-23)); (0, 0)];
  [(2521232544812, (-23)); (2646328768427, (-23)); (0, 0)];
  [(2630195021491, (-23)); (2518630264831, (-23)); (0, 0)];
  [(2548395840944, (-23)); (2421901455384, (-23)); (0, 0)];
  [(0, 0); (6348533267831, (-24)); (0, 0)]
].
Definition E1_1 : list (list (Z * Z)) := [
  [(0, 0); (0, 0); (3413716033863, (-12))];
  [(6002664557501, (-12)); (4431807116294, (-12)); (0, 0)];
  [(5959437664199, (-12)); (4388610039678, (-12)); (3370592358297, (-12))];
  [(2015529654209, (-12)); (5827263376034, (-12)); (3327914718416, (-12))];
  [(1732960531432, (-12)); (1621698662282, (-13)); (1824006811264, (-12))];
  [(4915604476996, (-12)); (334471343514, (-11)); (3888564279247, (-12))];
  [(3616457953824, (-13)); (5074049319576, (-12)); (5194267231944, (-12))];
  [(3802607304474, (-12)); (223184221662, (-11)); (2333246960021, (-12))];
  [(2845866560031, (-12)); (1274975769045, (-12)); (2224031176619, (-12))];
  [(5213203771824, (-12)); (3642277426779, (-12)); (2156710933584, (-12))];
  [(4368189727818, (-13)); (5148765510106, (-12)); (1529755219915, (-12))];
  [(1837249181372, (-14)); (4715794792175, (-12)); (4879512900483, (-12))];
  [(2161590545326, (-12)); (6617207370325, (-13)); (0, 0)];
  [(1452631954746, (-12)); (6155548875404, (-12)); (0, 0)];
  [(4470593393054, (-12)); (2898827297664, (-12)); (0, 0)];
  [(5195926078314, (-12)); (3625813502509, (-12)); (0, 0)];
  [(5916256610193, (-12)); (4345435813134, (-12)); (0, 0)];
  [(1149902426047, (-12)); (5862263940038, (-12)); (0, 0)];
  [(5502088574662, (-12)); (3926419475089, (-12)); (0, 0)];
  [(2921989846637, (-12)); (1351976572828, (-12)); (0, 0)];
  [(3718070376585, (-12)); (2147556998591, (-12)); (0, 0)];
  [(597939525974, (-11)); (4408358972216, (-12)); (0, 0)];
  [(6772087985494, (-13)); (5385829822531, (-12)); (0, 0)];
  [(2899210654665, (-12)); (130493374612, (-11)); (0, 0)];
  [(6228206482192, (-12)); (6173567228835, (-12)); (0, 0)];
  [(1469348746179, (-12)); (4635942997523, (-12)); (0, 0)];
  [(3813910555688, (-12)); (5086283558874, (-12)); (0, 0)];
  [(3004380506684, (-13)); (2243332137241, (-12)); (0, 0)];
  [(1440393973406, (-12)); (6186899771515, (-12)); (0, 0)];
  [(4150425791727, (-12)); (5730238465658, (-12)); (0, 0)];
  [(3290040429843, (-12)); (1726055228402, (-12)); (0, 0)];
  [(4229590090227, (-12)); (2658801228129, (-12)); (0, 0)];
  [(2418967680575, (-12)); (8481047835035, (-13)); (0, 0)];
  [(4627943659201, (-12)); (3079267149859, (-12)); (0, 0)];
  [(1894393939924, (-12)); (3258679792918, (-13)); (0, 0)];
  [(2010647519562, (-12)); (4398599886584, (-13)); (0, 0)];
  [(5529846956226, (-14)); (4772686794145, (-12)); (0, 0)];
  [(1254304102174, (-12)); (5966220721679, (-12)); (0, 0)];
  [(3360862168815, (-12)); (1780985591923, (-12)); (0, 0)];
  [(4755628243179, (-12)); (3184305429012, (-12)); (0, 0)];
  [(5371746955142, (-12)); (3801260595433, (-12)); (0, 0)];
  [(4927699613906, (-13)); (5205948591865, (-12)); (0, 0)];
  [(5776682001734, (-14)); (4770139083623, (-12)); (0, 0)];
  [(4395059432251, (-12)); (3574796899585, (-12)); (0, 0)];
  [(5154062619954, (-12)); (2679787266521, (-12)); (0, 0)];
  [(6289611648973, (-13)); (9528763345494, (-13)); (0, 0)];
  [(5617272046949, (-12)); (5329322498232, (-12)); (0, 0)];
  [(3965901800877, (-12)); (2395235316466, (-12)); (0, 0)];
  [(4627507050093, (-12)); (3056663648823, (-12)); (0, 0)];
  [(6023631226459, (-12)); (4452762609019, (-12)); (0, 0)];
  [(4138562084068, (-12)); (9879680872193, (-13)); (0, 0)];
  [(1330845906564, (-12)); (5939127696986, (-12)); (0, 0)];
  [(2558752615657, (-12)); (454987582451, (-11)); (0, 0)];
  [(272807173463, (-11)); (7346659893982, (-13)); (0, 0)];
  [(4113444965144, (-12)); (1071317188367, (-12)); (0, 0)];
  [(619508983059, (-11)); (2500345341784, (-12)); (0, 0)];
  [(2305124132918, (-12)); (3825159450711, (-12)); (0, 0)];
  [(5415998155071, (-12)); (5299664791549, (-12)); (0, 0)];
  [(3727160564574, (-12)); (5002316301593, (-12)); (0, 0)];
  [(2901121049204, (-13)); (2526123275282, (-12)); (0, 0)];
  [(1652229354331, (-12)); (3368078557132, (-12)); (0, 0)];
  [(4938909587445, (-12)); (83854954258, (-11)); (0, 0)];
  [(2408890766511, (-12)); (366990520324, (-11)); (0, 0)];
  [(4862239006386, (-12)); (269166481217, (-12)); (0, 0)];
  [(5241168661353, (-12)); (4707487217718, (-12)); (0, 0)];
  [(3423593942199, (-12)); (3190260867816, (-13)); (0, 0)];
  [(1881721265406, (-12)); (3196532315372, (-12)); (0, 0)];
  [(1931525677349, (-12)); (226324032478, (-12)); (0, 0)];
  [(241465949505, (-11)); (3498451685065, (-12)); (0, 0)];
  [(423801916343, (-11)); (5839154477412, (-12)); (0, 0)];
  [(1828225235805, (-12)); (8268044346621, (-13)); (0, 0)];
  [(5858184283998, (-12)); (393402172536, (-11)); (0, 0)];
  [(4514589779057, (-12)); (5197620913779, (-12)); (0, 0)];
  [(2355717851551, (-12)); (2984999231807, (-12)); (0, 0)];
  [(22210036251, (-10)); (6521679638544, (-13)); (0, 0)];
  [(5955704951635, (-12)); (3468955561097, (-12)); (0, 0)];
  [(1395676848521, (-12)); (1013724533516, (-12)); (0, 0)];
  [(5727468918743, (-12)); (6108081057122, (-12)); (0, 0)];
  [(26283518594, (-14)); (165109777626, (-11)); (0, 0)];
  [(0, 0); (3220226560321, (-12)); (0, 0)]
].
Definition E1_2 : list (list (Z * Z)) := [
  [(0, 0); (0, 0); (6283075850446, (-12))];
  [(1256615170089, (-11)); (1256615170089, (-11)); (0, 0)];
  [(1884922755134, (-11)); (1884922755134, (-11)); (1256615170089, (-11))];
  [(6283075850446, (-12)); (6283075850446, (-12)); (1884922755134, (-11))];
  [(6279552690824, (-12)); (6279552690824, (-12)); (5223693906222, (-12))];
  [(6286599010068, (-12)); (6286599010068, (-12)); (5507553240374, (-12))];
  [(4705732307012, (-12)); (4705732307012, (-12)); (2352866153506, (-12))];
  [(6256777527156, (-12)); (6256777527156, (-12)); (8399684731857, (-11))];
  [(6309374173736, (-12)); (6309374173736, (-12)); (5296909721118, (-13))];
  [(775522610072, (-12)); (775522610072, (-12)); (6279552690824, (-12))];
  [(1059381944224, (-12)); (1059381944224, (-12)); (6286599010068, (-12))];
  [(786041939388, (-11)); (786041939388, (-11)); (1021328554739, (-11))];
  [(5753384878334, (-12)); (5753384878334, (-12)); (0, 0)];
  [(5884926831456, (-12)); (5884926831456, (-12)); (0, 0)];
  [(6812766822558, (-12)); (6812766822558, (-12)); (0, 0)];
  [(6681224869435, (-12)); (6681224869435, (-12)); (0, 0)];
  [(2513230340178, (-11)); (2513230340178, (-11)); (0, 0)];
  [(6127655567643, (-12)); (6127655567643, (-12)); (0, 0)];
  [(6438496133249, (-12)); (6438496133249, (-12)); (0, 0)];
  [(5486777812467, (-12)); (5486777812467, (-12)); (0, 0)];
  [(7079373888424, (-12)); (7079373888424, (-12)); (0, 0)];
  [(6290189305114, (-12)); (6290189305114, (-12)); (0, 0)];
  [(6275962395778, (-12)); (6275962395778, (-12)); (0, 0)];
  [(5507553240374, (-12)); (5507553240374, (-12)); (0, 0)];
  [(1150676975667, (-11)); (1179062909082, (-11)); (0, 0)];
  [(1179062909082, (-11)); (1150676975667, (-11)); (0, 0)];
  [(7058598460518, (-12)); (71134546679, (-13)); (0, 0)];
  [(71134546679, (-13)); (7058598460518, (-12)); (0, 0)];
  [(7962980379786, (-13)); (7962980379786, (-13)); (0, 0)];
  [(469400293411, (-11)); (469400293411, (-11)); (0, 0)];
  [(3738761453707, (-12)); (3738761453707, (-12)); (0, 0)];
  [(6282095334605, (-12)); (6282095334605, (-12)); (0, 0)];
  [(6284056366286, (-12)); (6284056366286, (-12)); (0, 0)];
  [(6069776770667, (-12)); (6069776770667, (-12)); (0, 0)];
  [(4136910472696, (-12)); (4136910472696, (-12)); (0, 0)];
  [(6496374930224, (-12)); (6496374930224, (-12)); (0, 0)];
  [(1194447056968, (-12)); (1194447056968, (-12)); (0, 0)];
  [(1589072916335, (-12)); (1589072916335, (-12)); (0, 0)];
  [(8827390247185, (-12)); (8827390247185, (-12)); (0, 0)];
  [(8429241228195, (-12)); (8429241228195, (-12)); (0, 0)];
  [(4933208510675, (-12)); (4933208510675, (-12)); (0, 0)];
  [(4535059491685, (-12)); (4535059491685, (-12)); (0, 0)];
  [(1255903824622, (-11)); (1255903824622, (-11)); (0, 0)];
  [(5088628793478, (-12)); (1176985366291, (-11)); (0, 0)];
  [(1176985366291, (-11)); (5088628793478, (-12)); (0, 0)];
  [(604034711426, (-11)); (3154687086868, (-12)); (0, 0)];
  [(3154687086868, (-12)); (604034711426, (-11)); (0, 0)];
  [(5331357529664, (-12)); (5331357529664, (-12)); (0, 0)];
  [(1256967486051, (-11)); (1256967486051, (-11)); (0, 0)];
  [(6525804586632, (-12)); (6525804586632, (-12)); (0, 0)];
  [(393020969694, (-11)); (5729506548653, (-12)); (0, 0)];
  [(7632943190217, (-12)); (7632943190217, (-12)); (0, 0)];
  [(5729506548653, (-12)); (8031092209206, (-12)); (0, 0)];
  [(7234794171227, (-12)); (7477522907414, (-12)); (0, 0)];
  [(6836645152238, (-12)); (7234794171227, (-12)); (0, 0)];
  [(8031092209206, (-12)); (6836645152238, (-12)); (0, 0)];
  [(7477522907414, (-12)); (1097707878456, (-11)); (0, 0)];
  [(1097707878456, (-11)); (4164311961999, (-12)); (0, 0)];
  [(4164311961999, (-12)); (1137170464392, (-11)); (0, 0)];
  [(1137170464392, (-11)); (393020969694, (-11)); (0, 0)];
  [(5223693906222, (-12)); (1592596075957, (-12)); (0, 0)];
  [(1592596075957, (-12)); (3128388763578, (-12)); (0, 0)];
  [(3128388763578, (-12)); (7342457794669, (-12)); (0, 0)];
  [(174801635876, (-11)); (174801635876, (-11)); (0, 0)];
  [(7342457794669, (-12)); (5296909721118, (-13)); (0, 0)];
  [(214616537775, (-11)); (5368044267797, (-13)); (0, 0)];
  [(5368044267797, (-13)); (7084896783808, (-12)); (0, 0)];
  [(8018209333619, (-13)); (5223693906222, (-12)); (0, 0)];
  [(5225775174439, (-13)); (8018209333619, (-13)); (0, 0)];
  [(1554202828031, (-13)); (1554202828031, (-13)); (0, 0)];
  [(523080736089, (-11)); (5225775174439, (-13)); (0, 0)];
  [(7084896783808, (-12)); (5216580451554, (-12)); (0, 0)];
  [(17260154635, (-9)); (214616537775, (-11)); (0, 0)];
  [(5216580451554, (-12)); (17260154635, (-9)); (0, 0)];
  [(8635942003952, (-12)); (8635942003952, (-12)); (0, 0)];
  [(4690479774488, (-12)); (523080736089, (-11)); (0, 0)];
  [(5481254917084, (-12)); (262983232899, (-13)); (0, 0)];
  [(262983232899, (-13)); (5481254917084, (-12)); (0, 0)];
  [(1349867339771, (-12)); (1349867339771, (-12)); (0, 0)];
  [(0, 0); (8433466158131, (-11)); (0, 0)]
].
Definition E1 : list (list (list (Z * Z))) := [E1_0; E1_1; E1_2].

(** epv00_data.rs [E2] : [[[R;3];5];3] *)
Definition E2_0 : list (list (Z * Z)) := [
  [((-4143818297913), (-23)); (5063375872532, (-23)); (9722666114891, (-23))];
  [(2171497694435, (-23)); (217381578598, (-22)); ((-3494819171909), (-24))];
  [(9845398442516, (-24)); (101023199992, (-22)); (6713034376076, (-25))];
  [(9256833552682, (-25)); (9259745317636, (-25)); (0, 0)];
  [(1022049384115, (-25)); (1022202095812, (-25)); (0, 0)]
].
Definition E2_1 : list (list (Z * Z)) := [
  [(0, 0); (0, 0); (5152219582658, (-12))];
  [(4398225628264, (-12)); (2827805833053, (-12)); (0, 0)];
  [(2079720838384, (-13)); (4634612377133, (-12)); (6440188750495, (-13))];
  [(4191264694361, (-12)); (2620612076189, (-12)); (0, 0)];
  [(5381133195658, (-12)); (3809562326066, (-12)); (0, 0)]
].
Definition E2_2 : list (list (Z * Z)) := [
  [(0, 0); (0, 0); (6283075850446, (-12))];
  [(1256615170089, (-11)); (1256615170089, (-11)); (0, 0)];
  [(6283075850446, (-12)); (6283075850446, (-12)); (1256615170089, (-11))];
  [(1884922755134, (-11)); (1884922755134, (-11)); (0, 0)];
  [(8399684731857, (-11)); (8399684731857, (-11)); (0, 0)]
].
Definition E2 : list (list (list (Z * Z))) := [E2_0; E2_1; E2_2].

(** epv00_data.rs [S0] : [[[R;3];213];3] *)
Definition S0_0 : list (list (Z * Z)) := [
  [(495675753641, (-14)); (4955392320126, (-15)); (1181255122986, (-16))];
  [(2718490072522, (-15)); (2722325167392, (-15)); (1127777651095, (-16))];
  [(1546493974344, (-15)); (1546579925346, (-15)); (4777754401806, (-17))];
  [(8366855276341, (-16)); (8363140252966, (-16)); (1129354285772, (-17))];
  [(2936777942117, (-16)); (3385792683603, (-16)); ((-1149543637123), (-17))];
  [(1201317439469, (-16)); (1201192221613, (-16)); (3298730512306, (-18))];
  [(757855088723, (-16)); (7587125720554, (-17)); (2733376706079, (-18))];
  [(1941787367773, (-17)); (196415536125, (-16)); (942638965727, (-18))];
  [(1889227765991, (-17)); (1891900364909, (-17)); (8187517749552, (-19))];
  [(1937896968613, (-17)); (1937373433356, (-17)); (4080447871819, (-19))];
  [(1434506110873, (-17)); (1437139941351, (-17)); (3169973017028, (-19))];
  [(140665991158, (-16)); (1406267683099, (-17)); (2438098615549, (-19))];
  [(1179022300202, (-17)); (1178703080346, (-17)); (2601897517235, (-19))];
  [(8085864460959, (-18)); (8079835186041, (-18)); (2314558080079, (-19))];
  [(7622752967615, (-18)); (7623253594652, (-18)); (1962549548002, (-19))];
  [(6209171139066, (-18)); (6248667483971, (-18)); (2180518287925, (-19))];
  [(436643563397, (-17)); (4366353695038, (-18)); (1451382442868, (-19))];
  [(3792124889348, (-18)); (3829101568895, (-18)); (1358439007389, (-19))];
  [(3154548963402, (-18)); (3175733773908, (-18)); (1050585898028, (-19))];
  [(3088359882942, (-18)); (3092437902159, (-18)); (1050029870186, (-19))];
  [(2788440902136, (-18)); (2874168812154, (-18)); (99349206798, (-18))];
  [(3039928456376, (-18)); (3040119321826, (-18)); (104839533156, (-18))];
  [(2272258457679, (-18)); (2699723308006, (-18)); (8370147196668, (-20))];
  [(2162007057957, (-18)); (2134832683534, (-18)); (7989856510998, (-20))];
  [(1767632855737, (-18)); (1770412139433, (-18)); (5441221655233, (-20))];
  [(1349413459362, (-18)); (1377264209373, (-18)); (4610812906784, (-20))];
  [(1170141900476, (-18)); (112781453896, (-17)); (3923022803444, (-20))];
  [(105435526682, (-17)); (105560809013, (-17)); (2610725582128, (-20))];
  [(980082246161, (-18)); (980267386142, (-18)); (2455279767721, (-20))];
  [(1091203749931, (-18)); (1090329461951, (-18)); (2375530706525, (-20))];
  [(6960236715913, (-19)); (695959002509, (-18)); (1782967577553, (-20))];
  [(5689257296909, (-19)); (5664914529542, (-19)); (1581687095238, (-20))];
  [(6613172135802, (-19)); (6607787763599, (-19)); (1594657672461, (-20))];
  [(6277702517571, (-19)); (6269725742838, (-19)); (156344861504, (-19))];
  [(6304884066699, (-19)); (6301889697863, (-19)); (1463624258525, (-20))];
  [(4897850467382, (-19)); (4891042662861, (-19)); (1331585056673, (-20))];
  [(3759148598786, (-19)); (345708312329, (-18)); (1130634557637, (-20))];
  [(3110520548195, (-19)); (3032559967314, (-19)); (1028949607145, (-20))];
  [(306470835978, (-18)); (2841133988903, (-19)); (1024074971618, (-20))];
  [(2856347168241, (-19)); (2855564444432, (-19)); (8826956060303, (-21))];
  [(2840945514288, (-19)); (2765157135038, (-19)); (8572230171541, (-21))];
  [(2378951599405, (-19)); (2382312465034, (-19)); (7649332643544, (-21))];
  [(2714229481417, (-19)); (2808060365077, (-19)); (8581673291033, (-21))];
  [(2323551717307, (-19)); (2332175234405, (-19)); (8430589300938, (-21))];
  [(1881790512219, (-19)); (2322488199659, (-19)); (7776165501012, (-21))];
  [(2261353968371, (-19)); (1881850258423, (-19)); (8311070234408, (-21))];
  [(2214546389848, (-19)); (2196111392808, (-19)); (6927365212582, (-21))];
  [(2184915594933, (-19)); (2183810335519, (-19)); (6791574208598, (-21))];
  [(2000164937936, (-19)); (2002733093326, (-19)); (5593100811839, (-21))];
  [(1966105136719, (-19)); (1967111767229, (-19)); (4553381853021, (-21))];
  [(1904742332624, (-19)); (1568473250543, (-19)); (5758000450068, (-21))];
  [(1657399705031, (-19)); (18525283143, (-17)); (4281283457133, (-21))];
  [(1574070533987, (-19)); (1832111226447, (-19)); (4206935661097, (-21))];
  [(1832261651039, (-19)); (174680550231, (-18)); (4213751641837, (-21))];
  [(1733615346569, (-19)); (155573096665, (-18)); (5310506239878, (-21))];
  [(1549124014496, (-19)); (1554883462559, (-19)); (382745034132, (-20))];
  [(1637044713838, (-19)); (1638380568746, (-19)); (4292435241187, (-21))];
  [(1123420082383, (-19)); (115993859364, (-18)); (3189780702289, (-21))];
  [(108375416574, (-18)); (1083427965695, (-19)); (3226611928069, (-21))];
  [(1156638012655, (-19)); (1156480369431, (-19)); (289389760883, (-20))];
  [(1142548785134, (-19)); (1141308860095, (-19)); (3239852024578, (-21))];
  [(7921463895965, (-20)); (7913146470946, (-20)); (29568922222, (-19))];
  [(7428600285231, (-20)); (7439752463733, (-20)); (2980177912437, (-21))];
  [(8323211246747, (-20)); (7280277104079, (-20)); (3163725690776, (-21))];
  [(7257595116312, (-20)); (8319567719136, (-20)); (2662262399118, (-21))];
  [(7111185833236, (-20)); (713770554929, (-19)); (2766689135729, (-21))];
  [(6868090383716, (-20)); (6900825396225, (-20)); (2411600278464, (-21))];
  [(7226419974175, (-20)); (7245757216635, (-20)); (2483527695131, (-21))];
  [(6955642383177, (-20)); (6961165696255, (-20)); (778877727659, (-21))];
  [(7492139296331, (-20)); (757180445689, (-19)); (0, 0)];
  [(6598363128857, (-20)); (6605425721904, (-20)); (0, 0)];
  [(7381147293385, (-20)); (7375477357248, (-20)); (0, 0)];
  [(6402909624032, (-20)); (704166495147, (-19)); (0, 0)];
  [(6237454263857, (-20)); (6322199535763, (-20)); (0, 0)];
  [(5241198544016, (-20)); (5244380279191, (-20)); (0, 0)];
  [(5144463853918, (-20)); (5143125704988, (-20)); (0, 0)];
  [(5868164772299, (-20)); (5871866319373, (-20)); (0, 0)];
  [(6233195669151, (-20)); (6300822573871, (-20)); (0, 0)];
  [(6068463791422, (-20)); (6062154271548, (-20)); (0, 0)];
  [(4359361135065, (-20)); (4361912339976, (-20)); (0, 0)];
  [(4686510366826, (-20)); (4417005920067, (-20)); (0, 0)];
  [(3758977287225, (-20)); (4686806749936, (-20)); (0, 0)];
  [(4282051974778, (-20)); (3758892132305, (-20)); (0, 0)];
  [(5153765386113, (-20)); (5151351332319, (-20)); (0, 0)];
  [(4575129387188, (-20)); (4554683578572, (-20)); (0, 0)];
  [(3326844933286, (-20)); (3442381385338, (-20)); (0, 0)];
  [(3748617450984, (-20)); (2831093954933, (-20)); (0, 0)];
  [(2816756661499, (-20)); (3756267090084, (-20)); (0, 0)];
  [(3412750405039, (-20)); (2816374679892, (-20)); (0, 0)];
  [(2655796761776, (-20)); (3419307025569, (-20)); (0, 0)];
  [(2963597929458, (-20)); (2904250494239, (-20)); (0, 0)];
  [(2539523734781, (-20)); (2471734511206, (-20)); (0, 0)];
  [(2283087914139, (-20)); (2539620831872, (-20)); (0, 0)];
  [(2321309799331, (-20)); (2281017868007, (-20)); (0, 0)];
  [(254965764975, (-19)); (2275319473335, (-20)); (0, 0)];
  [(2290462303977, (-20)); (2547755368442, (-20)); (0, 0)];
  [(1945398522914, (-20)); (2285979669317, (-20)); (0, 0)];
  [(1849171512638, (-20)); (1913386560994, (-20)); (0, 0)];
  [(1647199834254, (-20)); (1809020525147, (-20)); (0, 0)];
  [(1529530765273, (-20)); (1649213300201, (-20)); (0, 0)];
  [(1433199339978, (-20)); (1834972793932, (-20)); (0, 0)];
  [(1729134193602, (-20)); (1439550648138, (-20)); (0, 0)];
  [(1716463931346, (-20)); (1487645457041, (-20)); (0, 0)];
  [(1391206061378, (-20)); (173172951666, (-19)); (0, 0)];
  [(1404746661924, (-20)); (1717747163567, (-20)); (0, 0)];
  [(1410452399455, (-20)); (1418190430374, (-20)); (0, 0)];
  [(1089828772168, (-20)); (1404844134873, (-20)); (0, 0)];
  [(1047374564948, (-20)); (1409842846538, (-20)); (0, 0)];
  [(1358279126532, (-20)); (1090948346291, (-20)); (0, 0)];
  [(1020456476148, (-20)); (1357577323612, (-20)); (0, 0)];
  [(1033428735328, (-20)); (101815406196, (-19)); (0, 0)];
  [(141243584154, (-19)); (1412073972109, (-20)); (0, 0)];
  [(9722759371574, (-21)); (1030938326496, (-20)); (0, 0)];
  [(9657334084704, (-21)); (1180081567104, (-20)); (0, 0)];
  [(108364114869, (-19)); (970851057565, (-20)); (0, 0)];
  [(1067318403838, (-20)); (9637689663447, (-21)); (0, 0)];
  [(1062366201976, (-20)); (1068910429389, (-20)); (0, 0)];
  [(1236364149266, (-20)); (1063716179336, (-20)); (0, 0)];
  [(1092759489593, (-20)); (1234858713814, (-20)); (0, 0)];
  [(8912069362899, (-21)); (8912631189738, (-21)); (0, 0)];
  [(965646770797, (-20)); (1036378285534, (-20)); (0, 0)];
  [(8098386150135, (-21)); (9667798501561, (-21)); (0, 0)];
  [(7857714675, (-18)); (8108314201902, (-21)); (0, 0)];
  [(7288455940646, (-21)); (7648364324628, (-21)); (0, 0)];
  [(9450595950552, (-21)); (7286136828406, (-21)); (0, 0)];
  [(9381718247537, (-21)); (9448237743913, (-21)); (0, 0)];
  [(7079052646038, (-21)); (9374276106428, (-21)); (0, 0)];
  [(9259004415344, (-21)); (7100226287462, (-21)); (0, 0)];
  [(8259801499742, (-21)); (9253056659571, (-21)); (0, 0)];
  [(6476334355779, (-21)); (6636432145504, (-21)); (0, 0)];
  [(5984021492007, (-21)); (6469975312932, (-21)); (0, 0)];
  [(5989546863181, (-21)); (7335849729765, (-21)); (0, 0)];
  [(6233108606023, (-21)); (8743421205855, (-21)); (0, 0)];
  [(6877299149965, (-21)); (5993635744494, (-21)); (0, 0)];
  [(831123422719, (-20)); (5981008479693, (-21)); (0, 0)];
  [(6599472832414, (-21)); (6188535145838, (-21)); (0, 0)];
  [(6160491096549, (-21)); (6596074017566, (-21)); (0, 0)];
  [(6164772043891, (-21)); (6630815126226, (-21)); (0, 0)];
  [(636324868445, (-20)); (615677283004, (-20)); (0, 0)];
  [(6448587520999, (-21)); (6446960563014, (-21)); (0, 0)];
  [(6431662283977, (-21)); (6429324424668, (-21)); (0, 0)];
  [(6351223158474, (-21)); (6302232396465, (-21)); (0, 0)];
  [(5476721393451, (-21)); (6399244436159, (-21)); (0, 0)];
  [(5341772572619, (-21)); (5474965172558, (-21)); (0, 0)];
  [(5337055758302, (-21)); (5339293190692, (-21)); (0, 0)];
  [(5373120816787, (-21)); (5334733683389, (-21)); (0, 0)];
  [(5392351705426, (-21)); (539266578211, (-20)); (0, 0)];
  [(6688495850205, (-21)); (6682075673789, (-21)); (0, 0)];
  [(5072003660362, (-21)); (507913049596, (-20)); (0, 0)];
  [(5070726650455, (-21)); (5077759793261, (-21)); (0, 0)];
  [(5658012950032, (-21)); (483203736831, (-20)); (0, 0)];
  [(4835509924854, (-21)); (6463279674802, (-21)); (0, 0)];
  [(6479821978012, (-21)); (624059277156, (-20)); (0, 0)];
  [(623063649498, (-20)); (4672013521493, (-21)); (0, 0)];
  [(4649239516213, (-21)); (6500650750348, (-21)); (0, 0)];
  [(64873257927, (-19)); (6344161389053, (-21)); (0, 0)];
  [(468282368277, (-20)); (4682518370646, (-21)); (0, 0)];
  [(5704230804976, (-21)); (5329460015591, (-21)); (0, 0)];
  [(6125413585489, (-21)); (5701588675898, (-21)); (0, 0)];
  [(6035825038187, (-21)); (6030690867211, (-21)); (0, 0)];
  [(4331123462303, (-21)); (4336256312655, (-21)); (0, 0)];
  [(4681107685143, (-21)); (4688498808975, (-21)); (0, 0)];
  [(4669105829655, (-21)); (4675578609335, (-21)); (0, 0)];
  [(5138823602365, (-21)); (4225578112158, (-21)); (0, 0)];
  [(4615856664534, (-21)); (5139422230028, (-21)); (0, 0)];
  [(4496916702197, (-21)); (4619995093571, (-21)); (0, 0)];
  [(4278479042945, (-21)); (4494776255461, (-21)); (0, 0)];
  [(3840525503932, (-21)); (4274026276788, (-21)); (0, 0)];
  [(4866636509685, (-21)); (5018141789353, (-21)); (0, 0)];
  [(3526100639296, (-21)); (4866163952181, (-21)); (0, 0)];
  [(3939558488075, (-21)); (4111986020501, (-21)); (0, 0)];
  [(4041268772576, (-21)); (335614278495, (-20)); (0, 0)];
  [(3948761842853, (-21)); (4070575554551, (-21)); (0, 0)];
  [(3258394550029, (-21)); (3257451857278, (-21)); (0, 0)];
  [(3257897048761, (-21)); (3256973703026, (-21)); (0, 0)];
  [(3842559031298, (-21)); (383077150864, (-20)); (0, 0)];
  [(3109920095448, (-21)); (3725024005962, (-21)); (0, 0)];
  [(3132237775119, (-21)); (3136763921756, (-21)); (0, 0)];
  [(394218942151, (-20)); (3795147256194, (-21)); (0, 0)];
  [(379697228534, (-20)); (2877342229911, (-21)); (0, 0)];
  [(3995640233688, (-21)); (3076931798805, (-21)); (0, 0)];
  [(2875013727414, (-21)); (2734765945273, (-21)); (0, 0)];
  [(3073719932844, (-21)); (2733405296885, (-21)); (0, 0)];
  [(2731016580075, (-21)); (289855235341, (-20)); (0, 0)];
  [(2729549896546, (-21)); (2893736103681, (-21)); (0, 0)];
  [(3339372892449, (-21)); (3095717734137, (-21)); (0, 0)];
  [(2898833764204, (-21)); (2636190425832, (-21)); (0, 0)];
  [(2894536549362, (-21)); (3645512095537, (-21)); (0, 0)];
  [(3096872473843, (-21)); (2808173547723, (-21)); (0, 0)];
  [(263567232681, (-20)); (2625012866888, (-21)); (0, 0)];
  [(3649302697001, (-21)); (2572233995651, (-21)); (0, 0)];
  [(3127954585895, (-21)); (2604238824792, (-21)); (0, 0)];
  [(2616040173947, (-21)); (2596886385239, (-21)); (0, 0)];
  [(259739585986, (-20)); (3228057304264, (-21)); (0, 0)];
  [(259328617221, (-20)); (2481601798252, (-21)); (0, 0)];
  [(2481823585747, (-21)); (2745977498864, (-21)); (0, 0)];
  [(2742219550725, (-21)); (2669878833811, (-21)); (0, 0)];
  [(319955846961, (-20)); (3203986611711, (-21)); (0, 0)];
  [(2666088542957, (-21)); (3354961227212, (-21)); (0, 0)];
  [(239706743058, (-20)); (2400407324558, (-21)); (0, 0)];
  [(2376570772738, (-21)); (2379905859802, (-21)); (0, 0)];
  [(2547228007887, (-21)); (2550844302187, (-21)); (0, 0)];
  [(2265575594114, (-21)); (2268824211001, (-21)); (0, 0)];
  [(2464381430585, (-21)); (2464700891204, (-21)); (0, 0)];
  [(2433408527044, (-21)); (2436814726024, (-21)); (0, 0)];
  [(2443605509076, (-21)); (2443623894745, (-21)); (0, 0)];
  [(2319779262465, (-21)); (2318701783838, (-21)); (0, 0)];
  [(2284622835465, (-21)); (2284448700256, (-21)); (0, 0)];
  [(2467268750783, (-21)); (246884812351, (-20)); (0, 0)];
  [(2808513492782, (-21)); (2814052350303, (-21)); (0, 0)];
  [(2329528932532, (-21)); (224366275522, (-20)); (0, 0)];
  [(9698639532817, (-22)); (2330795855941, (-21)); (0, 0)];
  [(0, 0); (9757679038404, (-22)); (0, 0)]
].
Definition S0_1 : list (list (Z * Z)) := [
  [(3741073751789, (-12)); (2170467313679, (-12)); (4607918989164, (-13))];
  [(4016011511425, (-12)); (2444433682196, (-12)); (4169146331296, (-13))];
  [(2170528330642, (-12)); (5992779281546, (-13)); (458265700713, (-11))];
  [(2339614075294, (-12)); (7687356310801, (-13)); (575873514248, (-11))];
  [(0, 0); (0, 0); (0, 0)];
  [(4090736353305, (-12)); (2520035601514, (-12)); (5978801994625, (-12))];
  [(324151808814, (-11)); (1669954006449, (-12)); (766541369104, (-12))];
  [(101220206433, (-11)); (5707743963343, (-12)); (3710201265838, (-12))];
  [(389252041644, (-11)); (2320960679937, (-12)); (3390675605802, (-13))];
  [(4797779441161, (-12)); (3226940689555, (-12)); (4552296640088, (-13))];
  [(3868960697933, (-12)); (2301626908096, (-12)); (3445455899321, (-12))];
  [(4759766557397, (-13)); (5188579265542, (-12)); (5664675150648, (-12))];
  [(7774961520598, (-13)); (5489483248476, (-12)); (1931894095697, (-12))];
  [(3254654471465, (-12)); (1683751835264, (-12)); (3666319115574, (-13))];
  [(4227633103489, (-12)); (2656400462961, (-12)); (316741169902, (-11))];
  [(2791828325711, (-13)); (4992775362055, (-12)); (154442074658, (-11))];
  [(4440454875925, (-12)); (2869706279678, (-12)); (158375674007, (-11))];
  [(5156393842356, (-12)); (357213135995, (-11)); (523994175828, (-11))];
  [(6157005730093, (-12)); (4535372530045, (-12)); (2266958352859, (-12))];
  [(2494567553163, (-12)); (9230153317909, (-13)); (2711495250354, (-12))];
  [(4934318747989, (-12)); (3363143761101, (-12)); (1116208151396, (-12))];
  [(489507770264, (-11)); (3324250895675, (-12)); (3408619600206, (-12))];
  [(5278394064764, (-12)); (2917882441928, (-13)); (3810459401087, (-12))];
  [(5802978019099, (-12)); (4220997202487, (-12)); (3769910473647, (-12))];
  [(3415346595193, (-14)); (4747318496462, (-12)); (2416994903374, (-12))];
  [(2001643230755, (-12)); (4305058462401, (-13)); (5858503336994, (-12))];
  [(242475049162, (-11)); (853817724074, (-12)); (3354170010125, (-13))];
  [(3123311487576, (-12)); (155180074258, (-11)); (5410600646324, (-12))];
  [(302625808813, (-11)); (1459646735377, (-12)); (6120216681403, (-12))];
  [(3157811670347, (-12)); (1587351228711, (-12)); (6055443426143, (-12))];
  [(8219570542313, (-13)); (5534442628766, (-12)); (3146108708004, (-12))];
  [(1323052375236, (-12)); (6030673003297, (-12)); (6255496089819, (-13))];
  [(2765348881598, (-13)); (4989507233927, (-12)); (3782604300261, (-12))];
  [(5794064466382, (-12)); (4222951804572, (-12)); (1997775733196, (-12))];
  [(7323555380787, (-13)); (5444316669126, (-12)); (1736316792088, (-13))];
  [(3062464235399, (-12)); (1490552839784, (-12)); (4331941830747, (-12))];
  [(4588290469664, (-12)); (3030475486049, (-12)); (6152017751825, (-12))];
  [(1374299536572, (-12)); (2652038793632, (-12)); (2101792614637, (-13))];
  [(4222267485047, (-12)); (1276744786829, (-12)); (4071833211074, (-12))];
  [(3714202944973, (-12)); (2143368674733, (-12)); (4861633688145, (-13))];
  [(2847972875882, (-12)); (5444186109077, (-12)); (5268190724302, (-12))];
  [(3762072563388, (-12)); (2190521137593, (-12)); (5134543417106, (-12))];
  [(1036049980031, (-12)); (5735195064841, (-12)); (2920218146681, (-12))];
  [(4682388599076, (-13)); (9481985524859, (-14)); (3604576619108, (-12))];
  [(4790565425418, (-12)); (5180499361533, (-12)); (3772942249792, (-12))];
  [(1669144912212, (-12)); (3219788273885, (-12)); (6200412329888, (-12))];
  [(3937717281614, (-12)); (2366941159761, (-12)); (4543353113437, (-12))];
  [(1129169845099, (-13)); (4825445110915, (-12)); (2882188406238, (-12))];
  [(4030009638488, (-12)); (2457148995307, (-12)); (177664689278, (-11))];
  [(8745955786834, (-13)); (5586291545459, (-12)); (394961761124, (-11))];
  [(5919743598964, (-12)); (370800312332, (-11)); (3859251775075, (-12))];
  [(2549141484884, (-12)); (431063815156, (-11)); (1466294631206, (-12))];
  [(527753302023, (-11)); (1494665322656, (-12)); (5421776011706, (-12))];
  [(3064688127777, (-12)); (1451378500784, (-12)); (3412048993322, (-12))];
  [(3011432799094, (-12)); (1068040418198, (-12)); (5421641370995, (-13))];
  [(4005569132359, (-12)); (2442579035461, (-12)); (8887314524995, (-13))];
  [(1831375966632, (-12)); (2597913420625, (-13)); (1405043757194, (-12))];
  [(1180270407578, (-12)); (583451202128, (-11)); (1060049293445, (-12))];
  [(3414101320863, (-13)); (505403317795, (-11)); (6270858897442, (-12))];
  [(6130479452594, (-13)); (5325677432457, (-12)); (5117563223301, (-12))];
  [(3724761948846, (-12)); (2153403923857, (-12)); (4079092237983, (-12))];
  [(2435425589361, (-12)); (8642846847027, (-13)); (1594917021704, (-12))];
  [(3542144398753, (-12)); (1970628496213, (-12)); (5258787667564, (-12))];
  [(3525058072354, (-12)); (6073307250609, (-12)); (3854589225479, (-12))];
  [(1364299431982, (-12)); (1954371928334, (-12)); (3561326430187, (-12))];
  [(2460478875808, (-12)); (8904989440909, (-13)); (318073208683, (-12))];
  [(4397327670704, (-12)); (2825717714977, (-12)); (3324798335058, (-12))];
  [(4042647308905, (-12)); (2481677513331, (-12)); (4169069291947, (-13))];
  [(2865047906085, (-12)); (1292955312978, (-12)); (1900569908215, (-12))];
  [(5014278994215, (-12)); (3427517575069, (-12)); (0, 0)];
  [(2376730020492, (-12)); (8052192701492, (-13)); (0, 0)];
  [(3272990384244, (-12)); (1705076390088, (-12)); (0, 0)];
  [(5302290955138, (-12)); (4848356967891, (-13)); (0, 0)];
  [(5444144425332, (-12)); (3878069473909, (-12)); (0, 0)];
  [(4215359579205, (-12)); (2645560544125, (-12)); (0, 0)];
  [(1218916689916, (-13)); (483448610137, (-11)); (0, 0)];
  [(2369402002213, (-12)); (79814725489, (-11)); (0, 0)];
  [(1254922242403, (-12)); (5979398788281, (-12)); (0, 0)];
  [(5679713760431, (-12)); (4108655402756, (-12)); (0, 0)];
  [(6097219641646, (-13)); (532262431928, (-11)); (0, 0)];
  [(4786231041431, (-12)); (6240817359284, (-12)); (0, 0)];
  [(1167368068139, (-12)); (3214977301156, (-12)); (0, 0)];
  [(1519471064319, (-12)); (5879809634765, (-12)); (0, 0)];
  [(1860532322984, (-12)); (2893377688007, (-13)); (0, 0)];
  [(7632857887158, (-13)); (5475427144122, (-12)); (0, 0)];
  [(1298219485285, (-12)); (599203479664, (-11)); (0, 0)];
  [(1046510321062, (-12)); (5367350273914, (-12)); (0, 0)];
  [(343452234619, (-11)); (575817128542, (-11)); (0, 0)];
  [(2523766270318, (-12)); (1863718700923, (-12)); (0, 0)];
  [(2904422260194, (-12)); (952434753413, (-12)); (0, 0)];
  [(5923900431149, (-13)); (5304471615602, (-12)); (0, 0)];
  [(4851947722567, (-12)); (129706979353, (-11)); (0, 0)];
  [(3400498595496, (-12)); (3281126083375, (-12)); (0, 0)];
  [(5789099148673, (-12)); (1829122133165, (-12)); (0, 0)];
  [(3991856479792, (-14)); (5797198160181, (-12)); (0, 0)];
  [(2788567577052, (-12)); (475269770833, (-11)); (0, 0)];
  [(3290896998176, (-12)); (1223205292886, (-12)); (0, 0)];
  [(2698060129367, (-12)); (1757532993389, (-12)); (0, 0)];
  [(3016735644085, (-12)); (4246116108791, (-12)); (0, 0)];
  [(5573043116178, (-12)); (1445162890627, (-12)); (0, 0)];
  [(1481192356147, (-12)); (1126917567225, (-12)); (0, 0)];
  [(1422817538933, (-12)); (6160756834764, (-12)); (0, 0)];
  [(3469468901855, (-12)); (4358761931792, (-12)); (0, 0)];
  [(6122436220547, (-12)); (6134456753344, (-12)); (0, 0)];
  [(1647765641936, (-12)); (1898186084455, (-12)); (0, 0)];
  [(5989729161964, (-12)); (4180286741266, (-12)); (0, 0)];
  [(2833705509371, (-12)); (7654053565412, (-14)); (0, 0)];
  [(5090690007331, (-13)); (4418612420312, (-12)); (0, 0)];
  [(5128990262836, (-12)); (1260615686131, (-12)); (0, 0)];
  [(9632772880808, (-13)); (355824881869, (-11)); (0, 0)];
  [(3223779318418, (-12)); (5676087241256, (-12)); (0, 0)];
  [(2410271572721, (-12)); (8394392632422, (-13)); (0, 0)];
  [(233353139569, (-11)); (1653593274064, (-12)); (0, 0)];
  [(6199270974168, (-12)); (1285802592036, (-12)); (0, 0)];
  [(2864222292929, (-12)); (7631889488106, (-13)); (0, 0)];
  [(5833458866568, (-13)); (4630642649176, (-12)); (0, 0)];
  [(4307753989494, (-12)); (5294934032165, (-12)); (0, 0)];
  [(2873917870593, (-12)); (2736266800832, (-12)); (0, 0)];
  [(2959887266733, (-12)); (130289114657, (-11)); (0, 0)];
  [(5141213702562, (-12)); (3570415993621, (-12)); (0, 0)];
  [(4532182462323, (-12)); (4236693440949, (-12)); (0, 0)];
  [(2268906338379, (-12)); (2960768892398, (-12)); (0, 0)];
  [(4055544260745, (-12)); (6987781646841, (-13)); (0, 0)];
  [(5357901655142, (-12)); (2499017863863, (-12)); (0, 0)];
  [(4264926963939, (-12)); (3787426951665, (-12)); (0, 0)];
  [(7489366976576, (-14)); (2694354332983, (-12)); (0, 0)];
  [(1923311052874, (-12)); (4787121277064, (-12)); (0, 0)];
  [(2970256853438, (-12)); (3530238792101, (-13)); (0, 0)];
  [(3327056314697, (-12)); (1399478925664, (-12)); (0, 0)];
  [(2954925505727, (-12)); (3479575438447, (-12)); (0, 0)];
  [(9138753105829, (-13)); (13836699648, (-10)); (0, 0)];
  [(3244464082031, (-12)); (1243698166898, (-12)); (0, 0)];
  [(4995232638403, (-13)); (3776164289301, (-12)); (0, 0)];
  [(2834987233449, (-12)); (5627122113596, (-12)); (0, 0)];
  [(2202951835758, (-12)); (1674336636752, (-12)); (0, 0)];
  [(4478581462618, (-12)); (5214925208672, (-12)); (0, 0)];
  [(5145858696411, (-12)); (2907653268124, (-12)); (0, 0)];
  [(3762976697911, (-13)); (2127643669658, (-12)); (0, 0)];
  [(3162246718685, (-12)); (5082160803295, (-12)); (0, 0)];
  [(3442693302119, (-12)); (1872100916905, (-12)); (0, 0)];
  [(8977549136606, (-13)); (5610276103577, (-12)); (0, 0)];
  [(4306447410369, (-12)); (1592152049607, (-12)); (0, 0)];
  [(3888529177855, (-12)); (2746214421532, (-12)); (0, 0)];
  [(2655560662512, (-12)); (2317666374383, (-12)); (0, 0)];
  [(5164990735946, (-12)); (1084724961156, (-12)); (0, 0)];
  [(6041214553456, (-12)); (3594106067745, (-12)); (0, 0)];
  [(9177763485932, (-13)); (5630254365606, (-12)); (0, 0)];
  [(3089608126937, (-12)); (1518480041732, (-12)); (0, 0)];
  [(4311316541553, (-12)); (2739765115711, (-12)); (0, 0)];
  [(5790675464444, (-13)); (5290711290094, (-12)); (0, 0)];
  [(2703945510675, (-12)); (14044732172, (-10)); (0, 0)];
  [(2975422976065, (-12)); (603838169521, (-11)); (0, 0)];
  [(1324168733114, (-12)); (1290170653666, (-12)); (0, 0)];
  [(2860103632836, (-12)); (3261895939677, (-12)); (0, 0)];
  [(4832259763403, (-12)); (1154522312095, (-12)); (0, 0)];
  [(2726165825042, (-12)); (6206111545062, (-12)); (0, 0)];
  [(6966602455408, (-13)); (5409118796685, (-12)); (0, 0)];
  [(5669634104606, (-12)); (1202985784864, (-12)); (0, 0)];
  [(1513386538915, (-12)); (4098715257064, (-12)); (0, 0)];
  [(1983509168227, (-12)); (413203321846, (-12)); (0, 0)];
  [(2782892992807, (-12)); (1211415991827, (-12)); (0, 0)];
  [(5337232886836, (-12)); (3765479072409, (-12)); (0, 0)];
  [(583713379216, (-11)); (4265540037226, (-12)); (0, 0)];
  [(3080560200507, (-12)); (5237566010676, (-12)); (0, 0)];
  [(1661747897471, (-12)); (1507173079513, (-12)); (0, 0)];
  [(2112508027068, (-12)); (9023957449848, (-14)); (0, 0)];
  [(5716528462627, (-12)); (5414930552139, (-13)); (0, 0)];
  [(6424172726492, (-13)); (4145735303659, (-12)); (0, 0)];
  [(4919244697715, (-12)); (3344408829055, (-12)); (0, 0)];
  [(2550821052734, (-12)); (3348534657607, (-12)); (0, 0)];
  [(393933149171, (-11)); (419882359722, (-12)); (0, 0)];
  [(2275337571218, (-12)); (560914474718, (-11)); (0, 0)];
  [(199932420079, (-11)); (7028411059224, (-13)); (0, 0)];
  [(91210013782, (-11)); (5624697983086, (-12)); (0, 0)];
  [(3428428660869, (-12)); (1857842076707, (-12)); (0, 0)];
  [(6132927720035, (-12)); (4562887279931, (-12)); (0, 0)];
  [(7693650193003, (-13)); (2358058692652, (-13)); (0, 0)];
  [(3621293854908, (-12)); (2049731526845, (-12)); (0, 0)];
  [(4841863659733, (-12)); (2432356296933, (-13)); (0, 0)];
  [(1814174994268, (-12)); (5631101279387, (-12)); (0, 0)];
  [(1386990406091, (-12)); (1117615737392, (-12)); (0, 0)];
  [(9178318587177, (-13)); (5899826516955, (-12)); (0, 0)];
  [(2688923811835, (-12)); (213056296407, (-11)); (0, 0)];
  [(1188259127584, (-12)); (3462387048225, (-13)); (0, 0)];
  [(3702160634273, (-12)); (8534352781543, (-13)); (0, 0)];
  [(7199163960331, (-13)); (2875061429041, (-12)); (0, 0)];
  [(1916709364999, (-12)); (2242512846659, (-12)); (0, 0)];
  [(2424043195547, (-12)); (1354016903958, (-12)); (0, 0)];
  [(4445894977497, (-12)); (6705114365631, (-14)); (0, 0)];
  [(3814366984117, (-12)); (4775705748482, (-12)); (0, 0)];
  [(2924200596084, (-12)); (2638924216139, (-12)); (0, 0)];
  [(1842251648327, (-12)); (4826358927373, (-12)); (0, 0)];
  [(4155841921984, (-12)); (3200388483118, (-12)); (0, 0)];
  [(1158045978874, (-13)); (5384848409563, (-12)); (0, 0)];
  [(4771850408691, (-12)); (5173373487744, (-12)); (0, 0)];
  [(4608842558889, (-13)); (6250966149853, (-12)); (0, 0)];
  [(1538781127028, (-12)); (4906001352499, (-12)); (0, 0)];
  [(3226647822878, (-13)); (5034333010005, (-12)); (0, 0)];
  [(1967991731219, (-13)); (6108262423137, (-12)); (0, 0)];
  [(3707036669873, (-12)); (2135399294955, (-12)); (0, 0)];
  [(1182086628042, (-12)); (5893721933961, (-12)); (0, 0)];
  [(4906256820629, (-12)); (3331940762063, (-12)); (0, 0)];
  [(3414949866857, (-12)); (1843418461035, (-12)); (0, 0)];
  [(4599122275378, (-12)); (302954854723, (-11)); (0, 0)];
  [(2830751145445, (-13)); (4994717970364, (-12)); (0, 0)];
  [(4212046432538, (-12)); (2645102591375, (-12)); (0, 0)];
  [(988197840863, (-12)); (5700547397897, (-12)); (0, 0)];
  [(5565347331588, (-13)); (5268898905872, (-12)); (0, 0)];
  [(5655708150766, (-13)); (5276280575078, (-12)); (0, 0)];
  [(1418405053408, (-12)); (6130168623475, (-12)); (0, 0)];
  [(4069557545675, (-12)); (6631692457995, (-13)); (0, 0)];
  [(1074134313634, (-12)); (2499435487702, (-12)); (0, 0)];
  [(0, 0); (5796846023126, (-12)); (0, 0)]
].
Definition S0_2 : list (list (Z * Z)) := [
  [(5296909721118, (-13)); (5296909721118, (-13)); (2132990797783, (-13))];
  [(2132990797783, (-13)); (2132990797783, (-13)); (5296909721118, (-13))];
  [(381329181312, (-13)); (381329181312, (-13)); (381329181312, (-13))];
  [(747816656905, (-13)); (747816656905, (-13)); (747816656905, (-13))];
  [(0, 0); (0, 0); (0, 0)];
  [(1059381944224, (-12)); (1059381944224, (-12)); (4265981595566, (-13))];
  [(4265981595566, (-13)); (4265981595566, (-13)); (1059381944224, (-12))];
  [(2061856251104, (-13)); (2061856251104, (-13)); (2061856251104, (-13))];
  [(2204125344462, (-13)); (2204125344462, (-13)); (2204125344462, (-13))];
  [(149563331381, (-12)); (149563331381, (-12)); (5225775174439, (-13))];
  [(5225775174439, (-13)); (5225775174439, (-13)); (5368044267797, (-13))];
  [(5368044267797, (-13)); (5368044267797, (-13)); (366487475593, (-13))];
  [(762658362624, (-13)); (762658362624, (-13)); (149563331381, (-12))];
  [(366487475593, (-13)); (366487475593, (-13)); (396170887031, (-13))];
  [(396170887031, (-13)); (396170887031, (-13)); (762658362624, (-13))];
  [(732974951186, (-13)); (732974951186, (-13)); (71134546679, (-13))];
  [(1589072916335, (-12)); (1589072916335, (-12)); (1102062672231, (-13))];
  [(71134546679, (-13)); (71134546679, (-13)); (6398972393349, (-13))];
  [(4194847048887, (-13)); (4194847048887, (-13)); (3163918923335, (-13))];
  [(6398972393349, (-13)); (6398972393349, (-13)); (4194847048887, (-13))];
  [(1102062672231, (-13)); (1102062672231, (-13)); (1589072916335, (-12))];
  [(6283075850446, (-12)); (6283075850446, (-12)); (1021328554739, (-11))];
  [(1030928125552, (-13)); (1030928125552, (-13)); (25350505, (-9))];
  [(3163918923335, (-13)); (3163918923335, (-13)); (732974951186, (-13))];
  [(1021328554739, (-11)); (1021328554739, (-11)); (1030928125552, (-13))];
  [(14841705719, (-13)); (14841705719, (-13)); (4337116142245, (-13))];
  [(632783784667, (-12)); (632783784667, (-12)); (14841705719, (-13))];
  [(4337116142245, (-13)); (4337116142245, (-13)); (632783784667, (-12))];
  [(1052268489556, (-12)); (1052268489556, (-12)); (1162474756779, (-12))];
  [(1162474756779, (-12)); (1162474756779, (-12)); (1052268489556, (-12))];
  [(1066495398892, (-12)); (1066495398892, (-12)); (8460828644453, (-13))];
  [(9491756770005, (-13)); (9491756770005, (-13)); (3340612434717, (-12))];
  [(8460828644453, (-13)); (8460828644453, (-13)); (1066495398892, (-12))];
  [(1480791608091, (-13)); (1480791608091, (-13)); (2022531624851, (-13))];
  [(2243449970715, (-13)); (2243449970715, (-13)); (351645769874, (-13))];
  [(3340612434717, (-12)); (3340612434717, (-12)); (9491756770005, (-13))];
  [(351645769874, (-13)); (351645769874, (-13)); (29683411438, (-13))];
  [(637357483973, (-13)); (110459172932, (-13)); (2275259891141, (-13))];
  [(110459172932, (-13)); (41101259275, (-12)); (5070101, (-8))];
  [(1510475019529, (-13)); (1510475019529, (-13)); (209366617153, (-12))];
  [(41101259275, (-12)); (637357483973, (-13)); (41101259275, (-12))];
  [(2275259891141, (-13)); (2275259891141, (-13)); (260879031406, (-10))];
  [(25350505, (-9)); (25350505, (-9)); (1480791608091, (-13))];
  [(858275829837, (-13)); (718133245467, (-13)); (2172315424036, (-13))];
  [(2118763888447, (-12)); (858275829837, (-13)); (637357483973, (-13))];
  [(718133245467, (-13)); (2118763888447, (-12)); (3235053470014, (-13))];
  [(29683411438, (-13)); (29683411438, (-13)); (8531963191132, (-13))];
  [(777500068343, (-13)); (777500068343, (-13)); (718133245467, (-13))];
  [(209366617153, (-12)); (209366617153, (-12)); (7429900518901, (-13))];
  [(2172315424036, (-13)); (2172315424036, (-13)); (777500068343, (-13))];
  [(2022531624851, (-13)); (7429900518901, (-13)); (1990721704425, (-13))];
  [(7358765972222, (-13)); (2022531624851, (-13)); (2118763888447, (-12))];
  [(7429900518901, (-13)); (3235053470014, (-13)); (110459172932, (-13))];
  [(3235053470014, (-13)); (1385174140878, (-13)); (2243449970715, (-13))];
  [(1385174140878, (-13)); (7358765972222, (-13)); (515464062776, (-12))];
  [(515464062776, (-12)); (515464062776, (-12)); (1510475019529, (-13))];
  [(8531963191132, (-13)); (8531963191132, (-13)); (142269093358, (-13))];
  [(1990721704425, (-13)); (1990721704425, (-13)); (117319721891, (-12))];
  [(5439178814476, (-13)); (5439178814476, (-13)); (2164800718209, (-13))];
  [(5257585094865, (-13)); (5257585094865, (-13)); (6470106940028, (-13))];
  [(5336234347371, (-13)); (5336234347371, (-13)); (2101180877357, (-13))];
  [(1478866649112, (-12)); (1478866649112, (-12)); (3092784376656, (-13))];
  [(2164800718209, (-13)); (2164800718209, (-13)); (4155522422634, (-13))];
  [(1692165728891, (-12)); (2101180877357, (-13)); (858275829837, (-13))];
  [(2101180877357, (-13)); (1692165728891, (-12)); (5257585094865, (-13))];
  [(4155522422634, (-13)); (4155522422634, (-13)); (1385174140878, (-13))];
  [(117319721891, (-12)); (117319721891, (-12)); (5439178814476, (-13))];
  [(1265567569334, (-12)); (1265567569334, (-12)); (5336234347371, (-13))];
  [(9562891316684, (-13)); (9562891316684, (-13)); (521758062812, (-10))];
  [(142269093358, (-13)); (142269093358, (-13)); (0, 0)];
  [(6470106940028, (-13)); (6470106940028, (-13)); (0, 0)];
  [(1581959461667, (-12)); (1581959461667, (-12)); (0, 0)];
  [(959793578873, (-13)); (959793578873, (-13)); (0, 0)];
  [(708492030652, (-13)); (708492030652, (-13)); (0, 0)];
  [(5265099800692, (-13)); (5265099800692, (-13)); (0, 0)];
  [(5328719641544, (-13)); (5328719641544, (-13)); (0, 0)];
  [(787141283158, (-13)); (787141283158, (-13)); (0, 0)];
  [(260879031406, (-10)); (260879031406, (-10)); (0, 0)];
  [(1114304132498, (-13)); (1114304132498, (-13)); (0, 0)];
  [(1375773836557, (-12)); (1375773836557, (-12)); (0, 0)];
  [(1143987543936, (-13)); (2770348281756, (-13)); (0, 0)];
  [(1596186371003, (-12)); (1143987543936, (-13)); (0, 0)];
  [(2770348281756, (-13)); (1596186371003, (-12)); (0, 0)];
  [(2228608264996, (-13)); (2228608264996, (-13)); (0, 0)];
  [(1465949902372, (-13)); (1465949902372, (-13)); (0, 0)];
  [(5070101, (-8)); (5070101, (-8)); (0, 0)];
  [(4903339079539, (-13)); (3092784376656, (-13)); (0, 0)];
  [(299126662762, (-12)); (4903339079539, (-13)); (0, 0)];
  [(3518164938661, (-13)); (299126662762, (-12)); (0, 0)];
  [(6256703299991, (-13)); (3518164938661, (-13)); (0, 0)];
  [(1099462426779, (-13)); (1099462426779, (-13)); (0, 0)];
  [(1256615170089, (-11)); (6256703299991, (-13)); (0, 0)];
  [(6681224869435, (-12)); (1256615170089, (-11)); (0, 0)];
  [(336804064155, (-13)); (6681224869435, (-12)); (0, 0)];
  [(1169588211447, (-12)); (39324626253, (-13)); (0, 0)];
  [(1045155034888, (-12)); (1169588211447, (-12)); (0, 0)];
  [(1155361302111, (-12)); (1045155034888, (-12)); (0, 0)];
  [(44525117157, (-13)); (1155361302111, (-12)); (0, 0)];
  [(4408250688924, (-13)); (336804064155, (-13)); (0, 0)];
  [(652199189692, (-13)); (4408250688924, (-13)); (0, 0)];
  [(9420622223326, (-13)); (44525117157, (-13)); (0, 0)];
  [(2108507877249, (-13)); (9420622223326, (-13)); (0, 0)];
  [(2157473718317, (-13)); (4123712502208, (-13)); (0, 0)];
  [(4123712502208, (-13)); (2108507877249, (-13)); (0, 0)];
  [(425854298469, (-13)); (2157473718317, (-13)); (0, 0)];
  [(2258291676434, (-13)); (652199189692, (-13)); (0, 0)];
  [(4226656969313, (-13)); (425854298469, (-13)); (0, 0)];
  [(3092784376656, (-13)); (2258291676434, (-13)); (0, 0)];
  [(792341774062, (-13)); (4226656969313, (-13)); (0, 0)];
  [(1456308687557, (-13)); (792341774062, (-13)); (0, 0)];
  [(1795258541446, (-12)); (1456308687557, (-13)); (0, 0)];
  [(1525316725248, (-13)); (1525316725248, (-13)); (0, 0)];
  [(843434124118, (-13)); (1795258541446, (-12)); (0, 0)];
  [(1272681024002, (-12)); (703291539748, (-13)); (0, 0)];
  [(703291539748, (-13)); (843434124118, (-13)); (0, 0)];
  [(2123349582968, (-13)); (1272681024002, (-12)); (0, 0)];
  [(2142632012598, (-13)); (2123349582968, (-13)); (0, 0)];
  [(1847279083684, (-13)); (2142632012598, (-13)); (0, 0)];
  [(1370332435159, (-13)); (1847279083684, (-13)); (0, 0)];
  [(2648454860559, (-12)); (2648454860559, (-12)); (0, 0)];
  [(4376440768498, (-13)); (1370332435159, (-13)); (0, 0)];
  [(2880807454688, (-13)); (4376440768498, (-13)); (0, 0)];
  [(203737333057, (-12)); (2880807454688, (-13)); (0, 0)];
  [(1129145838217, (-13)); (203737333057, (-12)); (0, 0)];
  [(5272426800584, (-13)); (1129145838217, (-13)); (0, 0)];
  [(5321392641652, (-13)); (5272426800584, (-13)); (0, 0)];
  [(6288513220417, (-13)); (5321392641652, (-13)); (0, 0)];
  [(1606092486742, (-13)); (6288513220417, (-13)); (0, 0)];
  [(8389694097774, (-13)); (1606092486742, (-13)); (0, 0)];
  [(2008557621224, (-12)); (1368660381889, (-12)); (0, 0)];
  [(2042657109477, (-11)); (2008557621224, (-12)); (0, 0)];
  [(2111650433779, (-12)); (95617467213, (-13)); (0, 0)];
  [(4305306221819, (-13)); (3801276407308, (-13)); (0, 0)];
  [(95617467213, (-13)); (2042657109477, (-11)); (0, 0)];
  [(3801276407308, (-13)); (2111650433779, (-12)); (0, 0)];
  [(1063314406849, (-12)); (4305306221819, (-13)); (0, 0)];
  [(1368660381889, (-12)); (1063314406849, (-12)); (0, 0)];
  [(423417167514, (-12)); (8389694097774, (-13)); (0, 0)];
  [(125300878651, (-13)); (423417167514, (-12)); (0, 0)];
  [(5287268506303, (-13)); (5287268506303, (-13)); (0, 0)];
  [(5306550935933, (-13)); (5306550935933, (-13)); (0, 0)];
  [(521758062812, (-10)); (125300878651, (-13)); (0, 0)];
  [(2221856701002, (-12)); (521758062812, (-10)); (0, 0)];
  [(746675969365, (-13)); (2221856701002, (-12)); (0, 0)];
  [(748957344445, (-13)); (746675969365, (-13)); (0, 0)];
  [(1274714967946, (-13)); (748957344445, (-13)); (0, 0)];
  [(1055449481598, (-12)); (1055449481598, (-12)); (0, 0)];
  [(2213766559277, (-13)); (2213766559277, (-13)); (0, 0)];
  [(2132517061319, (-13)); (2132517061319, (-13)); (0, 0)];
  [(2133464534247, (-13)); (2133464534247, (-13)); (0, 0)];
  [(7287631425543, (-13)); (716006736479, (-13)); (0, 0)];
  [(716006736479, (-13)); (220918345864, (-13)); (0, 0)];
  [(220918345864, (-13)); (3306188016693, (-13)); (0, 0)];
  [(3306188016693, (-13)); (779626577331, (-13)); (0, 0)];
  [(779626577331, (-13)); (3884652414254, (-13)); (0, 0)];
  [(3884652414254, (-13)); (76051515, (-9)); (0, 0)];
  [(1073608853559, (-12)); (1073608853559, (-12)); (0, 0)];
  [(873117535556, (-13)); (7287631425543, (-13)); (0, 0)];
  [(76051515, (-9)); (873117535556, (-13)); (0, 0)];
  [(9846002785331, (-13)); (9846002785331, (-13)); (0, 0)];
  [(4297791515992, (-13)); (4297791515992, (-13)); (0, 0)];
  [(2127790306879, (-13)); (2127790306879, (-13)); (0, 0)];
  [(2138191288687, (-13)); (2138191288687, (-13)); (0, 0)];
  [(723333736371, (-13)); (3407705765729, (-13)); (0, 0)];
  [(8603097737811, (-13)); (723333736371, (-13)); (0, 0)];
  [(73817544209, (-12)); (8603097737811, (-13)); (0, 0)];
  [(75745787172, (-12)); (73817544209, (-12)); (0, 0)];
  [(3407705765729, (-13)); (75745787172, (-12)); (0, 0)];
  [(772299577439, (-13)); (31809920426, (-13)); (0, 0)];
  [(622515778254, (-13)); (772299577439, (-13)); (0, 0)];
  [(526898311041, (-13)); (1451108196653, (-13)); (0, 0)];
  [(3503323232942, (-13)); (1274714967946, (-13)); (0, 0)];
  [(1451108196653, (-13)); (3503323232942, (-13)); (0, 0)];
  [(5296435984654, (-13)); (5296435984654, (-13)); (0, 0)];
  [(5297383457582, (-13)); (5297383457582, (-13)); (0, 0)];
  [(9098186128426, (-13)); (9098186128426, (-13)); (0, 0)];
  [(39324626253, (-13)); (108462072106, (-12)); (0, 0)];
  [(234639443782, (-12)); (234639443782, (-12)); (0, 0)];
  [(31809920426, (-13)); (1862120789403, (-13)); (0, 0)];
  [(1862120789403, (-13)); (1905464808669, (-12)); (0, 0)];
  [(4549093064213, (-13)); (3628624111593, (-13)); (0, 0)];
  [(1905464808669, (-12)); (2131850110243, (-13)); (0, 0)];
  [(3628624111593, (-13)); (2134131485323, (-13)); (0, 0)];
  [(2131850110243, (-13)); (5291709230214, (-13)); (0, 0)];
  [(2134131485323, (-13)); (5302110212022, (-13)); (0, 0)];
  [(2007689919132, (-13)); (2976424921901, (-13)); (0, 0)];
  [(5291709230214, (-13)); (148598010378, (-11)); (0, 0)];
  [(5302110212022, (-13)); (6044726378023, (-13)); (0, 0)];
  [(2976424921901, (-13)); (622515778254, (-13)); (0, 0)];
  [(148598010378, (-11)); (526898311041, (-13)); (0, 0)];
  [(6044726378023, (-13)); (1258454114666, (-12)); (0, 0)];
  [(108462072106, (-12)); (2103781122809, (-13)); (0, 0)];
  [(1258454114666, (-12)); (2162200472757, (-13)); (0, 0)];
  [(2103781122809, (-13)); (2007689919132, (-13)); (0, 0)];
  [(2162200472757, (-13)); (1062562936266, (-12)); (0, 0)];
  [(1062562936266, (-12)); (5651155736444, (-13)); (0, 0)];
  [(5651155736444, (-13)); (1400015846597, (-13)); (0, 0)];
  [(7036329877322, (-13)); (7036329877322, (-13)); (0, 0)];
  [(1400015846597, (-13)); (4549093064213, (-13)); (0, 0)];
  [(2125476091956, (-13)); (2125476091956, (-13)); (0, 0)];
  [(214050550361, (-12)); (214050550361, (-12)); (0, 0)];
  [(1534957940063, (-13)); (1534957940063, (-13)); (0, 0)];
  [(2235935264888, (-13)); (2235935264888, (-13)); (0, 0)];
  [(2091065926078, (-13)); (2091065926078, (-13)); (0, 0)];
  [(2174915669488, (-13)); (2174915669488, (-13)); (0, 0)];
  [(1739420156204, (-13)); (1739420156204, (-13)); (0, 0)];
  [(753017147809, (-13)); (753017147809, (-13)); (0, 0)];
  [(742616166001, (-13)); (742616166001, (-13)); (0, 0)];
  [(2526561439362, (-13)); (2526561439362, (-13)); (0, 0)];
  [(5636314030725, (-13)); (5636314030725, (-13)); (0, 0)];
  [(1056200952181, (-12)); (888659032194, (-13)); (0, 0)];
  [(782637094218, (-10)); (1056200952181, (-12)); (0, 0)];
  [(0, 0); (782637094218, (-10)); (0, 0)]
].
Definition S0 : list (list (list (Z * Z))) := [S0_0; S0_1; S0_2].

(** epv00_data.rs [S1] : [[[R;3];50];3] *)
Definition S1_0 : list (list (Z * Z)) := [
  [((-129631036152), (-19)); (8989047573576, (-21)); (5444220475678, (-21))];
  [(8975769009438, (-21)); (7815938401048, (-21)); (3883412695596, (-21))];
  [(7771113441307, (-21)); (755092671328, (-20)); (1334341434551, (-21))];
  [(7538303866642, (-21)); (6056556925895, (-21)); (3730001266883, (-22))];
  [(6061384579336, (-21)); (5734142698204, (-21)); (2894929197956, (-22))];
  [(5726994235594, (-21)); (5614341822459, (-21)); (2857950357701, (-22))];
  [(5616492836424, (-21)); (1028678147656, (-21)); (2499226432292, (-22))];
  [(1010881584769, (-21)); (7270792075266, (-22)); (1937705443593, (-22))];
  [(7259606157626, (-22)); (873414172604, (-21)); (137489439632, (-21))];
  [(8755095026935, (-22)); (5377371402113, (-22)); (1217248678408, (-22))];
  [(5370491182812, (-22)); (4729719431571, (-22)); (796105274087, (-22))];
  [(5743773887665, (-22)); (4458052820973, (-22)); (4979225949689, (-23))];
  [(44081031403, (-20)); (4406855467908, (-22)); (4388552286597, (-23))];
  [(3101892374445, (-22)); (3101659310977, (-22)); (258683521256, (-22))];
  [(3209453713578, (-22)); (3016749232545, (-22)); (0, 0)];
  [(3017228286064, (-22)); (3198541352656, (-22)); (0, 0)];
  [(3200700038601, (-22)); (2142065389871, (-22)); (0, 0)];
  [(2137637279911, (-22)); (1902615247592, (-22)); (0, 0)];
  [(1899686386727, (-22)); (1613410990871, (-22)); (0, 0)];
  [(1401994545308, (-22)); (1576992165097, (-22)); (0, 0)];
  [(1578057810499, (-22)); (1241637259894, (-22)); (0, 0)];
  [(1237713253351, (-22)); (1313974830355, (-22)); (0, 0)];
  [(1313076837395, (-22)); (1181697118258, (-22)); (0, 0)];
  [(118496330486, (-21)); (1238239742779, (-22)); (0, 0)];
  [(1238130878565, (-22)); (1010107068241, (-22)); (0, 0)];
  [(1015959527736, (-22)); (9226316616509, (-23)); (0, 0)];
  [(9017954423714, (-23)); (8664946419555, (-23)); (0, 0)];
  [(8668024955603, (-23)); (7757230468978, (-23)); (0, 0)];
  [(7756083930103, (-23)); (7693168628139, (-23)); (0, 0)];
  [(7536503401741, (-23)); (5487897454612, (-23)); (0, 0)];
  [(5483308679332, (-23)); (5196118677218, (-23)); (0, 0)];
  [(5184339620428, (-23)); (5110853339935, (-23)); (0, 0)];
  [(510865871203, (-22)); (5027804534813, (-23)); (0, 0)];
  [(501942452465, (-22)); (4922485922674, (-23)); (0, 0)];
  [(4909312625978, (-23)); (61555995244, (-21)); (0, 0)];
  [(4456638901107, (-23)); (4447147832161, (-23)); (0, 0)];
  [(4227030350925, (-23)); (4144691276422, (-23)); (0, 0)];
  [(4095456040093, (-23)); (4099950625452, (-23)); (0, 0)];
  [(4990537041422, (-23)); (5060541682953, (-23)); (0, 0)];
  [(4321170010845, (-23)); (42936159463, (-21)); (0, 0)];
  [(3544072091802, (-23)); (3545659845763, (-23)); (0, 0)];
  [(3480198638687, (-23)); (3479112041196, (-23)); (0, 0)];
  [(3440287244435, (-23)); (343851649357, (-22)); (0, 0)];
  [(3330628322713, (-23)); (3297341285033, (-23)); (0, 0)];
  [(2973060707184, (-23)); (2972585818015, (-23)); (0, 0)];
  [(2932606766089, (-23)); (2931707295017, (-23)); (0, 0)];
  [(2876972310953, (-23)); (2897198149403, (-23)); (0, 0)];
  [(2827488278556, (-23)); (2832293240878, (-23)); (0, 0)];
  [(2515028239756, (-23)); (2864348326612, (-23)); (0, 0)];
  [(2853033744415, (-23)); (2852714675471, (-23)); (0, 0)]
].
Definition S1_1 : list (list (Z * Z)) := [
  [(0, 0); (5840593672122, (-12)); (180382550931, (-11))];
  [(112889160925, (-11)); (1129664707133, (-12)); (4668616389392, (-12))];
  [(2706039877077, (-12)); (6196589104845, (-13)); (0, 0)];
  [(2191281289498, (-12)); (1677494667846, (-12)); (5401405918943, (-12))];
  [(3248167319958, (-12)); (4000920852962, (-12)); (4932415609852, (-12))];
  [(556998139861, (-11)); (3486722577328, (-12)); (3154625362131, (-12))];
  [(5057386614909, (-12)); (1877141024787, (-12)); (3657486128988, (-12))];
  [(3473577116095, (-12)); (5077167301739, (-12)); (5740434679002, (-12))];
  [(3651858593665, (-13)); (9069550282609, (-14)); (1712857366891, (-12))];
  [(1662835408338, (-12)); (6039381844671, (-12)); (2312090870932, (-12))];
  [(1327673878077, (-12)); (215308631176, (-11)); (5283368554163, (-12))];
  [(4250200846687, (-12)); (5059830025565, (-12)); (429829047186, (-11))];
  [(3598752574277, (-12)); (202797169263, (-11)); (6145515047406, (-12))];
  [(4887822983319, (-12)); (331767798186, (-11)); (3019448001809, (-12))];
  [(9702272295114, (-13)); (3913703482532, (-12)); (0, 0)];
  [(5484462275949, (-12)); (1275513098525, (-12)); (0, 0)];
  [(2846613338643, (-12)); (5301351614597, (-12)); (0, 0)];
  [(5692163292729, (-13)); (4894943352736, (-13)); (0, 0)];
  [(2061077157189, (-12)); (2449891130437, (-12)); (0, 0)];
  [(4177771136967, (-12)); (4211421447633, (-12)); (0, 0)];
  [(5782460597335, (-12)); (4140803368133, (-12)); (0, 0)];
  [(5705900866881, (-12)); (3591920305503, (-12)); (0, 0)];
  [(5163438179576, (-12)); (1506314382788, (-12)); (0, 0)];
  [(3054804427242, (-12)); (7461405378404, (-13)); (0, 0)];
  [(2317292575962, (-12)); (6271010795475, (-13)); (0, 0)];
  [(2194643645526, (-12)); (1259158839583, (-12)); (0, 0)];
  [(2868603545435, (-12)); (3353244696934, (-12)); (0, 0)];
  [(4923849675082, (-12)); (1447677295196, (-12)); (0, 0)];
  [(30143341352, (-10)); (1120509896721, (-12)); (0, 0)];
  [(2704886279769, (-12)); (4439380426795, (-12)); (0, 0)];
  [(6010983673799, (-12)); (3788856619137, (-13)); (0, 0)];
  [(1952704573291, (-12)); (1386879372016, (-12)); (0, 0)];
  [(2958575786649, (-12)); (1647881805466, (-13)); (0, 0)];
  [(1736317621318, (-12)); (1594315079862, (-12)); (0, 0)];
  [(3167216416257, (-12)); (0, 0); (0, 0)];
  [(7697579923471, (-13)); (5480720918976, (-12)); (0, 0)];
  [(3490910137928, (-12)); (193137103366, (-11)); (0, 0)];
  [(5178888984491, (-13)); (5229611294335, (-12)); (0, 0)];
  [(3323887668974, (-12)); (1731112486298, (-12)); (0, 0)];
  [(4288484987118, (-12)); (2714571038925, (-12)); (0, 0)];
  [(6021051579251, (-12)); (4451041444634, (-12)); (0, 0)];
  [(4600027054714, (-12)); (3029385448081, (-12)); (0, 0)];
  [(4349525970742, (-12)); (2778507143731, (-12)); (0, 0)];
  [(2347391505082, (-12)); (7898709807584, (-13)); (0, 0)];
  [(47894092864, (-10)); (3218785316973, (-12)); (0, 0)];
  [(5831693799927, (-12)); (4260731012098, (-12)); (0, 0)];
  [(2692638514771, (-12)); (1120753978101, (-12)); (0, 0)];
  [(205605248796, (-11)); (4597682717827, (-13)); (0, 0)];
  [(7411863262449, (-13)); (2169939928448, (-12)); (0, 0)];
  [(3948481024894, (-12)); (2377659870578, (-12)); (0, 0)]
].
Definition S1_2 : list (list (Z * Z)) := [
  [(0, 0); (4265981595566, (-13)); (2132990797783, (-13))];
  [(4265981595566, (-13)); (2061856251104, (-13)); (5296909721118, (-13))];
  [(2061856251104, (-13)); (2204125344462, (-13)); (0, 0)];
  [(2204125344462, (-13)); (1059381944224, (-12)); (2061856251104, (-13))];
  [(1059381944224, (-12)); (5225775174439, (-13)); (2204125344462, (-13))];
  [(5225775174439, (-13)); (5368044267797, (-13)); (747816656905, (-13))];
  [(5368044267797, (-13)); (71134546679, (-13)); (4265981595566, (-13))];
  [(71134546679, (-13)); (6398972393349, (-13)); (1059381944224, (-12))];
  [(6398972393349, (-13)); (4194847048887, (-13)); (5368044267797, (-13))];
  [(4194847048887, (-13)); (4337116142245, (-13)); (5225775174439, (-13))];
  [(4337116142245, (-13)); (2132990797783, (-13)); (381329181312, (-13))];
  [(2132990797783, (-13)); (5296909721118, (-13)); (4194847048887, (-13))];
  [(1589072916335, (-12)); (1589072916335, (-12)); (71134546679, (-13))];
  [(1052268489556, (-12)); (1052268489556, (-12)); (6398972393349, (-13))];
  [(5296909721118, (-13)); (1066495398892, (-12)); (0, 0)];
  [(1066495398892, (-12)); (149563331381, (-12)); (0, 0)];
  [(149563331381, (-12)); (3163918923335, (-13)); (0, 0)];
  [(3163918923335, (-13)); (2275259891141, (-13)); (0, 0)];
  [(2275259891141, (-13)); (1102062672231, (-13)); (0, 0)];
  [(1102062672231, (-13)); (762658362624, (-13)); (0, 0)];
  [(762658362624, (-13)); (515464062776, (-12)); (0, 0)];
  [(515464062776, (-12)); (366487475593, (-13)); (0, 0)];
  [(366487475593, (-13)); (632783784667, (-12)); (0, 0)];
  [(632783784667, (-12)); (396170887031, (-13)); (0, 0)];
  [(396170887031, (-13)); (732974951186, (-13)); (0, 0)];
  [(732974951186, (-13)); (1990721704425, (-13)); (0, 0)];
  [(1990721704425, (-13)); (5439178814476, (-13)); (0, 0)];
  [(5439178814476, (-13)); (9491756770005, (-13)); (0, 0)];
  [(9491756770005, (-13)); (1030928125552, (-13)); (0, 0)];
  [(1030928125552, (-13)); (8531963191132, (-13)); (0, 0)];
  [(8531963191132, (-13)); (209366617153, (-12)); (0, 0)];
  [(209366617153, (-12)); (2172315424036, (-13)); (0, 0)];
  [(2172315424036, (-13)); (2164800718209, (-13)); (0, 0)];
  [(2164800718209, (-13)); (2101180877357, (-13)); (0, 0)];
  [(2101180877357, (-13)); (0, 0); (0, 0)];
  [(3235053470014, (-13)); (3235053470014, (-13)); (0, 0)];
  [(637357483973, (-13)); (637357483973, (-13)); (0, 0)];
  [(6470106940028, (-13)); (6470106940028, (-13)); (0, 0)];
  [(142269093358, (-13)); (142269093358, (-13)); (0, 0)];
  [(7358765972222, (-13)); (7358765972222, (-13)); (0, 0)];
  [(5265099800692, (-13)); (5265099800692, (-13)); (0, 0)];
  [(5328719641544, (-13)); (5328719641544, (-13)); (0, 0)];
  [(858275829837, (-13)); (858275829837, (-13)); (0, 0)];
  [(110459172932, (-13)); (110459172932, (-13)); (0, 0)];
  [(5257585094865, (-13)); (5257585094865, (-13)); (0, 0)];
  [(5336234347371, (-13)); (5336234347371, (-13)); (0, 0)];
  [(117319721891, (-12)); (117319721891, (-12)); (0, 0)];
  [(2022531624851, (-13)); (2022531624851, (-13)); (0, 0)];
  [(959793578873, (-13)); (959793578873, (-13)); (0, 0)];
  [(2118763888447, (-12)); (2118763888447, (-12)); (0, 0)]
].
Definition S1 : list (list (list (Z * Z))) := [S1_0; S1_1; S1_2].

(** epv00_data.rs [S2] : [[[R;3];9];3] *)
Definition S2_0 : list (list (Z * Z)) := [
  [(1603551636587, (-24)); (1609114495091, (-24)); (3749920358054, (-25))];
  [(1556935889384, (-24)); (1560330784946, (-24)); (2735037220939, (-25))];
  [(1182594414915, (-24)); (1183535479202, (-24)); (0, 0)];
  [(115879458318, (-23)); (1158183066182, (-24)); (0, 0)];
  [(9597358943932, (-25)); (1032868027407, (-24)); (0, 0)];
  [(6511516579605, (-25)); (6540142847741, (-25)); (0, 0)];
  [(7419792747688, (-25)); (7305236491596, (-25)); (0, 0)];
  [(3951972655848, (-25)); ((-5580725052968), (-25)); (0, 0)];
  [(4478223877045, (-25)); (3946122651015, (-25)); (0, 0)]
].
Definition S2_1 : list (list (Z * Z)) := [
  [(4404109410481, (-12)); (2831096993481, (-12)); (3230285558668, (-12))];
  [(4818040873603, (-13)); (5193058213906, (-12)); (6154322683046, (-12))];
  [(9935762734472, (-13)); (570700344389, (-11)); (0, 0)];
  [(335318096645, (-11)); (1782400404928, (-12)); (0, 0)];
  [(5567045358298, (-12)); (4036925452011, (-12)); (0, 0)];
  [(5630872420788, (-12)); (4058241056717, (-12)); (0, 0)];
  [(2156188581957, (-12)); (6175401942957, (-13)); (0, 0)];
  [(1981022541805, (-12)); (0, 0); (0, 0)];
  [(0, 0); (4108265279171, (-13)); (0, 0)]
].
Definition S2_2 : list (list (Z * Z)) := [
  [(2061856251104, (-13)); (2061856251104, (-13)); (2132990797783, (-13))];
  [(2204125344462, (-13)); (2204125344462, (-13)); (5296909721118, (-13))];
  [(5225775174439, (-13)); (5225775174439, (-13)); (0, 0)];
  [(5368044267797, (-13)); (5368044267797, (-13)); (0, 0)];
  [(2132990797783, (-13)); (2132990797783, (-13)); (0, 0)];
  [(4265981595566, (-13)); (4265981595566, (-13)); (0, 0)];
  [(5296909721118, (-13)); (5296909721118, (-13)); (0, 0)];
  [(1059381944224, (-12)); (0, 0); (0, 0)];
  [(0, 0); (1059381944224, (-12)); (0, 0)]
].
Definition S2 : list (list (list (Z * Z))) := [S2_0; S2_1; S2_2].

