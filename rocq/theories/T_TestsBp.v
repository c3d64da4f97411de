(** * Reference matrices of bias and precession of crates/tofas/src/test_data.rs

    Generated by tools/gen_tables.py from crates/tofas/src/test_data.rs:6008-16009; every literal is the exact
    decimal (mantissa, exponent of ten) of the source. *)

From Coq Require Import ZArith List.
Import ListNotations.
Open Scope Z_scope.

(** test_data.rs:6008-16009 [BP00_DATA] *)
Definition BP00_DATA : list (list (Z * Z)) := [
  [(24515455917314379, (-10)); (90500335091097428, (-17)); (99999999999999423, (-17)); ((-7078279744199198), (-23)); (80562171469761338, (-24)); (70782794778573375, (-24)); (99999999999999689, (-17)); (33060414542221364, (-24)); ((-80562173809869717), (-24)); ((-33060408839805517), (-24)); (99999999999999623, (-17)); (99999999999950084, (-17)); ((-91629219153301175), (-23)); ((-39817020717024651), (-23)); (91629219153500831, (-23)); (99999999999958, (-14)); (48318592141454831, (-28)); (39817020716565194, (-23)); ((-51967319336654327), (-28)); (99999999999992073, (-17)); (99999999999946232, (-17)); ((-98707497581129578), (-23)); ((-31760806599352361), (-23)); (98707498631315755, (-23)); (99999999999951206, (-17)); (33065320219910275, (-24)); (31760803335541853, (-23)); ((-33065633755337685), (-24)); (99999999999994904, (-17))];
  [(24515454747865885, (-10)); (30733526892954488, (-17)); (99999999999999423, (-17)); ((-7078279744199198), (-23)); (80562171469761338, (-24)); (70782794778573375, (-24)); (99999999999999689, (-17)); (33060414542221364, (-24)); ((-80562173809869717), (-24)); ((-33060408839805517), (-24)); (99999999999999623, (-17)); (99999999999986378, (-17)); ((-47881037565184217), (-23)); ((-2080646655660073), (-22)); (47881037565238744, (-23)); (99999999999988542, (-17)); (2570505261282558, (-27)); (20806466556475269, (-23)); ((-26700863742235015), (-28)); (99999999999997835, (-17)); (99999999999984091, (-17)); ((-54959316621512009), (-23)); ((-12750250992592564), (-23)); (54959317043074283, (-23)); (99999999999984845, (-17)); (3306302362148244, (-23)); (12750249175469453, (-23)); ((-33063093653578103), (-24)); (99999999999999134, (-17))];
  [(24515453046241966, (-10)); (62506808139074999, (-17)); (99999999999999423, (-17)); ((-7078279744199198), (-23)); (80562171469761338, (-24)); (70782794778573375, (-24)); (99999999999999689, (-17)); (33060414542221364, (-24)); ((-80562173809869717), (-24)); ((-33060408839805517), (-24)); (99999999999999623, (-17)); (99999999999980749, (-17)); ((-56915211512096364), (-23)); ((-24732221828085402), (-23)); (56915211512173413, (-23)); (99999999999983813, (-17)); (30443315542514142, (-28)); (24732221827908133, (-23)); ((-31850078130446491), (-28)); (99999999999996947, (-17)); (99999999999978129, (-17)); ((-63993490438636655), (-23)); ((-16676006562751209), (-23)); (63993490990004758, (-23)); (99999999999979472, (-17)); (3306350472590055, (-23)); (16676004446898718, (-23)); ((-33063611353776025), (-24)); (99999999999998557, (-17))];
  [(2451545960678773, (-9)); (20038906355988473, (-17)); (99999999999999423, (-17)); ((-7078279744199198), (-23)); (80562171469761338, (-24)); (70782794778573375, (-24)); (99999999999999689, (-17)); (33060414542221364, (-24)); ((-80562173809869717), (-24)); ((-33060408839805517), (-24)); (99999999999999623, (-17)); (99999999999969968, (-17)); ((-71079886526297286), (-23)); ((-30887410740223425), (-23)); (71079886526417438, (-23)); (99999999999974731, (-17)); (37800900734569898, (-28)); (30887410739946937, (-23)); ((-39995784462121264), (-28)); (99999999999995237, (-17)); (99999999999966849, (-17)); ((-78158165249343714), (-23)); ((-22831195943180109), (-23)); (78158166004242124, (-23)); (99999999999969391, (-17)); (33064251895786537, (-24)); (22831193358931858, (-23)); ((-3306443028122353), (-23)); (99999999999997347, (-17))];
  [(24515452892739577, (-10)); (67680389172987876, (-17)); (99999999999999423, (-17)); ((-7078279744199198), (-23)); (80562171469761338, (-24)); (70782794778573375, (-24)); (99999999999999689, (-17)); (33060414542221364, (-24)); ((-80562173809869717), (-24)); ((-33060408839805517), (-24)); (99999999999999623, (-17)); (99999999999979206, (-17)); ((-59142714698745086), (-23)); ((-25700172235716477), (-23)); (59142714698828275, (-23)); (99999999999982514, (-17)); (3160542096498606, (-27)); (25700172235525058, (-23)); ((-33126279497253108), (-28)); (99999999999996703, (-17)); (99999999999976508, (-17)); ((-66220993593284429), (-23)); ((-17643957044024589), (-23)); (66220994176658572, (-23)); (99999999999978018, (-17)); (33063622730967307, (-24)); (17643954854514756, (-23)); ((-33063739659055005), (-24)); (9999999999999839, (-16))];
  [(2451545394266746, (-9)); (73075478945698524, (-17)); (99999999999999423, (-17)); ((-7078279744199198), (-23)); (80562171469761338, (-24)); (70782794778573375, (-24)); (99999999999999689, (-17)); (33060414542221364, (-24)); ((-80562173809869717), (-24)); ((-33060408839805517), (-24)); (99999999999999623, (-17)); (99999999999971811, (-17)); ((-68873153263285823), (-23)); ((-29928485804673654), (-23)); (68873153263398627, (-23)); (99999999999976275, (-17)); (36659839520945033, (-28)); (2992848580441407, (-22)); ((-38721248429851585), (-28)); (99999999999995515, (-17)); (99999999999968769, (-17)); ((-75951432018034841), (-23)); ((-21872270934674678), (-23)); (7595143274122435, (-22)); (9999999999997109, (-16)); (33064136011873444, (-24)); (21872268423399877, (-23)); ((-33064302148866505), (-24)); (99999999999997546, (-17))];
  [(2451545452245858, (-9)); (13258793229653509, (-17)); (99999999999999423, (-17)); ((-7078279744199198), (-23)); (80562171469761338, (-24)); (70782794778573375, (-24)); (99999999999999689, (-17)); (33060414542221364, (-24)); ((-80562173809869717), (-24)); ((-33060408839805517), (-24)); (99999999999999623, (-17)); (99999999999992384, (-17)); ((-35803178716819815), (-23)); ((-15558093152269957), (-23)); (35803178716850297, (-23)); (99999999999993605, (-17)); (19314714211536651, (-28)); (15558093152199807, (-23)); ((-19871881917765677), (-28)); (9999999999999879, (-16)); (9999999999999053, (-16)); ((-42881457946661444), (-23)); ((-75018771889623095), (-24)); (42881458194691415, (-23)); (99999999999990763, (-17)); (33062374857458634, (-24)); (75018757711987768, (-24)); ((-33062407040450458), (-24)); (99999999999999667, (-17))];
  [(24515452465104563, (-10)); (72824883938480345, (-17)); (99999999999999423, (-17)); ((-7078279744199198), (-23)); (80562171469761338, (-24)); (70782794778573375, (-24)); (99999999999999689, (-17)); (33060414542221364, (-24)); ((-80562173809869717), (-24)); ((-33060408839805517), (-24)); (99999999999999623, (-17)); (99999999999978828, (-17)); ((-59674187709051501), (-23)); ((-25931121183276755), (-23)); (59674187709136184, (-23)); (99999999999982192, (-17)); (31882484393097567, (-28)); (25931121183081879, (-23)); ((-33430480606000401), (-28)); (99999999999996636, (-17)); (99999999999976119, (-17)); ((-66752466595955542), (-23)); ((-17874906009155615), (-23)); (66752467186966227, (-23)); (99999999999977662, (-17)); (33063650865476208, (-24)); (17874903802071365, (-23)); ((-33063770242637985), (-24)); (99999999999998346, (-17))];
  [(24515459385923762, (-10)); (73416027981421694, (-17)); (99999999999999423, (-17)); ((-7078279744199198), (-23)); (80562171469761338, (-24)); (70782794778573375, (-24)); (99999999999999689, (-17)); (33060414542221364, (-24)); ((-80562173809869717), (-24)); ((-33060408839805517), (-24)); (99999999999999623, (-17)); (99999999999937672, (-17)); ((-10240492909674608), (-22)); ((-44499551681388824), (-23)); (10240492909699547, (-22)); (99999999999947575, (-17)); (53762429071396618, (-28)); (44499551680814938, (-23)); ((-5831946037204716), (-27)); (99999999999990097, (-17)); (99999999999933431, (-17)); ((-10948320736976719), (-22)); ((-36443337919966951), (-23)); (1094832085748052, (-21)); (99999999999940015, (-17)); (33065873284745745, (-24)); (36443334299787225, (-23)); ((-33066272283866973), (-24)); (99999999999993305, (-17))];
  [(24515451551297056, (-10)); (48052035390128722, (-17)); (99999999999999423, (-17)); ((-7078279744199198), (-23)); (80562171469761338, (-24)); (70782794778573375, (-24)); (99999999999999689, (-17)); (33060414542221364, (-24)); ((-80562173809869717), (-24)); ((-33060408839805517), (-24)); (99999999999999623, (-17)); (99999999999990996, (-17)); ((-38914120671601022), (-23)); ((-16909937486323092), (-23)); (38914120671637032, (-23)); (99999999999992428, (-17)); (20966402060900239, (-28)); (16909937486240223, (-23)); ((-21624924073648799), (-28)); (99999999999998568, (-17)); (99999999999989031, (-17)); ((-45992399856750011), (-23)); ((-88537216258645808), (-24)); (4599240014947672, (-22)); (99999999999989364, (-17)); (33062542532485571, (-24)); (88537201052379613, (-24)); ((-33062583301539202), (-24)); (99999999999999556, (-17))];
  [(24515453246426713, (-10)); (16823249335739965, (-17)); (99999999999999423, (-17)); ((-7078279744199198), (-23)); (80562171469761338, (-24)); (70782794778573375, (-24)); (99999999999999689, (-17)); (33060414542221364, (-24)); ((-80562173809869717), (-24)); ((-33060408839805517), (-24)); (99999999999999623, (-17)); (99999999999994593, (-17)); ((-30173526021710398), (-23)); ((-13111755604179401), (-23)); (3017352602173205, (-22)); (99999999999995448, (-17)); (16313967204059213, (-28)); (13111755604129579, (-23)); ((-16709966743633231), (-28)); (99999999999999134, (-17)); (99999999999992939, (-17)); ((-37251805332429115), (-23)); ((-50555394547529302), (-24)); (37251805499575747, (-23)); (99999999999993006, (-17)); (3306207024738804, (-23)); (50555382231307745, (-24)); ((-33062089117347005), (-24)); (99999999999999811, (-17))];
  [(24515451321523516, (-10)); (3441254181550083, (-16)); (99999999999999423, (-17)); ((-7078279744199198), (-23)); (80562171469761338, (-24)); (70782794778573375, (-24)); (99999999999999689, (-17)); (33060414542221364, (-24)); ((-80562173809869717), (-24)); ((-33060408839805517), (-24)); (99999999999999623, (-17)); (99999999999994948, (-17)); ((-29157443318538676), (-23)); ((-12670221924010575), (-23)); (29157443318558894, (-23)); (99999999999995748, (-17)); (15771008207559343, (-28)); (12670221923964052, (-23)); ((-16140977443512838), (-28)); (99999999999999201, (-17)); (99999999999993328, (-17)); ((-36235722643854709), (-23)); ((-46140057409919633), (-24)); (36235722796403056, (-23)); (99999999999993372, (-17)); (330620151329102, (-22)); (46140045429656463, (-24)); ((-33062031905887121), (-24)); (99999999999999845, (-17))];
  [(24515456349583589, (-10)); (70050174083959271, (-17)); (99999999999999423, (-17)); ((-7078279744199198), (-23)); (80562171469761338, (-24)); (70782794778573375, (-24)); (99999999999999689, (-17)); (33060414542221364, (-24)); ((-80562173809869717), (-24)); ((-33060408839805517), (-24)); (99999999999999623, (-17)); (99999999999960276, (-17)); ((-81756077897788687), (-23)); ((-35526696450013455), (-23)); (81756077897947633, (-23)); (99999999999966582, (-17)); (43288690093836154, (-28)); (35526696449647674, (-23)); ((-46193049385578888), (-28)); (99999999999993694, (-17)); (99999999999956779, (-17)); ((-88834356467457713), (-23)); ((-27470482005930216), (-23)); (88834357375767247, (-23)); (99999999999960487, (-17)); (33064809275691364, (-24)); (27470479068628309, (-23)); ((-33065053291531574), (-24)); (99999999999996181, (-17))];
  [(24515454684846294, (-10)); (87394207001695645, (-18)); (99999999999999423, (-17)); ((-7078279744199198), (-23)); (80562171469761338, (-24)); (70782794778573375, (-24)); (99999999999999689, (-17)); (33060414542221364, (-24)); ((-80562173809869717), (-24)); ((-33060408839805517), (-24)); (99999999999999623, (-17)); (99999999999993117, (-17)); ((-34030573556675419), (-23)); ((-14787816406581878), (-23)); (34030573556702963, (-23)); (99999999999994205, (-17)); (18371456678530218, (-28)); (14787816406518504, (-23)); ((-18874901641652286), (-28)); (99999999999998901, (-17)); (99999999999991318, (-17)); ((-4110885281198277), (-22)); ((-67316003846711117), (-24)); (41108853034544891, (-23)); (99999999999991485, (-17)); (3306227910365632, (-23)); (67315990255181773, (-24)); ((-33062306797199451), (-24)); (99999999999999711, (-17))];
  [(24515453126240117, (-10)); (37901104439230981, (-17)); (99999999999999423, (-17)); ((-7078279744199198), (-23)); (80562171469761338, (-24)); (70782794778573375, (-24)); (99999999999999689, (-17)); (33060414542221364, (-24)); ((-80562173809869717), (-24)); ((-33060408839805517), (-24)); (99999999999999623, (-17)); (99999999999989342, (-17)); ((-4234148906899085), (-22)); ((-18399283352971924), (-23)); (42341489069033482, (-23)); (99999999999991052, (-17)); (22781338480802308, (-28)); (18399283352873814, (-23)); ((-2356059791708276), (-27)); (99999999999998312, (-17)); (99999999999987255, (-17)); ((-49419768204901338), (-23)); ((-10343067605823762), (-23)); (49419768546871599, (-23)); (99999999999987743, (-17)); (33062726787289512, (-24)); (10343065971870197, (-23)); ((-33062777923124135), (-24)); (99999999999999423, (-17))];
  [(24515451512952978, (-10)); (18665543560455855, (-17)); (99999999999999423, (-17)); ((-7078279744199198), (-23)); (80562171469761338, (-24)); (70782794778573375, (-24)); (99999999999999689, (-17)); (33060414542221364, (-24)); ((-80562173809869717), (-24)); ((-33060408839805517), (-24)); (99999999999999623, (-17)); (99999999999997458, (-17)); ((-20689143958748043), (-23)); ((-89903645879821028), (-24)); (2068914395875822, (-22)); (99999999999997857, (-17)); (1122922124390457, (-27)); (89903645879586771, (-24)); ((-1141531313919586), (-27)); (999999999999996, (-15)); (99999999999996136, (-17)); ((-27767423405721869), (-23)); ((-9341481249978152), (-24)); (27767423436606242, (-23)); (99999999999996081, (-17)); (33061554131968678, (-24)); (93414720696360566, (-25)); ((-33061556734750861), (-24)); (99999999999999944, (-17))];
  [(24515457577614123, (-10)); (69340114417020804, (-17)); (99999999999999423, (-17)); ((-7078279744199198), (-23)); (80562171469761338, (-24)); (70782794778573375, (-24)); (99999999999999689, (-17)); (33060414542221364, (-24)); ((-80562173809869717), (-24)); ((-33060408839805517), (-24)); (99999999999999623, (-17)); (99999999999953082, (-17)); ((-888393139876556), (-21)); ((-38604681350504072), (-23)); (88839313987843281, (-23)); (99999999999960532, (-17)); (46901446980582056, (-28)); (38604681350072165, (-23)); ((-50331405709869159), (-28)); (99999999999992539, (-17)); (99999999999949329, (-17)); ((-9591759245556466), (-22)); ((-3054846714059612), (-22)); (95917593465659539, (-23)); (99999999999953937, (-17)); (33065176257786836, (-24)); (30548463969049941, (-23)); ((-33065469305847437), (-24)); (9999999999999527, (-16))];
  [(2451545709631775, (-9)); (36760835780128343, (-18)); (99999999999999423, (-17)); ((-7078279744199198), (-23)); (80562171469761338, (-24)); (70782794778573375, (-24)); (99999999999999689, (-17)); (33060414542221364, (-24)); ((-80562173809869717), (-24)); ((-33060408839805517), (-24)); (99999999999999623, (-17)); (99999999999987588, (-17)); ((-45693714207041472), (-23)); ((-19855976088257728), (-23)); (45693714207091129, (-23)); (99999999999989564, (-17)); (24552437616099396, (-28)); (19855976088143466, (-23)); ((-2545963440070409), (-27)); (99999999999998024, (-17)); (99999999999985378, (-17)); ((-52771993294792953), (-23)); ((-11799760451935655), (-23)); (52771993684927689, (-23)); (99999999999986022, (-17)); (33062906597827913, (-24)); (11799758707138519, (-23)); ((-33062968857860264), (-24)); (99999999999999245, (-17))];
  [(24515456875701961, (-10)); (4105279933842586, (-16)); (99999999999999423, (-17)); ((-7078279744199198), (-23)); (80562171469761338, (-24)); (70782794778573375, (-24)); (99999999999999689, (-17)); (33060414542221364, (-24)); ((-80562173809869717), (-24)); ((-33060408839805517), (-24)); (99999999999999623, (-17)); (99999999999973133, (-17)); ((-67224921925749264), (-23)); ((-29212255095228233), (-23)); (67224921925856721, (-23)); (99999999999977396, (-17)); (35806965212062685, (-28)); (29212255094980926, (-23)); ((-37770342409260138), (-28)); (99999999999995737, (-17)); (99999999999970146, (-17)); ((-74303200704177257), (-23)); ((-21156040170737939), (-23)); (74303201403683217, (-23)); (99999999999972322, (-17)); (33064049396591966, (-24)); (21156037713967395, (-23)); ((-33064206551296387), (-24)); (99999999999997713, (-17))];
  [(24515455085708871, (-10)); (99410579943256727, (-17)); (99999999999999423, (-17)); ((-7078279744199198), (-23)); (80562171469761338, (-24)); (70782794778573375, (-24)); (99999999999999689, (-17)); (33060414542221364, (-24)); ((-80562173809869717), (-24)); ((-33060408839805517), (-24)); (99999999999999623, (-17)); (99999999999949696, (-17)); ((-91992978624534714), (-23)); ((-39975090579767937), (-23)); (91992978624735969, (-23)); (99999999999957689, (-17)); (48504620906509251, (-28)); (39975090579304822, (-23)); ((-52181592380406983), (-28)); (99999999999992006, (-17)); (99999999999945821, (-17)); ((-99071257047137231), (-23)); ((-3191887647412171), (-22)); (99071258102550723, (-23)); (99999999999950862, (-17)); (33065339115839204, (-24)); (31918873198281327, (-23)); ((-3306565529452831), (-23)); (99999999999994849, (-17))];
  [(24515453923005215, (-10)); (62137373141924457, (-17)); (99999999999999423, (-17)); ((-7078279744199198), (-23)); (80562171469761338, (-24)); (70782794778573375, (-24)); (99999999999999689, (-17)); (33060414542221364, (-24)); ((-80562173809869717), (-24)); ((-33060408839805517), (-24)); (99999999999999623, (-17)); (99999999999977107, (-17)); ((-62056538398956618), (-23)); ((-26966359800316104), (-23)); (62056538399048204, (-23)); (99999999999980738, (-17)); (33124002065845281, (-28)); (26966359800105352, (-23)); ((-34797720260826281), (-28)); (99999999999996358, (-17)); (99999999999974309, (-17)); ((-69134817251635117), (-23)); ((-18910144704956601), (-23)); (69134817876877135, (-23)); (9999999999997603, (-16)); (33063776936516458, (-24)); (18910142419093888, (-23)); ((-33063907699374231), (-24)); (99999999999998157, (-17))];
  [(24515455609535379, (-10)); (16602750787679943, (-17)); (99999999999999423, (-17)); ((-7078279744199198), (-23)); (80562171469761338, (-24)); (70782794778573375, (-24)); (99999999999999689, (-17)); (33060414542221364, (-24)); ((-80562173809869717), (-24)); ((-33060408839805517), (-24)); (99999999999999623, (-17)); (99999999999988221, (-17)); ((-44505349670248646), (-23)); ((-19339578198657696), (-23)); (44505349670295752, (-23)); (99999999999990097, (-17)); (23925055036315379, (-28)); (19339578198549302, (-23)); ((-2478572902475662), (-27)); (99999999999998135, (-17)); (99999999999986044, (-17)); ((-51583628775072511), (-23)); ((-11283362523047746), (-23)); (51583629148132863, (-23)); (99999999999986633, (-17)); (33062842902197833, (-24)); (11283360817544826, (-23)); ((-3306290110180184), (-23)); (99999999999999312, (-17))];
  [(24515452962739747, (-10)); (57010112652656764, (-18)); (99999999999999423, (-17)); ((-7078279744199198), (-23)); (80562171469761338, (-24)); (70782794778573375, (-24)); (99999999999999689, (-17)); (33060414542221364, (-24)); ((-80562173809869717), (-24)); ((-33060408839805517), (-24)); (99999999999999623, (-17)); (99999999999997224, (-17)); ((-21627842820038991), (-23)); ((-93982715065120582), (-24)); (21627842820050119, (-23)); (9999999999999768, (-16)); (1173441221395308, (-27)); (93982715064864592, (-24)); ((-11937673072281996), (-28)); (99999999999999567, (-17)); (9999999999999587, (-16)); ((-28706122253527227), (-23)); ((-13420550745615622), (-24)); (28706122297897714, (-23)); (99999999999995837, (-17)); (33061605407301806, (-24)); (13420541254910172, (-24)); ((-33061609259472085), (-24)); (99999999999999944, (-17))];
  [(24515457565987702, (-10)); (42358079487591771, (-17)); (99999999999999423, (-17)); ((-7078279744199198), (-23)); (80562171469761338, (-24)); (70782794778573375, (-24)); (99999999999999689, (-17)); (33060414542221364, (-24)); ((-80562173809869717), (-24)); ((-33060408839805517), (-24)); (99999999999999623, (-17)); (99999999999968969, (-17)); ((-72249895255623381), (-23)); ((-31395832198898893), (-23)); (72249895255747513, (-23)); (99999999999973899, (-17)); (38404473677240631, (-28)); (31395832198613226, (-23)); ((-4067302050714261), (-27)); (99999999999995071, (-17)); (99999999999965805, (-17)); ((-79328173961861117), (-23)); ((-23339617440536631), (-23)); (79328174733571648, (-23)); (9999999999996847, (-16)); (33064313195664963, (-24)); (23339614817597683, (-23)); ((-3306449836470291), (-23)); (99999999999997224, (-17))];
  [(24515454579844614, (-10)); (14962877544162267, (-17)); (99999999999999423, (-17)); ((-7078279744199198), (-23)); (80562171469761338, (-24)); (70782794778573375, (-24)); (99999999999999689, (-17)); (33060414542221364, (-24)); ((-80562173809869717), (-24)); ((-33060408839805517), (-24)); (99999999999999623, (-17)); (99999999999991773, (-17)); ((-37197722968403287), (-23)); ((-16164085412247153), (-23)); (37197722968436194, (-23)); (99999999999993072, (-17)); (20055889296176145, (-28)); (16164085412171428, (-23)); ((-20657364707687975), (-28)); (9999999999999869, (-16)); (99999999999989864, (-17)); ((-44276002178210517), (-23)); ((-81078694950437627), (-24)); (44276002446276667, (-23)); (9999999999999013, (-16)); (3306245009844205, (-23)); (81078680311698475, (-24)); ((-33062486017667689), (-24)); (99999999999999611, (-17))];
  [(24515452773466436, (-10)); (46459504037709043, (-17)); (99999999999999423, (-17)); ((-7078279744199198), (-23)); (80562171469761338, (-24)); (70782794778573375, (-24)); (99999999999999689, (-17)); (33060414542221364, (-24)); ((-80562173809869717), (-24)); ((-33060408839805517), (-24)); (99999999999999623, (-17)); (99999999999987732, (-17)); ((-45421231097544018), (-23)); ((-19737569910431041), (-23)); (45421231097593083, (-23)); (99999999999989686, (-17)); (24408083938873189, (-28)); (1973756991031814, (-22)); ((-25304203177256568), (-28)); (99999999999998046, (-17)); (99999999999985523, (-17)); ((-52499510189210078), (-23)); ((-11681354265100551), (-23)); (52499510575429764, (-23)); (99999999999986156, (-17)); (33062891942941923, (-24)); (116813525293133, (-21)); ((-33062953230926723), (-24)); (99999999999999256, (-17))];
  [(24515458860335387, (-10)); (60077061323266068, (-17)); (99999999999999423, (-17)); ((-7078279744199198), (-23)); (80562171469761338, (-24)); (70782794778573375, (-24)); (99999999999999689, (-17)); (33060414542221364, (-24)); ((-80562173809869717), (-24)); ((-33060408839805517), (-24)); (99999999999999623, (-17)); (99999999999950751, (-17)); ((-91021271424316415), (-23)); ((-39552840065531579), (-23)); (91021271424513424, (-23)); (99999999999958555, (-17)); (48010949963185731, (-28)); (39552840065078189, (-23)); ((-51611492857261965), (-28)); (99999999999992173, (-17)); (9999999999994692, (-16)); ((-98099549860878776), (-23)); ((-31496625927760229), (-23)); (98099550902328612, (-23)); (99999999999951805, (-17)); (33065288965916739, (-24)); (31496622684055086, (-23)); ((-33065597985695318), (-24)); (99999999999994982, (-17))];
  [(24515455968728517, (-10)); (84310153770420759, (-17)); (99999999999999423, (-17)); ((-7078279744199198), (-23)); (80562171469761338, (-24)); (70782794778573375, (-24)); (99999999999999689, (-17)); (33060414542221364, (-24)); ((-80562173809869717), (-24)); ((-33060408839805517), (-24)); (99999999999999623, (-17)); (99999999999953804, (-17)); ((-88154381005645606), (-23)); ((-3830704714113756), (-22)); (88154381005830408, (-23)); (99999999999961142, (-17)); (46553826645357091, (-28)); (3830704714071228, (-22)); ((-49930615197979478), (-28)); (99999999999992661, (-17)); (99999999999950073, (-17)); ((-95232659483394627), (-23)); ((-30250832908585383), (-23)); (95232660483646983, (-23)); (99999999999954592, (-17)); (33065140943956641, (-24)); (30250829759690337, (-23)); ((-33065429016122471), (-24)); (9999999999999537, (-16))];
  [(24515451921867155, (-10)); (18952638485228168, (-17)); (99999999999999423, (-17)); ((-7078279744199198), (-23)); (80562171469761338, (-24)); (70782794778573375, (-24)); (99999999999999689, (-17)); (33060414542221364, (-24)); ((-80562173809869717), (-24)); ((-33060408839805517), (-24)); (99999999999999623, (-17)); (99999999999996758, (-17)); ((-23368250185151614), (-23)); ((-10154556865029453), (-23)); (233682501851646, (-21)); (9999999999999728, (-16)); (12669852972129906, (-28)); (10154556864999569, (-23)); ((-12906897772779757), (-28)); (99999999999999489, (-17)); (99999999999995348, (-17)); ((-30446529593636708), (-23)); ((-20983404906175798), (-24)); (30446529663011406, (-23)); (99999999999995315, (-17)); (33061700353487461, (-24)); (2098339484003444, (-23)); ((-33061706717262041), (-24)); (99999999999999933, (-17))];
  [(24515455369035513, (-10)); (47900413057608071, (-17)); (99999999999999423, (-17)); ((-7078279744199198), (-23)); (80562171469761338, (-24)); (70782794778573375, (-24)); (99999999999999689, (-17)); (33060414542221364, (-24)); ((-80562173809869717), (-24)); ((-33060408839805517), (-24)); (99999999999999623, (-17)); (99999999999977007, (-17)); ((-62193267601784273), (-23)); ((-27025774793818843), (-23)); (6219326760187626, (-22)); (99999999999980671, (-17)); (33195073229928034, (-28)); (27025774793607164, (-23)); ((-34875990984062355), (-28)); (99999999999996347, (-17)); (99999999999974198, (-17)); ((-69271546452498491), (-23)); ((-18969559702979669), (-23)); (69271547079705128, (-23)); (99999999999975953, (-17)); (33063784153784855, (-24)); (18969557412595647, (-23)); ((-3306391556850215), (-23)); (99999999999998146, (-17))];
  [(24515454936580411, (-10)); (28819844788084192, (-18)); (99999999999999423, (-17)); ((-7078279744199198), (-23)); (80562171469761338, (-24)); (70782794778573375, (-24)); (99999999999999689, (-17)); (33060414542221364, (-24)); ((-80562173809869717), (-24)); ((-33060408839805517), (-24)); (99999999999999623, (-17)); (99999999999993916, (-17)); ((-31985787114691317), (-23)); ((-13899264639409456), (-23)); (31985787114715642, (-23)); (99999999999994871, (-17)); (1728163856916293, (-27)); (1389926463935347, (-22)); ((-17726931034189874), (-28)); (99999999999999023, (-17)); (99999999999992195, (-17)); ((-39064066399374607), (-23)); ((-58430485498971413), (-24)); (39064066592558508, (-23)); (99999999999992295, (-17)); (33062168474521247, (-24)); (58430472583539506, (-24)); ((-33062191371196949), (-24)); (99999999999999767, (-17))];
  [(24515457618361223, (-10)); (68552399236515282, (-17)); (99999999999999423, (-17)); ((-7078279744199198), (-23)); (80562171469761338, (-24)); (70782794778573375, (-24)); (99999999999999689, (-17)); (33060414542221364, (-24)); ((-80562173809869717), (-24)); ((-33060408839805517), (-24)); (99999999999999623, (-17)); (99999999999953326, (-17)); ((-88606530742298085), (-23)); ((-38503526552884003), (-23)); (88606530742484792, (-23)); (99999999999960743, (-17)); (46783722272168207, (-28)); (38503526552454356, (-23)); ((-50195403389352578), (-28)); (99999999999992584, (-17)); (99999999999949574, (-17)); ((-95684809213551369), (-23)); ((-30447312335280121), (-23)); (95684810220301145, (-23)); (99999999999954159, (-17)); (3306516429778083, (-23)); (30447309171432233, (-23)); ((-33065455634015207), (-24)); (99999999999995304, (-17))];
  [(24515452198694507, (-10)); (31737236367613419, (-17)); (99999999999999423, (-17)); ((-7078279744199198), (-23)); (80562171469761338, (-24)); (70782794778573375, (-24)); (99999999999999689, (-17)); (33060414542221364, (-24)); ((-80562173809869717), (-24)); ((-33060408839805517), (-24)); (99999999999999623, (-17)); (99999999999993572, (-17)); ((-32889626084425619), (-23)); ((-14292023363508178), (-23)); (32889626084451342, (-23)); (99999999999994593, (-17)); (17764088772057872, (-28)); (14292023363448979, (-23)); ((-18233747844931258), (-28)); (9999999999999899, (-16)); (99999999999991818, (-17)); ((-39967905356124127), (-23)); ((-62358073038771817), (-24)); (39967905562293794, (-23)); (99999999999991951, (-17)); (33062217447693747, (-24)); (62358059824490989, (-24)); ((-33062242330883627), (-24)); (99999999999999767, (-17))];
  [(24515451656034971, (-10)); (82724327292801614, (-17)); (99999999999999423, (-17)); ((-7078279744199198), (-23)); (80562171469761338, (-24)); (70782794778573375, (-24)); (99999999999999689, (-17)); (33060414542221364, (-24)); ((-80562173809869717), (-24)); ((-33060408839805517), (-24)); (99999999999999623, (-17)); (9999999999997804, (-16)); ((-60781492199263659), (-23)); ((-26412294830079962), (-23)); (60781492199351528, (-23)); (99999999999981537, (-17)); (32459932977085109, (-28)); (26412294829877786, (-23)); ((-34064973064573678), (-28)); (99999999999996514, (-17)); (99999999999975286, (-17)); ((-67859771070259848), (-23)); ((-18356079692566827), (-23)); (67859771677181063, (-23)); (99999999999976918, (-17)); (33063709502402936, (-24)); (18356077448866828, (-23)); ((-33063834032471972), (-24)); (99999999999998268, (-17))];
  [(24515456660318738, (-10)); (98796626693214473, (-17)); (99999999999999423, (-17)); ((-7078279744199198), (-23)); (80562171469761338, (-24)); (70782794778573375, (-24)); (99999999999999689, (-17)); (33060414542221364, (-24)); ((-80562173809869717), (-24)); ((-33060408839805517), (-24)); (99999999999999623, (-17)); (99999999999939049, (-17)); ((-10125678873815696), (-22)); ((-4400063302110479), (-22)); (10125678873840078, (-22)); (99999999999948741, (-17)); (53185435729114692, (-28)); (440006330205437, (-21)); ((-57640558992488877), (-28)); (9999999999999033, (-16)); (99999999999934841, (-17)); ((-10833506702767259), (-22)); ((-35944419221724813), (-23)); (10833506821621106, (-22)); (99999999999941258, (-17)); (33065814660445095, (-24)); (35944415639516452, (-23)); ((-33066204040580513), (-24)); (99999999999993494, (-17))];
  [(24515450212529148, (-10)); (19657980959075205, (-17)); (99999999999999423, (-17)); ((-7078279744199198), (-23)); (80562171469761338, (-24)); (70782794778573375, (-24)); (99999999999999689, (-17)); (33060414542221364, (-24)); ((-80562173809869717), (-24)); ((-33060408839805517), (-24)); (99999999999999623, (-17)); (99999999999998934, (-17)); ((-13335590499193936), (-23)); ((-57949145226191402), (-24)); (13335590499198166, (-23)); (99999999999999101, (-17)); (72593700593075375, (-29)); (57949145226094072, (-24)); ((-7336908858235347), (-28)); (99999999999999833, (-17)); (99999999999997879, (-17)); ((-20413870051810774), (-23)); (22613021834767793, (-24)); (20413869977049515, (-23)); (99999999999997846, (-17)); (33061151222668278, (-24)); ((-22613028583827783), (-24)); ((-33061146632493896), (-24)); (99999999999999922, (-17))];
  [(24515451110352217, (-10)); (45726438918085299, (-17)); (99999999999999423, (-17)); ((-7078279744199198), (-23)); (80562171469761338, (-24)); (70782794778573375, (-24)); (99999999999999689, (-17)); (33060414542221364, (-24)); ((-80562173809869717), (-24)); ((-33060408839805517), (-24)); (99999999999999623, (-17)); (99999999999992806, (-17)); ((-3479096602750202), (-22)); ((-15118241168497301), (-23)); (34790966027530803, (-23)); (99999999999993949, (-17)); (18776185000511561, (-28)); (1511824116843106, (-22)); ((-19302337506132972), (-28)); (99999999999998856, (-17)); (99999999999990985, (-17)); ((-41869245271885373), (-23)); ((-7062025171725448), (-23)); (41869245505372387, (-23)); (99999999999991174, (-17)); (33062320189077121, (-24)); (70620237874304304, (-24)); ((-33062349774669775), (-24)); (999999999999997, (-15))];
  [(24515453490936165, (-10)); (25290937526558033, (-17)); (99999999999999423, (-17)); ((-7078279744199198), (-23)); (80562171469761338, (-24)); (70782794778573375, (-24)); (99999999999999689, (-17)); (33060414542221364, (-24)); ((-80562173809869717), (-24)); ((-33060408839805517), (-24)); (99999999999999623, (-17)); (99999999999991929, (-17)); ((-36854267076938013), (-23)); ((-16014838364987989), (-23)); (36854267076970317, (-23)); (99999999999993217, (-17)); (19873232321757493, (-28)); (16014838364913659, (-23)); ((-20463630789890885), (-28)); (99999999999998712, (-17)); (9999999999999003, (-16)); ((-43932546291679422), (-23)); ((-79586224364297913), (-24)); (43932546554810953, (-23)); (99999999999990297, (-17)); (33062431556049135, (-24)); (79586209839122135, (-24)); ((-33062466538634682), (-24)); (99999999999999623, (-17))];
  [(24515459938591323, (-10)); (68056994307841934, (-17)); (99999999999999423, (-17)); ((-7078279744199198), (-23)); (80562171469761338, (-24)); (70782794778573375, (-24)); (99999999999999689, (-17)); (33060414542221364, (-24)); ((-80562173809869717), (-24)); ((-33060408839805517), (-24)); (99999999999999623, (-17)); (99999999999937539, (-17)); ((-10250755850089809), (-22)); ((-44544148776532687), (-23)); (10250755850114796, (-22)); (99999999999947464, (-17)); (53814075350559676, (-28)); (44544148775957647, (-23)); ((-58380522638401544), (-28)); (99999999999990075, (-17)); (99999999999933287, (-17)); ((-10958583677244476), (-22)); ((-36487935018503794), (-23)); (10958583797895764, (-22)); (99999999999939893, (-17)); (33065878532054098, (-24)); (36487931394929891, (-23)); ((-33066278421660673), (-24)); (99999999999993283, (-17))];
  [(24515459506234908, (-10)); (22479312136545349, (-17)); (99999999999999423, (-17)); ((-7078279744199198), (-23)); (80562171469761338, (-24)); (70782794778573375, (-24)); (99999999999999689, (-17)); (33060414542221364, (-24)); ((-80562173809869717), (-24)); ((-33060408839805517), (-24)); (99999999999999623, (-17)); (99999999999969225, (-17)); ((-71958310097241962), (-23)); ((-31269125322440155), (-23)); (71958310097365099, (-23)); (99999999999974121, (-17)); (38253441539719245, (-28)); (31269125322156796, (-23)); ((-40503156384374961), (-28)); (99999999999995115, (-17)); (99999999999966072, (-17)); ((-79036588807668699), (-23)); ((-23212910554437946), (-23)); (79036589575189372, (-23)); (99999999999968714, (-17)); (33064297857543947, (-24)); (23212907941141369, (-23)); ((-33064481288603979), (-24)); (99999999999997258, (-17))];
  [(24515458420983343, (-10)); (77055287941285877, (-17)); (99999999999999423, (-17)); ((-7078279744199198), (-23)); (80562171469761338, (-24)); (70782794778573375, (-24)); (99999999999999689, (-17)); (33060414542221364, (-24)); ((-80562173809869717), (-24)); ((-33060408839805517), (-24)); (99999999999999623, (-17)); (99999999999942057, (-17)); ((-98725554269600521), (-23)); ((-42900697720040725), (-23)); (98725554269832291, (-23)); (9999999999995125, (-16)); (51908731085163546, (-28)); (42900697719507338, (-23)); ((-56145088578318791), (-28)); (99999999999990796, (-17)); (9999999999993795, (-16)); ((-10580383259548072), (-22)); ((-34844483836976846), (-23)); (10580383374764379, (-22)); (99999999999943956, (-17)); (33065684950764081, (-24)); (34844480338481117, (-23)); ((-33066053714974271), (-24)); (99999999999993872, (-17))];
  [(24515451105096713, (-10)); (31182022220556549, (-18)); (99999999999999423, (-17)); ((-7078279744199198), (-23)); (80562171469761338, (-24)); (70782794778573375, (-24)); (99999999999999689, (-17)); (33060414542221364, (-24)); ((-80562173809869717), (-24)); ((-33060408839805517), (-24)); (99999999999999623, (-17)); (99999999999999556, (-17)); ((-86742816335437745), (-24)); ((-3769365943606798), (-23)); (86742816335455652, (-24)); (99999999999999623, (-17)); (47307351173726327, (-29)); (37693659436026807, (-24)); ((-47628567756419216), (-29)); (99999999999999933, (-17)); (99999999999998668, (-17)); ((-15752561253126137), (-23)); (42868509165939674, (-24)); (15752561111399014, (-23)); (99999999999998701, (-17)); (3306089460392262, (-23)); ((-42868514373876792), (-24)); ((-33060887793545723), (-24)); (99999999999999856, (-17))];
  [(24515450054074638, (-10)); (14120954123125029, (-17)); (99999999999999423, (-17)); ((-7078279744199198), (-23)); (80562171469761338, (-24)); (70782794778573375, (-24)); (99999999999999689, (-17)); (33060414542221364, (-24)); ((-80562173809869717), (-24)); ((-33060408839805517), (-24)); (99999999999999623, (-17)); (99999999999999523, (-17)); ((-89758062894689458), (-24)); ((-39003919829798216), (-24)); (89758062894708622, (-24)); (999999999999996, (-15)); (48944983047623514, (-29)); (39003919829754131, (-24)); ((-49288351178233825), (-29)); (99999999999999922, (-17)); (99999999999998623, (-17)); ((-16054085904719527), (-23)); (41558248672524116, (-24)); (16054085767324176, (-23)); (99999999999998657, (-17)); (33060911223156166, (-24)); ((-41558253980150632), (-24)); ((-33060904484123828), (-24)); (99999999999999856, (-17))];
  [(24515454480460808, (-10)); (27187666251191467, (-17)); (99999999999999423, (-17)); ((-7078279744199198), (-23)); (80562171469761338, (-24)); (70782794778573375, (-24)); (99999999999999689, (-17)); (33060414542221364, (-24)); ((-80562173809869717), (-24)); ((-33060408839805517), (-24)); (99999999999999623, (-17)); (99999999999988454, (-17)); ((-4407324456121617), (-22)); ((-19151809075998278), (-23)); (4407324456126236, (-22)); (99999999999990286, (-17)); (23696311038828513, (-28)); (19151809075891978, (-23)); ((-2454036973631446), (-27)); (99999999999998168, (-17)); (999999999999863, (-15)); ((-51151523672247781), (-23)); ((-11095593386102739), (-23)); (51151524039099666, (-23)); (99999999999986855, (-17)); (33062819679684894, (-24)); (11095591694887674, (-23)); ((-33062876432964765), (-24)); (99999999999999334, (-17))];
  [(2451545370321793, (-9)); (98012313794838346, (-17)); (99999999999999423, (-17)); ((-7078279744199198), (-23)); (80562171469761338, (-24)); (70782794778573375, (-24)); (99999999999999689, (-17)); (33060414542221364, (-24)); ((-80562173809869717), (-24)); ((-33060408839805517), (-24)); (99999999999999623, (-17)); (99999999999959366, (-17)); ((-82673440414988484), (-23)); ((-35925331755177378), (-23)); (82673440415151019, (-23)); (99999999999965816, (-17)); (43757354180482536, (-28)); (35925331754803339, (-23)); ((-46728176883448214), (-28)); (9999999999999355, (-16)); (99999999999955835, (-17)); ((-89751718971478397), (-23)); ((-27869117341422593), (-23)); (8975171989297021, (-22)); (99999999999959654, (-17)); (33064856881146934, (-24)); (27869114373783603, (-23)); ((-33065107086446538), (-24)); (9999999999999607, (-16))];
  [(24515455490720114, (-10)); (39319668501062566, (-17)); (99999999999999423, (-17)); ((-7078279744199198), (-23)); (80562171469761338, (-24)); (70782794778573375, (-24)); (99999999999999689, (-17)); (33060414542221364, (-24)); ((-80562173809869717), (-24)); ((-33060408839805517), (-24)); (99999999999999623, (-17)); (99999999999980227, (-17)); ((-57685132415007652), (-23)); ((-25066787119185345), (-23)); (57685132415086786, (-23)); (9999999999998338, (-16)); (30845304001348016, (-28)); (25066787119003249, (-23)); ((-32290281559710365), (-28)); (99999999999996858, (-17)); (99999999999977585, (-17)); ((-64763411330487037), (-23)); ((-17010571879305102), (-23)); (64763411892917772, (-23)); (99999999999978983, (-17)); (33063545545011294, (-24)); (17010569737993535, (-23)); ((-33063655610933601), (-24)); (99999999999998501, (-17))];
  [(2451545260961242, (-9)); (93148077473013613, (-17)); (99999999999999423, (-17)); ((-7078279744199198), (-23)); (80562171469761338, (-24)); (70782794778573375, (-24)); (99999999999999689, (-17)); (33060414542221364, (-24)); ((-80562173809869717), (-24)); ((-33060408839805517), (-24)); (99999999999999623, (-17)); (99999999999968325, (-17)); ((-73000595307947307), (-23)); ((-31722045162866317), (-23)); (73000595308074034, (-23)); (99999999999973355, (-17)); (38791494811246381, (-28)); (31722045162574683, (-23)); ((-41107117709771046), (-28)); (99999999999994971, (-17)); (99999999999965139, (-17)); ((-8007887400340026), (-22)); ((-23665830429322554), (-23)); (80078874785897809, (-23)); (99999999999967881, (-17)); (33064352502558449, (-24)); (23665827781558836, (-23)); ((-33064542005325804), (-24)); (99999999999997147, (-17))];
  [(24515450739764618, (-10)); (78819969024734604, (-17)); (99999999999999423, (-17)); ((-7078279744199198), (-23)); (80562171469761338, (-24)); (70782794778573375, (-24)); (99999999999999689, (-17)); (33060414542221364, (-24)); ((-80562173809869717), (-24)); ((-33060408839805517), (-24)); (99999999999999623, (-17)); (99999999999983447, (-17)); ((-52781914174070218), (-23)); ((-229361180680315), (-21)); (52781914174136488, (-23)); (99999999999986089, (-17)); (28279595185108805, (-28)); (22936118067879042, (-23)); ((-29489743980093408), (-28)); (9999999999999738, (-16)); (99999999999980971, (-17)); ((-59860193159990652), (-23)); ((-14879902666048577), (-23)); (5986019365196975, (-22)); (99999999999982037, (-17)); (33063285023991478, (-24)); (14879900686871276, (-23)); ((-33063374049028652), (-24)); (99999999999998845, (-17))];
  [(24515455709794434, (-10)); (86493485085450539, (-17)); (99999999999999423, (-17)); ((-7078279744199198), (-23)); (80562171469761338, (-24)); (70782794778573375, (-24)); (99999999999999689, (-17)); (33060414542221364, (-24)); ((-80562173809869717), (-24)); ((-33060408839805517), (-24)); (99999999999999623, (-17)); (9999999999995407, (-16)); ((-87905824374975515), (-23)); ((-38199038097608762), (-23)); (87905824375159279, (-23)); (99999999999961364, (-17)); (46427217712408887, (-28)); (38199038097185881, (-23)); ((-4978462087024127), (-27)); (99999999999992706, (-17)); (99999999999950351, (-17)); ((-94984102856295362), (-23)); ((-30142823856839181), (-23)); (9498410385297597, (-22)); (99999999999954836, (-17)); (33065128082820803, (-24)); (30142820716164038, (-23)); ((-33065414340237893), (-24)); (99999999999995404, (-17))];
  [(24515453244008408, (-10)); (99688223793365216, (-17)); (99999999999999423, (-17)); ((-7078279744199198), (-23)); (80562171469761338, (-24)); (70782794778573375, (-24)); (99999999999999689, (-17)); (33060414542221364, (-24)); ((-80562173809869717), (-24)); ((-33060408839805517), (-24)); (99999999999999623, (-17)); (99999999999961109, (-17)); ((-80888169039225944), (-23)); ((-35149550985332641), (-23)); (80888169039381544, (-23)); (99999999999967282, (-17)); (42843905427378736, (-28)); (35149550984974589, (-23)); ((-45687342797862129), (-28)); (99999999999993827, (-17)); (99999999999957634, (-17)); ((-87966447621363602), (-23)); ((-27093336512555906), (-23)); (87966448517201582, (-23)); (99999999999961242, (-17)); (33064764098018728, (-24)); (27093333603955573, (-23)); ((-33065002453918742), (-24)); (99999999999996281, (-17))];
  [(24515458281976082, (-10)); (83820088062493192, (-17)); (99999999999999423, (-17)); ((-7078279744199198), (-23)); (80562171469761338, (-24)); (70782794778573375, (-24)); (99999999999999689, (-17)); (33060414542221364, (-24)); ((-80562173809869717), (-24)); ((-33060408839805517), (-24)); (99999999999999623, (-17)); (99999999999938127, (-17)); ((-10201593073398956), (-22)); ((-44330514385109402), (-23)); (10201593073423704, (-22)); (99999999999947964, (-17)); (53566950759206746, (-28)); (44330514384539868, (-23)); ((-58089644205949753), (-28)); (99999999999990175, (-17)); (99999999999933908, (-17)); ((-10909420901259913), (-22)); ((-36274300610827043), (-23)); (10909421021204693, (-22)); (99999999999940437, (-17)); (33065853423529122, (-24)); (36274297003512313, (-23)); ((-33066249182601063), (-24)); (99999999999993372, (-17))];
  [(24515453483130899, (-10)); (81717248415136012, (-17)); (99999999999999423, (-17)); ((-7078279744199198), (-23)); (80562171469761338, (-24)); (70782794778573375, (-24)); (99999999999999689, (-17)); (33060414542221364, (-24)); ((-80562173809869717), (-24)); ((-33060408839805517), (-24)); (99999999999999623, (-17)); (99999999999969746, (-17)); ((-71350337807882425), (-23)); ((-31004933995961769), (-23)); (71350337808003487, (-23)); (99999999999974554, (-17)); (37939716910664437, (-28)); (31004933995683175, (-23)); ((-40152325908593411), (-28)); (99999999999995193, (-17)); (99999999999966616, (-17)); ((-78428616527043459), (-23)); ((-22948719207859704), (-23)); (78428617285828046, (-23)); (99999999999969191, (-17)); (3306426599528551, (-23)); (22948716614667986, (-23)); ((-33064446018554416), (-24)); (99999999999997313, (-17))];
  [(2451545095440919, (-9)); (35630595933410447, (-17)); (99999999999999423, (-17)); ((-7078279744199198), (-23)); (80562171469761338, (-24)); (70782794778573375, (-24)); (99999999999999689, (-17)); (33060414542221364, (-24)); ((-80562173809869717), (-24)); ((-33060408839805517), (-24)); (99999999999999623, (-17)); (99999999999995459, (-17)); ((-27655676657204805), (-23)); ((-12017636697385999), (-23)); (27655676657222989, (-23)); (9999999999999617, (-16)); (14967677021287378, (-28)); (12017636697344145, (-23)); ((-15299983502359282), (-28)); (99999999999999267, (-17)); (99999999999993894, (-17)); ((-34733956004095614), (-23)); ((-39614204647183198), (-24)); (3473395613506784, (-22)); (99999999999993905, (-17)); (33061933589935879, (-24)); (39614193163463355, (-24)); ((-3306194734457495), (-23)); (99999999999999856, (-17))];
  [(24515458593679755, (-10)); (80849309245679812, (-17)); (99999999999999423, (-17)); ((-7078279744199198), (-23)); (80562171469761338, (-24)); (70782794778573375, (-24)); (99999999999999689, (-17)); (33060414542221364, (-24)); ((-80562173809869717), (-24)); ((-33060408839805517), (-24)); (99999999999999623, (-17)); (99999999999938038, (-17)); ((-10210546896312347), (-22)); ((-44369422775520712), (-23)); (1021054689633714, (-21)); (99999999999947875, (-17)); (53611932962756536, (-28)); (44369422774950177, (-23)); ((-58141824688107135), (-28)); (99999999999990163, (-17)); (99999999999933809, (-17)); ((-1091837472404467), (-21)); ((-36313209004198531), (-23)); (10918374844118125, (-22)); (99999999999940337, (-17)); (33065857993883397, (-24)); (3631320539392259, (-22)); ((-33066254428189728), (-24)); (99999999999993361, (-17))];
  [(2451545054587693, (-9)); (69242111536940065, (-17)); (99999999999999423, (-17)); ((-7078279744199198), (-23)); (80562171469761338, (-24)); (70782794778573375, (-24)); (99999999999999689, (-17)); (33060414542221364, (-24)); ((-80562173809869717), (-24)); ((-33060408839805517), (-24)); (99999999999999623, (-17)); (99999999999987566, (-17)); ((-4573143745396467), (-22)); ((-1987236853728441), (-22)); (45731437454014401, (-23)); (99999999999989542, (-17)); (24571869947983214, (-28)); (1987236853716996, (-22)); ((-25480728638171968), (-28)); (99999999999998024, (-17)); (99999999999985345, (-17)); ((-52809716541174214), (-23)); ((-11816152902209484), (-23)); (52809716931850935, (-23)); (99999999999985989, (-17)); (33062908571451764, (-24)); (11816151156164997, (-23)); ((-33062970978887046), (-24)); (99999999999999245, (-17))];
  [(24515459583205283, (-10)); (80250587235959125, (-17)); (99999999999999423, (-17)); ((-7078279744199198), (-23)); (80562171469761338, (-24)); (70782794778573375, (-24)); (99999999999999689, (-17)); (33060414542221364, (-24)); ((-80562173809869717), (-24)); ((-33060408839805517), (-24)); (99999999999999623, (-17)); (99999999999930933, (-17)); ((-10779675177482165), (-22)); ((-46842541301824118), (-23)); (10779675177509797, (-22)); (99999999999941902, (-17)); (56467504068080488, (-28)); (46842541301188208, (-23)); ((-61516347571455299), (-28)); (99999999999989031, (-17)); (99999999999926503, (-17)); ((-11487502997038206), (-22)); ((-38786327718658676), (-23)); (11487503125290509, (-22)); (99999999999933964, (-17)); (33066148136012965, (-24)); (38786323920158307, (-23)); ((-33066593631020163), (-24)); (99999999999992428, (-17))];
  [(24515459924071077, (-10)); (40359135131078983, (-17)); (99999999999999423, (-17)); ((-7078279744199198), (-23)); (80562171469761338, (-24)); (70782794778573375, (-24)); (99999999999999689, (-17)); (33060414542221364, (-24)); ((-80562173809869717), (-24)); ((-33060408839805517), (-24)); (99999999999999623, (-17)); (99999999999956579, (-17)); ((-85462200508786318), (-23)); ((-37137173539887837), (-23)); (85462200508960002, (-23)); (99999999999963463, (-17)); (45181681391208407, (-28)); (37137173539488138, (-23)); ((-48355763837548693), (-28)); (99999999999993094, (-17)); (99999999999952938, (-17)); ((-92540479025212039), (-23)); ((-29080959218330841), (-23)); (92540479986777859, (-23)); (99999999999957101, (-17)); (33065001560552927, (-24)); (29080956158467285, (-23)); ((-33065270702917311), (-24)); (99999999999995703, (-17))];
  [(24515454501449908, (-10)); (17209726414358728, (-17)); (99999999999999423, (-17)); ((-7078279744199198), (-23)); (80562171469761338, (-24)); (70782794778573375, (-24)); (99999999999999689, (-17)); (33060414542221364, (-24)); ((-80562173809869717), (-24)); ((-33060408839805517), (-24)); (99999999999999623, (-17)); (99999999999991374, (-17)); ((-38093302806172264), (-23)); ((-16553255170737602), (-23)); (3809330280620677, (-22)); (99999999999992739, (-17)); (20531131790840598, (-28)); (16553255170658193, (-23)); ((-21162516183892421), (-28)); (99999999999998623, (-17)); (99999999999989431, (-17)); ((-45171582003113354), (-23)); ((-84970392831424822), (-24)); (45171582284046835, (-23)); (9999999999998973, (-16)); (33062498344189967, (-24)); (8497037789656258, (-23)); ((-33062536808280529), (-24)); (99999999999999578, (-17))];
  [(24515459819132071, (-10)); (13036325036666352, (-17)); (99999999999999423, (-17)); ((-7078279744199198), (-23)); (80562171469761338, (-24)); (70782794778573375, (-24)); (99999999999999689, (-17)); (33060414542221364, (-24)); ((-80562173809869717), (-24)); ((-33060408839805517), (-24)); (99999999999999623, (-17)); (99999999999972444, (-17)); ((-68092907116204398), (-23)); ((-29589433731929086), (-23)); (68092907116314661, (-23)); (99999999999976819, (-17)); (36255612089757155, (-28)); (29589433731675352, (-23)); ((-38270497881853771), (-28)); (99999999999995615, (-17)); (99999999999969436, (-17)); ((-75171185882162658), (-23)); ((-21533218836134797), (-23)); (75171186594140755, (-23)); (99999999999971689, (-17)); (33064094960547261, (-24)); (21533216350661477, (-23)); ((-33064256833821198), (-24)); (99999999999997624, (-17))];
  [(24515457448414001, (-10)); (44357102142294935, (-17)); (99999999999999423, (-17)); ((-7078279744199198), (-23)); (80562171469761338, (-24)); (70782794778573375, (-24)); (99999999999999689, (-17)); (33060414542221364, (-24)); ((-80562173809869717), (-24)); ((-33060408839805517), (-24)); (99999999999999623, (-17)); (99999999999968536, (-17)); ((-72753905866005735), (-23)); ((-31614847496132766), (-23)); (72753905866131604, (-23)); (99999999999973532, (-17)); (38664338526452864, (-28)); (31614847495843102, (-23)); ((-40964454051106713), (-28)); (99999999999995004, (-17)); (9999999999996535, (-16)); ((-79832184565002694), (-23)); ((-23558632754433331), (-23)); (79832185343955495, (-23)); (9999999999996807, (-16)); (33064339588191659, (-24)); (23558630114827358, (-23)); ((-33064527663082435), (-24)); (99999999999997169, (-17))];
  [(24515457470782497, (-10)); (90297124164873011, (-17)); (99999999999999423, (-17)); ((-7078279744199198), (-23)); (80562171469761338, (-24)); (70782794778573375, (-24)); (99999999999999689, (-17)); (33060414542221364, (-24)); ((-80562173809869717), (-24)); ((-33060408839805517), (-24)); (99999999999999623, (-17)); (99999999999939349, (-17)); ((-10101505475378239), (-22)); ((-4389558872511284), (-22)); (10101505475402505, (-22)); (99999999999948985, (-17)); (53063262582977794, (-28)); (43895588724554433, (-23)); ((-57496785110799919), (-28)); (99999999999990352, (-17)); (99999999999935163, (-17)); ((-10809333304677086), (-22)); ((-35839374917741011), (-23)); (10809333423183543, (-22)); (99999999999941525, (-17)); (33065802248384414, (-24)); (35839371343527286, (-23)); ((-33066189588839058), (-24)); (99999999999993516, (-17))];
  [(24515458827693197, (-10)); (38273758759986476, (-17)); (99999999999999423, (-17)); ((-7078279744199198), (-23)); (80562171469761338, (-24)); (70782794778573375, (-24)); (99999999999999689, (-17)); (33060414542221364, (-24)); ((-80562173809869717), (-24)); ((-33060408839805517), (-24)); (99999999999999623, (-17)); (99999999999964317, (-17)); ((-77473584758890546), (-23)); ((-33665760419462217), (-23)); (77473584759033271, (-23)); (9999999999996998, (-16)); (41093101212430265, (-28)); (33665760419133753, (-23)); ((-43701153806807724), (-28)); (99999999999994327, (-17)); (99999999999960965, (-17)); ((-84551863390083175), (-23)); ((-25609545833797659), (-23)); (84551864236854929, (-23)); (99999999999964184, (-17)); (33064586266734883, (-24)); (25609543038116108, (-23)); ((-33064802784751331), (-24)); (99999999999996658, (-17))];
  [(24515456590286563, (-10)); (46798748344100383, (-17)); (99999999999999423, (-17)); ((-7078279744199198), (-23)); (80562171469761338, (-24)); (70782794778573375, (-24)); (99999999999999689, (-17)); (33060414542221364, (-24)); ((-80562173809869717), (-24)); ((-33060408839805517), (-24)); (99999999999999623, (-17)); (999999999999717, (-15)); ((-6899526175993887), (-22)); ((-29981547443024815), (-23)); (68995261760052066, (-23)); (99999999999976186, (-17)); (36722583859540857, (-28)); (29981547442764305, (-23)); ((-38791747591915282), (-28)); (99999999999995492, (-17)); (99999999999968658, (-17)); ((-7607354051293364), (-22)); ((-21925332577062806), (-23)); (76073541237877736, (-23)); (9999999999997099, (-16)); (33064142384680532, (-24)); (21925330061750061, (-23)); ((-33064309236341217), (-24)); (99999999999997535, (-17))];
  [(24515457344092131, (-10)); (58044333486434407, (-17)); (99999999999999423, (-17)); ((-7078279744199198), (-23)); (80562171469761338, (-24)); (70782794778573375, (-24)); (99999999999999689, (-17)); (33060414542221364, (-24)); ((-80562173809869717), (-24)); ((-33060408839805517), (-24)); (99999999999999623, (-17)); (99999999999961486, (-17)); ((-80494495740835653), (-23)); ((-34978482217417429), (-23)); (80494495740989739, (-23)); (99999999999967593, (-17)); (42642336783293741, (-28)); (34978482217062851, (-23)); ((-45457526631764722), (-28)); (99999999999993872, (-17)); (99999999999958034, (-17)); ((-8757277432862895), (-22)); ((-26922267731625663), (-23)); (87572775218809957, (-23)); (99999999999961586, (-17)); (3306474362400266, (-23)); (26922264836043994, (-23)); ((-33064979351214881), (-24)); (99999999999996314, (-17))];
  [(24515452285175393, (-10)); (89014098447952006, (-17)); (99999999999999423, (-17)); ((-7078279744199198), (-23)); (80562171469761338, (-24)); (70782794778573375, (-24)); (99999999999999689, (-17)); (33060414542221364, (-24)); ((-80562173809869717), (-24)); ((-33060408839805517), (-24)); (99999999999999623, (-17)); (99999999999972122, (-17)); ((-68483613448364553), (-23)); ((-29759213220441453), (-23)); (68483613448476076, (-23)); (99999999999976552, (-17)); (36458280844973434, (-28)); (29759213220184791, (-23)); ((-38496983378877303), (-28)); (9999999999999557, (-16)); (99999999999969091, (-17)); ((-75561892208709811), (-23)); ((-21702998337564103), (-23)); (7556189292630199, (-22)); (9999999999997139, (-16)); (33064115542184206, (-24)); (21702995839170759, (-23)); ((-33064279602545553), (-24)); (99999999999997591, (-17))];
  [(24515453778587463, (-10)); (61583160112469992, (-17)); (99999999999999423, (-17)); ((-7078279744199198), (-23)); (80562171469761338, (-24)); (70782794778573375, (-24)); (99999999999999689, (-17)); (33060414542221364, (-24)); ((-80562173809869717), (-24)); ((-33060408839805517), (-24)); (99999999999999623, (-17)); (99999999999978006, (-17)); ((-60833135513130576), (-23)); ((-26434736174695967), (-23)); (60833135513218583, (-23)); (99999999999981504, (-17)); (32486584574003753, (-28)); (26434736174493452, (-23)); ((-34094393974726245), (-28)); (99999999999996503, (-17)); (99999999999975253, (-17)); ((-67911414383384839), (-23)); ((-18378521038890183), (-23)); (67911414991048086, (-23)); (99999999999976885, (-17)); (33063712209167598, (-24)); (18378518793482473, (-23)); ((-33063836990447594), (-24)); (99999999999998257, (-17))];
  [(24515451771213179, (-10)); (17731465795199974, (-17)); (99999999999999423, (-17)); ((-7078279744199198), (-23)); (80562171469761338, (-24)); (70782794778573375, (-24)); (99999999999999689, (-17)); (33060414542221364, (-24)); ((-80562173809869717), (-24)); ((-33060408839805517), (-24)); (99999999999999623, (-17)); (99999999999997202, (-17)); ((-21698360755375405), (-23)); ((-94289147243571493), (-24)); (21698360755386604, (-23)); (99999999999997646, (-17)); (11772162834446202, (-28)); (94289147243313836, (-24)); ((-11975975766631564), (-28)); (99999999999999556, (-17)); (99999999999995848, (-17)); ((-28776640187850563), (-23)); ((-13726982947380056), (-24)); (2877664023323417, (-22)); (99999999999995803, (-17)); (33061609239174628, (-24)); (13726973433359164, (-24)); ((-33061613111431645), (-24)); (99999999999999933, (-17))];
  [(24515453595884168, (-10)); (27031126788838822, (-17)); (99999999999999423, (-17)); ((-7078279744199198), (-23)); (80562171469761338, (-24)); (70782794778573375, (-24)); (99999999999999689, (-17)); (33060414542221364, (-24)); ((-80562173809869717), (-24)); ((-33060408839805517), (-24)); (99999999999999623, (-17)); (99999999999991163, (-17)); ((-38562086125090168), (-23)); ((-16756962627355551), (-23)); (38562086125125531, (-23)); (99999999999992562, (-17)); (20779857475812287, (-28)); (16756962627274173, (-23)); ((-21426194152240896), (-28)); (99999999999998601, (-17)); (99999999999989209, (-17)); ((-45640365315296584), (-23)); ((-87007467552586196), (-24)); (45640365602965379, (-23)); (99999999999989519, (-17)); (33062523594420425, (-24)); (87007452462720485, (-24)); ((-33062563320267193), (-24)); (99999999999999578, (-17))];
  [(24515456377575058, (-10)); (4207153206940033, (-16)); (99999999999999423, (-17)); ((-7078279744199198), (-23)); (80562171469761338, (-24)); (70782794778573375, (-24)); (99999999999999689, (-17)); (33060414542221364, (-24)); ((-80562173809869717), (-24)); ((-33060408839805517), (-24)); (99999999999999623, (-17)); (99999999999975042, (-17)); ((-64799080606779152), (-23)); ((-28158117844617984), (-23)); (64799080606879007, (-23)); (99999999999978995, (-17)); (34548208993380743, (-28)); (28158117844388205, (-23)); ((-36373126732769379), (-28)); (99999999999996025, (-17)); (99999999999972145, (-17)); ((-7187735942005749), (-22)); ((-20101902839928223), (-23)); (71877360084706646, (-23)); (99999999999974098, (-17)); (33063921566660187, (-24)); (20101900463375645, (-23)); ((-33064066083580995), (-24)); (99999999999997913, (-17))];
  [(24515459091946827, (-10)); (82121429500256327, (-17)); (99999999999999423, (-17)); ((-7078279744199198), (-23)); (80562171469761338, (-24)); (70782794778573375, (-24)); (99999999999999689, (-17)); (33060414542221364, (-24)); ((-80562173809869717), (-24)); ((-33060408839805517), (-24)); (99999999999999623, (-17)); (99999999999933287, (-17)); ((-10593461509174958), (-22)); ((-46033359105521744), (-23)); (10593461509201644, (-22)); (99999999999943889, (-17)); (55533965919076361, (-28)); (46033359104907613, (-23)); ((-60411120550440955), (-28)); (99999999999989408, (-17)); (99999999999928924, (-17)); ((-11301289331406204), (-22)); ((-379771454607931), (-21)); (11301289456982445, (-22)); (99999999999936084, (-17)); (33066053282020983, (-24)); (3797714172387847, (-22)); ((-33066482535556388), (-24)); (99999999999992739, (-17))];
  [(24515455950588849, (-10)); (5418568474600578, (-16)); (99999999999999423, (-17)); ((-7078279744199198), (-23)); (80562171469761338, (-24)); (70782794778573375, (-24)); (99999999999999689, (-17)); (33060414542221364, (-24)); ((-80562173809869717), (-24)); ((-33060408839805517), (-24)); (99999999999999623, (-17)); (99999999999971201, (-17)); ((-69601308974302146), (-23)); ((-30244902238049817), (-23)); (69601308974417353, (-23)); (99999999999975775, (-17)); (3703630537508687, (-27)); (30244902237784712, (-23)); ((-39141467844672206), (-28)); (99999999999995426, (-17)); (99999999999968125, (-17)); ((-76679587718590265), (-23)); ((-22188687392124015), (-23)); (76679588452242738, (-23)); (99999999999970535, (-17)); (33064174245076741, (-24)); (2218868485677023, (-22)); ((-33064344394776356), (-24)); (9999999999999748, (-16))];
  [(24515450353173376, (-10)); (9343674619384823, (-16)); (99999999999999423, (-17)); ((-7078279744199198), (-23)); (80562171469761338, (-24)); (70782794778573375, (-24)); (99999999999999689, (-17)); (33060414542221364, (-24)); ((-80562173809869717), (-24)); ((-33060408839805517), (-24)); (99999999999999623, (-17)); (9999999999997905, (-16)); ((-59363530052402134), (-23)); ((-25796126447025347), (-23)); (59363530052485948, (-23)); (99999999999982381, (-17)); (31721465288008731, (-28)); (25796126446832488, (-23)); ((-33252289810548064), (-28)); (99999999999996669, (-17)); (99999999999976352, (-17)); ((-6644180894376918), (-22)); ((-17739911262633718), (-23)); (66441809530316139, (-23)); (99999999999977873, (-17)); (33063634513293218, (-24)); (17739909065822101, (-23)); ((-33063752328005407), (-24)); (99999999999998368, (-17))];
  [(24515454986903351, (-10)); (91321737313132489, (-17)); (99999999999999423, (-17)); ((-7078279744199198), (-23)); (80562171469761338, (-24)); (70782794778573375, (-24)); (99999999999999689, (-17)); (33060414542221364, (-24)); ((-80562173809869717), (-24)); ((-33060408839805517), (-24)); (99999999999999623, (-17)); (9999999999995558, (-16)); ((-86436155350953914), (-23)); ((-37560400756800646), (-23)); (8643615535113159, (-22)); (99999999999962619, (-17)); (45678117537374737, (-28)); (37560400756391788, (-23)); ((-48925308249181398), (-28)); (99999999999992939, (-17)); (99999999999951916, (-17)); ((-93514433853387497), (-23)); ((-29504186467443078), (-23)); (93514434828948981, (-23)); (99999999999956191, (-17)); (33065051988806428, (-24)); (29504183375370533, (-23)); ((-33065327956930483), (-24)); (99999999999995592, (-17))];
  [(24515457748984983, (-10)); (15864493666324608, (-17)); (99999999999999423, (-17)); ((-7078279744199198), (-23)); (80562171469761338, (-24)); (70782794778573375, (-24)); (99999999999999689, (-17)); (33060414542221364, (-24)); ((-80562173809869717), (-24)); ((-33060408839805517), (-24)); (99999999999999623, (-17)); (99999999999980593, (-17)); ((-57150977067207737), (-23)); ((-24834672575023995), (-23)); (5715097706728542, (-22)); (9999999999998368, (-16)); (30566021924389288, (-28)); (2483467257484525, (-22)); ((-31984970227938447), (-28)); (99999999999996914, (-17)); (99999999999977973, (-17)); ((-64229255990360954), (-23)); ((-16778457317484322), (-23)); (64229256545116649, (-23)); (99999999999979328, (-17)); (33063517186476552, (-24)); (16778455193835742, (-23)); ((-33063624915503276), (-24)); (99999999999998535, (-17))];
  [(24515450180022051, (-10)); (50950227551180527, (-17)); (99999999999999423, (-17)); ((-7078279744199198), (-23)); (80562171469761338, (-24)); (70782794778573375, (-24)); (99999999999999689, (-17)); (33060414542221364, (-24)); ((-80562173809869717), (-24)); ((-33060408839805517), (-24)); (99999999999999623, (-17)); (99999999999993794, (-17)); ((-32293512268394818), (-23)); ((-1403298507281123), (-22)); (32293512268419615, (-23)); (99999999999994782, (-17)); (17445971243067968, (-28)); (14032985072754161, (-23)); ((-17899570714519086), (-28)); (99999999999999012, (-17)); (99999999999992062, (-17)); ((-39371791548657253), (-23)); ((-59767689934724461), (-24)); (39371791746262342, (-23)); (99999999999992184, (-17)); (33062185155698669, (-24)); (59767676917545157, (-24)); ((-33062208729816043), (-24)); (99999999999999767, (-17))];
  [(24515458578521134, (-10)); (16049421739296765, (-17)); (99999999999999423, (-17)); ((-7078279744199198), (-23)); (80562171469761338, (-24)); (70782794778573375, (-24)); (99999999999999689, (-17)); (33060414542221364, (-24)); ((-80562173809869717), (-24)); ((-33060408839805517), (-24)); (99999999999999623, (-17)); (99999999999976896, (-17)); ((-62342560248990506), (-23)); ((-27090649169444077), (-23)); (62342560249082939, (-23)); (9999999999998056, (-16)); (33272252215094568, (-28)); (27090649169231381, (-23)); ((-34962033268470805), (-28)); (99999999999996325, (-17)); (99999999999974098, (-17)); ((-69420839097559942), (-23)); ((-1903443408354059), (-22)); (69420839726911733, (-23)); (99999999999975842, (-17)); (33063791991956731, (-24)); (19034431788219798, (-23)); ((-33063924218650471), (-24)); (99999999999998135, (-17))];
  [(24515451454109033, (-10)); (66834498718534252, (-17)); (99999999999999423, (-17)); ((-7078279744199198), (-23)); (80562171469761338, (-24)); (70782794778573375, (-24)); (99999999999999689, (-17)); (33060414542221364, (-24)); ((-80562173809869717), (-24)); ((-33060408839805517), (-24)); (99999999999999623, (-17)); (99999999999985245, (-17)); ((-49817654374124307), (-23)); ((-21648013742172181), (-23)); (49817654374183324, (-23)); (99999999999987588, (-17)); (26722760127976858, (-28)); (21648013742036364, (-23)); ((-27801649871150858), (-28)); (99999999999997657, (-17)); (9999999999998288, (-16)); ((-56895933402630117), (-23)); ((-13591798242189457), (-23)); (56895933852017973, (-23)); (99999999999983746, (-17)); (33063126952414199, (-24)); (13591796361029781, (-23)); ((-33063204327861574), (-24)); (99999999999999023, (-17))];
  [(24515454080836708, (-10)); (85238165110357855, (-17)); (99999999999999423, (-17)); ((-7078279744199198), (-23)); (80562171469761338, (-24)); (70782794778573375, (-24)); (99999999999999689, (-17)); (33060414542221364, (-24)); ((-80562173809869717), (-24)); ((-33060408839805517), (-24)); (99999999999999623, (-17)); (99999999999964606, (-17)); ((-771649418767037), (-21)); ((-33531641194512197), (-23)); (77164941876845302, (-23)); (99999999999970235, (-17)); (40934846978970661, (-28)); (33531641194186339, (-23)); ((-43522407899843074), (-28)); (99999999999994371, (-17)); (99999999999961264, (-17)); ((-84243220512330387), (-23)); ((-25475426598643751), (-23)); (84243221354667108, (-23)); (99999999999964462, (-17)); (3306457019266221, (-23)); (25475423813168821, (-23)); ((-33064784815227306), (-24)); (99999999999996692, (-17))];
  [(24515454470260167, (-10)); (16882163340758483, (-17)); (99999999999999423, (-17)); ((-7078279744199198), (-23)); (80562171469761338, (-24)); (70782794778573375, (-24)); (99999999999999689, (-17)); (33060414542221364, (-24)); ((-80562173809869717), (-24)); ((-33060408839805517), (-24)); (99999999999999623, (-17)); (99999999999991551, (-17)); ((-37701828874908402), (-23)); ((-16383142123477543), (-23)); (37701828874942204, (-23)); (99999999999992895, (-17)); (20323490584595868, (-28)); (16383142123399754, (-23)); ((-20941026690479703), (-28)); (99999999999998657, (-17)); (99999999999989631, (-17)); ((-44780108077473511), (-23)); ((-83269262229401205), (-24)); (44780108352782449, (-23)); (99999999999989919, (-17)); (33062477264689496, (-24)); (8326924742397972, (-23)); ((-33062514538920425), (-24)); (999999999999996, (-15))];
  [(24515458397123003, (-10)); (78952921641847118, (-17)); (99999999999999423, (-17)); ((-7078279744199198), (-23)); (80562171469761338, (-24)); (70782794778573375, (-24)); (99999999999999689, (-17)); (33060414542221364, (-24)); ((-80562173809869717), (-24)); ((-33060408839805517), (-24)); (99999999999999623, (-17)); (9999999999994087, (-16)); ((-9974120282882976), (-22)); ((-43342042730958926), (-23)); (99741202829066336, (-23)); (99999999999950262, (-17)); (52421854530266548, (-28)); (43342042730414511, (-23)); ((-56745164123128689), (-28)); (99999999999990608, (-17)); (99999999999936728, (-17)); ((-10681948114011882), (-22)); ((-35285828881472905), (-23)); (10681948230687735, (-22)); (9999999999994289, (-16)); (33065737081336801, (-24)); (35285825349387883, (-23)); ((-33066114034925038), (-24)); (99999999999993727, (-17))];
  [(24515452964508301, (-10)); (63177995522314401, (-19)); (99999999999999423, (-17)); ((-7078279744199198), (-23)); (80562171469761338, (-24)); (70782794778573375, (-24)); (99999999999999689, (-17)); (33060414542221364, (-24)); ((-80562173809869717), (-24)); ((-33060408839805517), (-24)); (99999999999999623, (-17)); (99999999999997957, (-17)); ((-18535316375238725), (-23)); ((-805442952990346), (-22)); (18535316375246893, (-23)); (99999999999998279, (-17)); (10068954187599101, (-28)); (80544295298846586, (-24)); ((-10218492718649941), (-28)); (99999999999999667, (-17)); (99999999999996714, (-17)); ((-25613595853154988), (-23)); (17870042872968495, (-27)); (25613595853095892, (-23)); (99999999999996658, (-17)); (33061436370092915, (-24)); ((-1787851109565834), (-26)); ((-33061436390227808), (-24)); (99999999999999933, (-17))];
  [(24515450160214389, (-10)); (77768478378473849, (-17)); (99999999999999423, (-17)); ((-7078279744199198), (-23)); (80562171469761338, (-24)); (70782794778573375, (-24)); (99999999999999689, (-17)); (33060414542221364, (-24)); ((-80562173809869717), (-24)); ((-33060408839805517), (-24)); (99999999999999623, (-17)); (99999999999985967, (-17)); ((-48590225560913655), (-23)); ((-21114640666864052), (-23)); (48590225560969813, (-23)); (99999999999988198, (-17)); (26077600459045082, (-28)); (21114640666734848, (-23)); ((-27103874700173947), (-28)); (9999999999999778, (-16)); (99999999999983646, (-17)); ((-5566850460705306), (-22)); ((-13058425126301968), (-23)); (55668505038805034, (-23)); (99999999999984446, (-17)); (33063061447604197, (-24)); (13058423285728749, (-23)); ((-33063134172808134), (-24)); (99999999999999101, (-17))];
  [(24515450866556186, (-10)); (75009432533733844, (-17)); (99999999999999423, (-17)); ((-7078279744199198), (-23)); (80562171469761338, (-24)); (70782794778573375, (-24)); (99999999999999689, (-17)); (33060414542221364, (-24)); ((-80562173809869717), (-24)); ((-33060408839805517), (-24)); (99999999999999623, (-17)); (99999999999984401, (-17)); ((-5122533674160649), (-22)); ((-22259715101032047), (-23)); (51225336741668884, (-23)); (99999999999986866, (-17)); (27462865189485458, (-28)); (22259715100888449, (-23)); ((-28603230894930221), (-28)); (99999999999997513, (-17)); (99999999999981992, (-17)); ((-58303615749889144), (-23)); ((-14203499647587955), (-23)); (58303616219502866, (-23)); (99999999999982925, (-17)); (33063202096979596, (-24)); (14203497719881299, (-23)); ((-3306328491894324), (-23)); (99999999999998934, (-17))];
  [(24515453701414252, (-10)); (52812054194205238, (-17)); (99999999999999423, (-17)); ((-7078279744199198), (-23)); (80562171469761338, (-24)); (70782794778573375, (-24)); (99999999999999689, (-17)); (33060414542221364, (-24)); ((-80562173809869717), (-24)); ((-33060408839805517), (-24)); (99999999999999623, (-17)); (99999999999982025, (-17)); ((-5499106645072415), (-22)); ((-23896094181021564), (-23)); (54991066450796074, (-23)); (99999999999984879, (-17)); (29436129178069766, (-28)); (23896094180856075, (-23)); ((-30749847113042961), (-28)); (99999999999997147, (-17)); (99999999999979472, (-17)); ((-62069345404907266), (-23)); ((-1583987885207424), (-22)); (62069345928628309, (-23)); (99999999999980671, (-17)); (33063402457131425, (-24)); (15839876799847433, (-23)); ((-33063500738839818), (-24)); (9999999999999869, (-16))];
  [(2451545284530269, (-9)); (58086731497198019, (-17)); (99999999999999423, (-17)); ((-7078279744199198), (-23)); (80562171469761338, (-24)); (70782794778573375, (-24)); (99999999999999689, (-17)); (33060414542221364, (-24)); ((-80562173809869717), (-24)); ((-33060408839805517), (-24)); (99999999999999623, (-17)); (99999999999983313, (-17)); ((-52979128333294052), (-23)); ((-23021816498188103), (-23)); (52979128333360787, (-23)); (99999999999985967, (-17)); (28382311552086024, (-28)); (23021816498034504, (-23)); ((-29601876505580549), (-28)); (99999999999997358, (-17)); (99999999999980838, (-17)); ((-60057407316381235), (-23)); ((-14965601102725171), (-23)); (60057407811193954, (-23)); (99999999999981903, (-17)); (33063295454508146, (-24)); (14965599117026659, (-23)); ((-33063385322940943), (-24)); (99999999999998834, (-17))];
  [(24515452001107973, (-10)); (28971653923480067, (-17)); (99999999999999423, (-17)); ((-7078279744199198), (-23)); (80562171469761338, (-24)); (70782794778573375, (-24)); (99999999999999689, (-17)); (33060414542221364, (-24)); ((-80562173809869717), (-24)); ((-33060408839805517), (-24)); (99999999999999623, (-17)); (9999999999999466, (-16)); ((-2998693978819868), (-22)); ((-13030675485328499), (-23)); (29986939788220057, (-23)); (99999999999995504, (-17)); (16214035971473277, (-28)); (13030675485279291, (-23)); ((-16605050667806154), (-28)); (99999999999999156, (-17)); (99999999999993017, (-17)); ((-37065219101597944), (-23)); ((-49744593297334047), (-24)); (37065219266063843, (-23)); (99999999999993072, (-17)); (33062060103946872, (-24)); (49744581042805606, (-24)); ((-33062078568348652), (-24)); (99999999999999833, (-17))];
  [(24515452333774501, (-10)); (29310773308895, (-14)); (99999999999999423, (-17)); ((-7078279744199198), (-23)); (80562171469761338, (-24)); (70782794778573375, (-24)); (99999999999999689, (-17)); (33060414542221364, (-24)); ((-80562173809869717), (-24)); ((-33060408839805517), (-24)); (99999999999999623, (-17)); (99999999999993827, (-17)); ((-32231111487924481), (-23)); ((-14005869124348112), (-23)); (32231111487949183, (-23)); (99999999999994793, (-17)); (17412660549167352, (-28)); (1400586912429126, (-22)); ((-17864043577731081), (-28)); (99999999999999012, (-17)); (99999999999992106, (-17)); ((-39309390769083379), (-23)); ((-59496530429463302), (-24)); (39309390965791937, (-23)); (99999999999992206, (-17)); (33062181774357861, (-24)); (5949651743291641, (-23)); ((-33062205157908935), (-24)); (99999999999999767, (-17))];
  [(24515455317609794, (-10)); (66749543033799108, (-17)); (99999999999999423, (-17)); ((-7078279744199198), (-23)); (80562171469761338, (-24)); (70782794778573375, (-24)); (99999999999999689, (-17)); (33060414542221364, (-24)); ((-80562173809869717), (-24)); ((-33060408839805517), (-24)); (99999999999999623, (-17)); (99999999999967959, (-17)); ((-73417768424896103), (-23)); ((-31903325660329252), (-23)); (7341776842502428, (-22)); (99999999999973044, (-17)); (39006383695606526, (-28)); (31903325660034278, (-23)); ((-4134914632913933), (-27)); (99999999999994904, (-17)); (99999999999964762, (-17)); ((-8049604711435581), (-22)); ((-23847110940577435), (-23)); (80496047902847864, (-23)); (99999999999967537, (-17)); (33064374327530499, (-24)); (23847108279018258, (-23)); ((-33064566336503121), (-24)); (99999999999997102, (-17))];
  [(24515451151209543, (-10)); (1468542086125062, (-16)); (99999999999999423, (-17)); ((-7078279744199198), (-23)); (80562171469761338, (-24)); (70782794778573375, (-24)); (99999999999999689, (-17)); (33060414542221364, (-24)); ((-80562173809869717), (-24)); ((-33060408839805517), (-24)); (99999999999999623, (-17)); (99999999999998479, (-17)); ((-1603796447601016), (-22)); ((-69692176887837823), (-24)); (16037964476016277, (-23)); (99999999999998723, (-17)); (87210575918969214, (-29)); (69692176887697056, (-24)); ((-88329343839177454), (-29)); (99999999999999756, (-17)); (99999999999997335, (-17)); ((-23116243989804015), (-23)); (10869989279705013, (-24)); (23116243953866406, (-23)); (9999999999999728, (-16)); (33061299568512573, (-24)); ((-10869996922235381), (-24)); ((-33061297066251072), (-24)); (99999999999999944, (-17))];
  [(24515452560466896, (-10)); (70933069883814837, (-17)); (99999999999999423, (-17)); ((-7078279744199198), (-23)); (80562171469761338, (-24)); (70782794778573375, (-24)); (99999999999999689, (-17)); (33060414542221364, (-24)); ((-80562173809869717), (-24)); ((-33060408839805517), (-24)); (99999999999999623, (-17)); (99999999999979239, (-17)); ((-59099832888177338), (-23)); ((-25681538158671428), (-23)); (59099832888260389, (-23)); (99999999999982536, (-17)); (31583766574819325, (-28)); (2568153815848029, (-22)); ((-3310074436768673), (-27)); (99999999999996703, (-17)); (99999999999976541, (-17)); ((-66178111783332739), (-23)); ((-17625322965561845), (-23)); (66178112366090708, (-23)); (9999999999997804, (-16)); (33063620530981782, (-24)); (17625320777470003, (-23)); ((-33063737092352329), (-24)); (9999999999999839, (-16))];
  [(24515455145127689, (-10)); (64377634285735974, (-17)); (99999999999999423, (-17)); ((-7078279744199198), (-23)); (80562171469761338, (-24)); (70782794778573375, (-24)); (99999999999999689, (-17)); (33060414542221364, (-24)); ((-80562173809869717), (-24)); ((-33060408839805517), (-24)); (99999999999999623, (-17)); (99999999999970113, (-17)); ((-70909774637847369), (-23)); ((-30813489467396428), (-23)); (70909774637966938, (-23)); (99999999999974853, (-17)); (37712058877937708, (-28)); (30813489467121269, (-23)); ((-39896974612929625), (-28)); (99999999999995248, (-17)); (99999999999967004, (-17)); ((-77988053363337677), (-23)); ((-22757274664729128), (-23)); (77988054115791709, (-23)); (99999999999969524, (-17)); (33064242874555081, (-24)); (2275727208610626, (-22)); ((-33064420347915076), (-24)); (99999999999997358, (-17))];
  [(2451545913366823, (-9)); (65877670545059452, (-17)); (99999999999999423, (-17)); ((-7078279744199198), (-23)); (80562171469761338, (-24)); (70782794778573375, (-24)); (99999999999999689, (-17)); (33060414542221364, (-24)); ((-80562173809869717), (-24)); ((-33060408839805517), (-24)); (99999999999999623, (-17)); (99999999999944933, (-17)); ((-96245697681669656), (-23)); ((-41823088419251856), (-23)); (96245697681889927, (-23)); (99999999999953681, (-17)); (50657029029360802, (-28)); (41823088418744928, (-23)); ((-5468292485488746), (-27)); (99999999999991251, (-17)); (99999999999940903, (-17)); ((-10332397604317625), (-22)); ((-33766874454202663), (-23)); (10332397715970264, (-22)); (99999999999946554, (-17)); (33065557782732983, (-24)); (33766871037719712, (-23)); ((-33065906735840076), (-24)); (99999999999994238, (-17))];
  [(24515451847071201, (-10)); (36711117304073038, (-17)); (99999999999999423, (-17)); ((-7078279744199198), (-23)); (80562171469761338, (-24)); (70782794778573375, (-24)); (99999999999999689, (-17)); (33060414542221364, (-24)); ((-80562173809869717), (-24)); ((-33060408839805517), (-24)); (99999999999999623, (-17)); (99999999999993217, (-17)); ((-33781989495877377), (-23)); ((-146797954407312), (-21)); (33781989495904514, (-23)); (99999999999994293, (-17)); (18238768267204717, (-28)); (14679795440668747, (-23)); ((-18734458429037204), (-28)); (99999999999998912, (-17)); (9999999999999144, (-16)); ((-40860268754755952), (-23)); ((-66235794106021346), (-24)); (40860268973746554, (-23)); (99999999999991596, (-17)); (33062265634550501, (-24)); (66235780596685168, (-24)); ((-33062292676417935), (-24)); (99999999999999722, (-17))];
  [(24515457142545315, (-10)); (25121146974795905, (-17)); (99999999999999423, (-17)); ((-7078279744199198), (-23)); (80562171469761338, (-24)); (70782794778573375, (-24)); (99999999999999689, (-17)); (33060414542221364, (-24)); ((-80562173809869717), (-24)); ((-33060408839805517), (-24)); (99999999999999623, (-17)); (99999999999979228, (-17)); ((-59105257715871181), (-23)); ((-2568389549050667), (-22)); (59105257715954265, (-23)); (99999999999982525, (-17)); (31585987658409409, (-28)); (25683895490315495, (-23)); ((-33104630148272918), (-28)); (99999999999996692, (-17)); (9999999999997653, (-16)); ((-66183536610948645), (-23)); ((-17627680297576436), (-23)); (66183537193784583, (-23)); (99999999999978029, (-17)); (33063620757460499, (-24)); (17627678109305209, (-23)); ((-3306373748259897), (-23)); (99999999999998379, (-17))];
  [(24515452304777238, (-10)); (5627644130507351, (-16)); (99999999999999423, (-17)); ((-7078279744199198), (-23)); (80562171469761338, (-24)); (70782794778573375, (-24)); (99999999999999689, (-17)); (33060414542221364, (-24)); ((-80562173809869717), (-24)); ((-33060408839805517), (-24)); (99999999999999623, (-17)); (99999999999985989, (-17)); ((-4856181449946778), (-22)); ((-21102294781662856), (-23)); (48561814499523875, (-23)); (99999999999988221, (-17)); (26062609703948214, (-28)); (21102294781533802, (-23)); ((-27086666243292257), (-28)); (99999999999997768, (-17)); (99999999999983669, (-17)); ((-55640093546015349), (-23)); ((-13046079240161488), (-23)); (55640093977359106, (-23)); (99999999999984468, (-17)); (33063059925640138, (-24)); (13046077400527717, (-23)); ((-3306313244322368), (-23)); (9999999999999909, (-16))];
  [(24515459109991663, (-10)); (67639688491464967, (-17)); (99999999999999423, (-17)); ((-7078279744199198), (-23)); (80562171469761338, (-24)); (70782794778573375, (-24)); (99999999999999689, (-17)); (33060414542221364, (-24)); ((-80562173809869717), (-24)); ((-33060408839805517), (-24)); (99999999999999623, (-17)); (99999999999943867, (-17)); ((-97179448124751504), (-23)); ((-42228845013135808), (-23)); (97179448124976095, (-23)); (99999999999952793, (-17)); (51130163605108874, (-28)); (42228845012618996, (-23)); ((-55233595475101538), (-28)); (99999999999991085, (-17)); (99999999999939804, (-17)); ((-10425772647284355), (-22)); ((-34172631078956879), (-23)); (10425772760278836, (-22)); (99999999999945599, (-17)); (33065605848439905, (-24)); (34172627631593405, (-23)); ((-33065962090107908), (-24)); (99999999999994105, (-17))];
  [(24515451573801548, (-10)); (43746570255247652, (-17)); (99999999999999423, (-17)); ((-7078279744199198), (-23)); (80562171469761338, (-24)); (70782794778573375, (-24)); (99999999999999689, (-17)); (33060414542221364, (-24)); ((-80562173809869717), (-24)); ((-33060408839805517), (-24)); (99999999999999623, (-17)); (99999999999992117, (-17)); ((-36416111542278476), (-23)); ((-15824440059339488), (-23)); (36416111542310013, (-23)); (99999999999993372, (-17)); (19640053567966878, (-28)); (15824440059266918, (-23)); ((-20216606166911788), (-28)); (99999999999998745, (-17)); (99999999999990241, (-17)); ((-43494390763314547), (-23)); ((-77682241162956719), (-24)); (43494391020150845, (-23)); (99999999999990485, (-17)); (33062407885186199, (-24)); (77682226782656451, (-24)); ((-33062441701403142), (-24)); (99999999999999645, (-17))];
  [(24515452485606405, (-10)); (70216465457374078, (-17)); (99999999999999423, (-17)); ((-7078279744199198), (-23)); (80562171469761338, (-24)); (70782794778573375, (-24)); (99999999999999689, (-17)); (33060414542221364, (-24)); ((-80562173809869717), (-24)); ((-33060408839805517), (-24)); (99999999999999623, (-17)); (99999999999979861, (-17)); ((-58202840390035919), (-23)); ((-25291754539427754), (-23)); (58202840390116471, (-23)); (99999999999983058, (-17)); (31114592734644775, (-28)); (2529175453924237, (-22)); ((-32587266218797595), (-28)); (99999999999996803, (-17)); (99999999999977207, (-17)); ((-65281119298077772), (-23)); ((-17235539316663177), (-23)); (65281119867947213, (-23)); (99999999999978628, (-17)); (330635728909613, (-22)); (17235537158232444, (-23)); ((-3306368546863772), (-23)); (99999999999998468, (-17))];
  [(24515453805516218, (-10)); (68624140293278457, (-17)); (99999999999999423, (-17)); ((-7078279744199198), (-23)); (80562171469761338, (-24)); (70782794778573375, (-24)); (99999999999999689, (-17)); (33060414542221364, (-24)); ((-80562173809869717), (-24)); ((-33060408839805517), (-24)); (99999999999999623, (-17)); (99999999999974654, (-17)); ((-65308438229787188), (-23)); ((-28379456660283115), (-23)); (65308438229888599, (-23)); (99999999999978673, (-17)); (34812507961903781, (-28)); (28379456660049704, (-23)); ((-36665670499758107), (-28)); (9999999999999597, (-16)); (99999999999971745, (-17)); ((-72386717035747955), (-23)); ((-20323241672432959), (-23)); (72386717707715995, (-23)); (99999999999973743, (-17)); (33063948406906496, (-24)); (2032323927903694, (-22)); ((-33064095494627488), (-24)); (99999999999997879, (-17))];
  [(24515458617614834, (-10)); (92149075133311276, (-17)); (99999999999999423, (-17)); ((-7078279744199198), (-23)); (80562171469761338, (-24)); (70782794778573375, (-24)); (99999999999999689, (-17)); (33060414542221364, (-24)); ((-80562173809869717), (-24)); ((-33060408839805517), (-24)); (99999999999999623, (-17)); (99999999999929157, (-17)); ((-10916964810537488), (-22)); ((-47439126545712307), (-23)); (1091696481056583, (-21)); (99999999999940414, (-17)); (57153362936543583, (-28)); (47439126545060102, (-23)); ((-62332361494554789), (-28)); (99999999999988753, (-17)); (99999999999924671, (-17)); ((-11624792628121181), (-22)); ((-39382913007935523), (-23)); (11624792758346474, (-22)); (99999999999932376, (-17)); (33066217827934418, (-24)); (39382909164029641, (-23)); ((-33066675654692107), (-24)); (99999999999992195, (-17))];
  [(24515457857213519, (-10)); (81861352998416059, (-17)); (99999999999999423, (-17)); ((-7078279744199198), (-23)); (80562171469761338, (-24)); (70782794778573375, (-24)); (99999999999999689, (-17)); (33060414542221364, (-24)); ((-80562173809869717), (-24)); ((-33060408839805517), (-24)); (99999999999999623, (-17)); (99999999999942657, (-17)); ((-98216433338103925), (-23)); ((-42679461760901875), (-23)); (98216433338333323, (-23)); (99999999999951772, (-17)); (51652169878551605, (-28)); (42679461760373977, (-23)); ((-55844773250157687), (-28)); (99999999999990896, (-17)); (99999999999938571, (-17)); ((-10529471167129829), (-22)); ((-34623247861006202), (-23)); (10529471281614506, (-22)); (99999999999944511, (-17)); (33065658884484711, (-24)); (34623244379347963, (-23)); ((-33066023526844491), (-24)); (9999999999999396, (-16))];
  [(24515450404421869, (-10)); (87217896148438634, (-17)); (99999999999999423, (-17)); ((-7078279744199198), (-23)); (80562171469761338, (-24)); (70782794778573375, (-24)); (99999999999999689, (-17)); (33060414542221364, (-24)); ((-80562173809869717), (-24)); ((-33060408839805517), (-24)); (99999999999999623, (-17)); (99999999999981437, (-17)); ((-55870127042118194), (-23)); ((-24278085580132513), (-23)); (55870127042192426, (-23)); (99999999999984379, (-17)); (29896413513009396, (-28)); (24278085579961688, (-23)); ((-31253333254710469), (-28)); (99999999999997047, (-17)); (99999999999978861, (-17)); ((-62948405983672472), (-23)); ((-16221870280247344), (-23)); (62948406520024248, (-23)); (99999999999980116, (-17)); (33063449193755052, (-24)); (16221868198952693, (-23)); ((-33063551357838144), (-24)); (99999999999998623, (-17))];
  [(24515454883621102, (-10)); (46524162670134506, (-17)); (99999999999999423, (-17)); ((-7078279744199198), (-23)); (80562171469761338, (-24)); (70782794778573375, (-24)); (99999999999999689, (-17)); (33060414542221364, (-24)); ((-80562173809869717), (-24)); ((-33060408839805517), (-24)); (99999999999999623, (-17)); (99999999999979738, (-17)); ((-58379056899568872), (-23)); ((-25368328545353091), (-23)); (58379056899649933, (-23)); (99999999999982958, (-17)); (31207316782275254, (-28)); (25368328545166585, (-23)); ((-32688851625550797), (-28)); (9999999999999678, (-16)); (99999999999977074, (-17)); ((-65457335805079145), (-23)); ((-17312113328414317), (-23)); (6545733637748058, (-22)); (99999999999978517, (-17)); (33063582305329877, (-24)); (17312111164156585, (-23)); ((-33063695681379617), (-24)); (99999999999998446, (-17))];
  [(24515456087351507, (-10)); (15356336197982778, (-17)); (99999999999999423, (-17)); ((-7078279744199198), (-23)); (80562171469761338, (-24)); (70782794778573375, (-24)); (99999999999999689, (-17)); (33060414542221364, (-24)); ((-80562173809869717), (-24)); ((-33060408839805517), (-24)); (99999999999999623, (-17)); (99999999999987044, (-17)); ((-46667464115458593), (-23)); ((-20279114259993458), (-23)); (46667464115510389, (-23)); (99999999999989109, (-17)); (25064339848178323, (-28)); (20279114259874281, (-23)); ((-26011415243942793), (-28)); (99999999999997946, (-17)); (9999999999998479, (-16)); ((-53745743189220923), (-23)); ((-12222898655864002), (-23)); (53745743593346494, (-23)); (99999999999985489, (-17)); (33062958572525043, (-24)); (12222896878868944, (-23)); ((-33063024335453599), (-24)); (99999999999999201, (-17))];
  [(2451545229977136, (-9)); (56489475095878594, (-17)); (99999999999999423, (-17)); ((-7078279744199198), (-23)); (80562171469761338, (-24)); (70782794778573375, (-24)); (99999999999999689, (-17)); (33060414542221364, (-24)); ((-80562173809869717), (-24)); ((-33060408839805517), (-24)); (99999999999999623, (-17)); (99999999999985922, (-17)); ((-48661586841196294), (-23)); ((-21145650355672695), (-23)); (486615868412526, (-21)); (99999999999988165, (-17)); (26115354941847614, (-28)); (21145650355543112, (-23)); ((-27144397840572765), (-28)); (99999999999997757, (-17)); (99999999999983602, (-17)); ((-55739865886310503), (-23)); ((-13089434817469851), (-23)); (55739866319087779, (-23)); (99999999999984412, (-17)); (33063065280542666, (-24)); (13089432974536984, (-23)); ((-3306313824707169), (-23)); (99999999999999079, (-17))];
  [(24515452373775644, (-10)); (26936616659887991, (-17)); (99999999999999423, (-17)); ((-7078279744199198), (-23)); (80562171469761338, (-24)); (70782794778573375, (-24)); (99999999999999689, (-17)); (33060414542221364, (-24)); ((-80562173809869717), (-24)); ((-33060408839805517), (-24)); (99999999999999623, (-17)); (99999999999994282, (-17)); ((-31022551455946968), (-23)); ((-1348069537965633), (-22)); (31022551455969854, (-23)); (99999999999995193, (-17)); (1676754496695917, (-27)); (13480695379603663, (-23)); ((-17185142198172798), (-28)); (9999999999999909, (-16)); (99999999999992595, (-17)); ((-38100830754468363), (-23)); ((-54244792582990179), (-24)); (38100830933813164, (-23)); (99999999999992684, (-17)); (33062116289157566, (-24)); (54244779986045241, (-24)); ((-33062136896038342), (-24)); (999999999999998, (-15))];
  [(24515456700740997, (-10)); (60887927857126012, (-17)); (99999999999999423, (-17)); ((-7078279744199198), (-23)); (80562171469761338, (-24)); (70782794778573375, (-24)); (99999999999999689, (-17)); (33060414542221364, (-24)); ((-80562173809869717), (-24)); ((-33060408839805517), (-24)); (99999999999999623, (-17)); (99999999999963562, (-17)); ((-78296769770388384), (-23)); ((-34023471360085549), (-23)); (78296769770534169, (-23)); (99999999999969347, (-17)); (41516778783618194, (-28)); (34023471359750055, (-23)); ((-44180215041933479), (-28)); (99999999999994216, (-17)); (99999999999960187, (-17)); ((-85375048389754886), (-23)); ((-2596725680163589), (-22)); (85375049248355434, (-23)); (99999999999963496, (-17)); (33064629297667511, (-24)); (25967253978732082, (-23)); ((-33064850944072612), (-24)); (99999999999996581, (-17))];
  [(245154504107934, (-8)); (83309196783131012, (-17)); (99999999999999423, (-17)); ((-7078279744199198), (-23)); (80562171469761338, (-24)); (70782794778573375, (-24)); (99999999999999689, (-17)); (33060414542221364, (-24)); ((-80562173809869717), (-24)); ((-33060408839805517), (-24)); (99999999999999623, (-17)); (9999999999998298, (-16)); ((-53516250526838823), (-23)); ((-2325522027083012), (-22)); (53516250526906924, (-23)); (99999999999985678, (-17)); (28663809959731514, (-28)); (23255220270673393, (-23)); ((-29908298060377092), (-28)); (99999999999997291, (-17)); (99999999999980493, (-17)); ((-60594529502209557), (-23)); ((-15199004893124696), (-23)); (60594530004739848, (-23)); (99999999999981581, (-17)); (33063324037066116, (-24)); (15199002889665332, (-23)); ((-33063416130306122), (-24)); (9999999999999879, (-16))];
  [(2451545944452323, (-9)); (93504170645889606, (-17)); (99999999999999423, (-17)); ((-7078279744199198), (-23)); (80562171469761338, (-24)); (70782794778573375, (-24)); (99999999999999689, (-17)); (33060414542221364, (-24)); ((-80562173809869717), (-24)); ((-33060408839805517), (-24)); (99999999999999623, (-17)); (99999999999921296, (-17)); ((-11506151400555282), (-22)); ((-49999407443038832), (-23)); (11506151400586766, (-22)); (99999999999933797, (-17)); (60090106117049486, (-28)); (49999407442314322, (-23)); ((-65843996921444159), (-28)); (99999999999987499, (-17)); (999999999999166, (-15)); ((-12213979209674524), (-22)); ((-41943194100050196), (-23)); (12213979348367125, (-22)); (99999999999925338, (-17)); (33066516248865399, (-24)); (41943190061281463, (-23)); ((-33067028630472818), (-24)); (99999999999991152, (-17))];
  [(245154525916926, (-8)); (96732652815537556, (-17)); (99999999999999423, (-17)); ((-7078279744199198), (-23)); (80562171469761338, (-24)); (70782794778573375, (-24)); (99999999999999689, (-17)); (33060414542221364, (-24)); ((-80562173809869717), (-24)); ((-33060408839805517), (-24)); (99999999999999623, (-17)); (99999999999966493, (-17)); ((-75085347084825687), (-23)); ((-32627963650179379), (-23)); (75085347084959752, (-23)); (99999999999971811, (-17)); (39865387415768475, (-28)); (32627963649870847, (-23)); ((-42315040360563216), (-28)); (99999999999994671, (-17)); (99999999999963229, (-17)); ((-82163625750328455), (-23)); ((-24571748985558523), (-23)); (82163626562782542, (-23)); (99999999999966183, (-17)); (33064461571339686, (-24)); (24571746268854161, (-23)); ((-33064663438825231), (-24)); (99999999999996925, (-17))];
  [(24515454638565192, (-10)); (43624666644572241, (-17)); (99999999999999423, (-17)); ((-7078279744199198), (-23)); (80562171469761338, (-24)); (70782794778573375, (-24)); (99999999999999689, (-17)); (33060414542221364, (-24)); ((-80562173809869717), (-24)); ((-33060408839805517), (-24)); (99999999999999623, (-17)); (99999999999981948, (-17)); ((-55103784761409292), (-23)); ((-2394507536119637), (-22)); (55103784761481491, (-23)); (99999999999984823, (-17)); (29495538447968448, (-28)); (23945075361030203, (-23)); ((-30814795159983532), (-28)); (99999999999997136, (-17)); (99999999999979405, (-17)); ((-6218206371397306), (-22)); ((-15888860035975566), (-23)); (62182064239313673, (-23)); (99999999999980616, (-17)); (33063408488866714, (-24)); (15888857980021513, (-23)); ((-33063507268314762), (-24)); (9999999999999869, (-16))];
  [(24515459273241973, (-10)); (31899682833858778, (-17)); (99999999999999423, (-17)); ((-7078279744199198), (-23)); (80562171469761338, (-24)); (70782794778573375, (-24)); (99999999999999689, (-17)); (33060414542221364, (-24)); ((-80562173809869717), (-24)); ((-33060408839805517), (-24)); (99999999999999623, (-17)); (99999999999965394, (-17)); ((-7629903641079187), (-22)); ((-33155366293316712), (-23)); (76299036410930307, (-23)); (9999999999997089, (-16)); (40489515428200227, (-28)); (33155366292998127, (-23)); ((-43018921758175566), (-28)); (99999999999994504, (-17)); (99999999999962097, (-17)); ((-83377315058858422), (-23)); ((-25099151668821008), (-23)); (83377315888752515, (-23)); (99999999999965183, (-17)); (33064524961915105, (-24)); (25099148911980958, (-23)); ((-33064734200275276), (-24)); (99999999999996803, (-17))];
  [(24515458309618644, (-10)); (57884807290958129, (-17)); (99999999999999423, (-17)); ((-7078279744199198), (-23)); (80562171469761338, (-24)); (70782794778573375, (-24)); (99999999999999689, (-17)); (33060414542221364, (-24)); ((-80562173809869717), (-24)); ((-33060408839805517), (-24)); (99999999999999623, (-17)); (99999999999955713, (-17)); ((-86307731057338827), (-23)); ((-3750459462082093), (-22)); (86307731057515962, (-23)); (99999999999962752, (-17)); (45612592322556324, (-28)); (3750459462041329, (-22)); ((-48849813083506888), (-28)); (99999999999992961, (-17)); (99999999999952049, (-17)); ((-93386009561617385), (-23)); ((-29448380327217588), (-23)); (93386010535333417, (-23)); (99999999999956335, (-17)); (33065045332823594, (-24)); (29448377239392093, (-23)); ((-33065320367912779), (-24)); (99999999999995604, (-17))];
  [(24515457933067768, (-10)); (53892603317791821, (-17)); (99999999999999423, (-17)); ((-7078279744199198), (-23)); (80562171469761338, (-24)); (70782794778573375, (-24)); (99999999999999689, (-17)); (33060414542221364, (-24)); ((-80562173809869717), (-24)); ((-33060408839805517), (-24)); (99999999999999623, (-17)); (99999999999960465, (-17)); ((-81558505120479727), (-23)); ((-35440842185294529), (-23)); (81558505120637911, (-23)); (99999999999966749, (-17)); (43187072606927735, (-28)); (35440842184930516, (-23)); ((-46077586191017872), (-28)); (99999999999993716, (-17)); (99999999999956968, (-17)); ((-88636783692987139), (-23)); ((-27384627734679437), (-23)); (88636784598457641, (-23)); (99999999999960665, (-17)); (33064798954773811, (-24)); (2738462480391123, (-22)); ((-33065041684442076), (-24)); (99999999999996192, (-17))];
  [(24515453853010163, (-10)); (56882076782018243, (-17)); (99999999999999423, (-17)); ((-7078279744199198), (-23)); (80562171469761338, (-24)); (70782794778573375, (-24)); (99999999999999689, (-17)); (33060414542221364, (-24)); ((-80562173809869717), (-24)); ((-33060408839805517), (-24)); (99999999999999623, (-17)); (99999999999979716, (-17)); ((-58410771441244435), (-23)); ((-25382109941367029), (-23)); (58410771441325581, (-23)); (99999999999982936, (-17)); (31223418698688521, (-28)); (25382109941180322, (-23)); ((-32706060082432487), (-28)); (9999999999999678, (-16)); (99999999999977052, (-17)); ((-65489050346299089), (-23)); ((-17325894725476752), (-23)); (65489050919156217, (-23)); (99999999999978495, (-17)); (33063583941071439, (-24)); (17325892560170311, (-23)); ((-3306369741198016), (-23)); (99999999999998446, (-17))];
  [(24515451081641885, (-10)); (66214065398326216, (-17)); (99999999999999423, (-17)); ((-7078279744199198), (-23)); (80562171469761338, (-24)); (70782794778573375, (-24)); (99999999999999689, (-17)); (33060414542221364, (-24)); ((-80562173809869717), (-24)); ((-33060408839805517), (-24)); (99999999999999623, (-17)); (99999999999986788, (-17)); ((-47157606893821818), (-23)); ((-20492103362496383), (-23)); (47157606893874705, (-23)); (99999999999988887, (-17)); (25324177758253535, (-28)); (20492103362374683, (-23)); ((-26290081223123707), (-28)); (99999999999997902, (-17)); (99999999999984523, (-17)); ((-54235885960542626), (-23)); ((-1243588777457127), (-22)); (54235886371710587, (-23)); (99999999999985234, (-17)); (33062984951185645, (-24)); (12435885981369153, (-23)); ((-33063052352811146), (-24)); (99999999999999178, (-17))];
  [(24515459648795258, (-10)); (90722248034009567, (-17)); (99999999999999423, (-17)); ((-7078279744199198), (-23)); (80562171469761338, (-24)); (70782794778573375, (-24)); (99999999999999689, (-17)); (33060414542221364, (-24)); ((-80562173809869717), (-24)); ((-33060408839805517), (-24)); (99999999999999623, (-17)); (99999999999921918, (-17)); ((-11460897869881104), (-22)); ((-49802760486133649), (-23)); (11460897869912341, (-22)); (99999999999934319, (-17)); (59865182621364554, (-28)); (49802760485414825, (-23)); ((-65573102503435621), (-28)); (99999999999987599, (-17)); (99999999999917233, (-17)); ((-12168725679650474), (-22)); ((-4174654712818396), (-22)); (1216872581769272, (-21)); (99999999999925893, (-17)); (33066493391943726, (-24)); (4174654310438215, (-22)); ((-33067001401838834), (-24)); (99999999999991229, (-17))];
  [(24515456637189835, (-10)); (2166941839876253, (-16)); (99999999999999423, (-17)); ((-7078279744199198), (-23)); (80562171469761338, (-24)); (70782794778573375, (-24)); (99999999999999689, (-17)); (33060414542221364, (-24)); ((-80562173809869717), (-24)); ((-33060408839805517), (-24)); (99999999999999623, (-17)); (99999999999982736, (-17)); ((-5389837348630132), (-22)); ((-23421269898651614), (-23)); (53898373486370395, (-23)); (99999999999985478, (-17)); (28864246024378099, (-28)); (23421269898492639, (-23)); ((-30125901773203623), (-28)); (99999999999997258, (-17)); (99999999999980227, (-17)); ((-6097665245618237), (-22)); ((-15365054533579353), (-23)); (60976652964203149, (-23)); (99999999999981348, (-17)); (33063344388519071, (-24)); (15365052517484428, (-23)); ((-33063438008211962), (-24)); (99999999999998768, (-17))];
  [(24515453218388292, (-10)); (89257023403105706, (-18)); (99999999999999423, (-17)); ((-7078279744199198), (-23)); (80562171469761338, (-24)); (70782794778573375, (-24)); (99999999999999689, (-17)); (33060414542221364, (-24)); ((-80562173809869717), (-24)); ((-33060408839805517), (-24)); (99999999999999623, (-17)); (99999999999996236, (-17)); ((-25167044898421619), (-23)); ((-10936214154457313), (-23)); (25167044898436681, (-23)); (99999999999996825, (-17)); (1363472358207341, (-27)); (10936214154422652, (-23)); ((-13909429164016274), (-28)); (999999999999994, (-15)); (9999999999999476, (-16)); ((-32245324281064763), (-23)); ((-28799978395143788), (-24)); (32245324376282664, (-23)); (99999999999994738, (-17)); (33061798289696382, (-24)); (28799967734258192, (-24)); ((-33061807523680035), (-24)); (999999999999999, (-15))];
  [(24515452171880924, (-10)); (77950029892297645, (-17)); (99999999999999423, (-17)); ((-7078279744199198), (-23)); (80562171469761338, (-24)); (70782794778573375, (-24)); (99999999999999689, (-17)); (33060414542221364, (-24)); ((-80562173809869717), (-24)); ((-33060408839805517), (-24)); (99999999999999623, (-17)); (99999999999977873, (-17)); ((-61016673988355038), (-23)); ((-26514491904221761), (-23)); (61016673988443574, (-23)); (99999999999981393, (-17)); (32582085989152109, (-28)); (26514491904018023, (-23)); ((-34199865162065635), (-28)); (99999999999996492, (-17)); (99999999999975109, (-17)); ((-68094952855972541), (-23)); ((-18458276774483846), (-23)); (68094953466272993, (-23)); (99999999999976763, (-17)); (33063721907171649, (-24)); (18458274523006972, (-23)); ((-33063847594019665), (-24)); (99999999999998246, (-17))];
  [(24515451564290347, (-10)); (46703689699159379, (-17)); (99999999999999423, (-17)); ((-7078279744199198), (-23)); (80562171469761338, (-24)); (70782794778573375, (-24)); (99999999999999689, (-17)); (33060414542221364, (-24)); ((-80562173809869717), (-24)); ((-33060408839805517), (-24)); (99999999999999623, (-17)); (9999999999999134, (-16)); ((-38168215569915237), (-23)); ((-16585808139147219), (-23)); (38168215569949881, (-23)); (99999999999992717, (-17)); (20571660611241938, (-28)); (16585808139067492, (-23)); ((-21204704658828177), (-28)); (99999999999998623, (-17)); (99999999999989397, (-17)); ((-45246494765780109), (-23)); ((-85295922540287476), (-24)); (45246495047789903, (-23)); (99999999999989708, (-17)); (33062502457423351, (-24)); (85295907580655278, (-24)); ((-33062541050169919), (-24)); (99999999999999578, (-17))];
  [(24515453267710186, (-10)); (22256350761209698, (-17)); (99999999999999423, (-17)); ((-7078279744199198), (-23)); (80562171469761338, (-24)); (70782794778573375, (-24)); (99999999999999689, (-17)); (33060414542221364, (-24)); ((-80562173809869717), (-24)); ((-33060408839805517), (-24)); (99999999999999623, (-17)); (99999999999993272, (-17)); ((-33629934752998288), (-23)); ((-14613720809329797), (-23)); (33629934753025181, (-23)); (99999999999994338, (-17)); (18158266906744654, (-28)); (14613720809267903, (-23)); ((-18650081479165692), (-28)); (99999999999998934, (-17)); (99999999999991496, (-17)); ((-40708214014061318), (-23)); ((-65575047741737344), (-24)); (40708214230867294, (-23)); (99999999999991651, (-17)); (33062257461915866, (-24)); (65575034282677322, (-24)); ((-33062284191953481), (-24)); (99999999999999734, (-17))];
  [(24515450498369527, (-10)); (71473197469233973, (-17)); (99999999999999423, (-17)); ((-7078279744199198), (-23)); (80562171469761338, (-24)); (70782794778573375, (-24)); (99999999999999689, (-17)); (33060414542221364, (-24)); ((-80562173809869717), (-24)); ((-33060408839805517), (-24)); (99999999999999623, (-17)); (99999999999986977, (-17)); ((-46806457565200085), (-23)); ((-20339513171134171), (-23)); (46806457565252183, (-23)); (99999999999989042, (-17)); (25138182596608315, (-28)); (20339513171014282, (-23)); ((-26090796190203491), (-28)); (99999999999997924, (-17)); (99999999999984734, (-17)); ((-53884736636965599), (-23)); ((-122832975715999), (-21)); (53884737043088219, (-23)); (99999999999985423, (-17)); (33062966068776004, (-24)); (12283295790008892, (-23)); ((-33063032316300261), (-24)); (9999999999999919, (-16))];
  [(24515457721579704, (-10)); (55572004386555984, (-17)); (99999999999999423, (-17)); ((-7078279744199198), (-23)); (80562171469761338, (-24)); (70782794778573375, (-24)); (99999999999999689, (-17)); (33060414542221364, (-24)); ((-80562173809869717), (-24)); ((-33060408839805517), (-24)); (99999999999999623, (-17)); (9999999999996072, (-16)); ((-81291907095911639), (-23)); ((-35324993343723257), (-23)); (81291907096068785, (-23)); (9999999999996696, (-16)); (43049916898540667, (-28)); (35324993343361616, (-23)); ((-4592215496757035), (-27)); (99999999999993761, (-17)); (99999999999957234, (-17)); ((-8837018567224908), (-22)); ((-27268778884294306), (-23)); (88370186573888632, (-23)); (99999999999960898, (-17)); (33064785024425875, (-24)); (27268775962342436, (-23)); ((-33065026059318697), (-24)); (99999999999996225, (-17))];
  [(24515452261220668, (-10)); (47042905426004455, (-17)); (99999999999999423, (-17)); ((-7078279744199198), (-23)); (80562171469761338, (-24)); (70782794778573375, (-24)); (99999999999999689, (-17)); (33060414542221364, (-24)); ((-80562173809869717), (-24)); ((-33060408839805517), (-24)); (99999999999999623, (-17)); (99999999999989198, (-17)); ((-42642447665985393), (-23)); ((-1853006341222152), (-22)); (42642447666028634, (-23)); (99999999999990918, (-17)); (22940680913911568, (-28)); (18530063412122015, (-23)); ((-23730462039850408), (-28)); (99999999999998279, (-17)); (99999999999987088, (-17)); ((-49720726797572222), (-23)); ((-10473847675023185), (-23)); (49720727143866597, (-23)); (99999999999987588, (-17)); (33062742963991561, (-24)); (10473846031118279, (-23)); ((-33062795002106181), (-24)); (99999999999999389, (-17))];
  [(245154544240773, (-8)); (62844391772252861, (-17)); (99999999999999423, (-17)); ((-7078279744199198), (-23)); (80562171469761338, (-24)); (70782794778573375, (-24)); (99999999999999689, (-17)); (33060414542221364, (-24)); ((-80562173809869717), (-24)); ((-33060408839805517), (-24)); (99999999999999623, (-17)); (99999999999974454, (-17)); ((-65556904734937618), (-23)); ((-28487426541342439), (-23)); (65556904735039823, (-23)); (99999999999978517, (-17)); (34941881272207225, (-28)); (2848742654110725, (-22)); ((-36808889269934753), (-28)); (99999999999995937, (-17)); (99999999999971534, (-17)); ((-7263518353732884), (-22)); ((-20431211561706705), (-23)); (72635184212867103, (-23)); (99999999999973566, (-17)); (33063961544407492, (-24)); (20431209160094385, (-23)); ((-3306410989292859), (-23)); (99999999999997857, (-17))];
  [(24515457532695848, (-10)); (92652790518329153, (-17)); (99999999999999423, (-17)); ((-7078279744199198), (-23)); (80562171469761338, (-24)); (70782794778573375, (-24)); (99999999999999689, (-17)); (33060414542221364, (-24)); ((-80562173809869717), (-24)); ((-33060408839805517), (-24)); (99999999999999623, (-17)); (99999999999937139, (-17)); ((-1028362096790316), (-21)); ((-44686962505015334), (-23)); (10283620967928308, (-22)); (9999999999994712, (-16)); (53980120789219193, (-28)); (44686962504436599, (-23)); ((-58575366779223259), (-28)); (99999999999990019, (-17)); (99999999999932876, (-17)); ((-10991448794585678), (-22)); ((-36630748757851815), (-23)); (10991448915709259, (-22)); (99999999999939526, (-17)); (33065895401366379, (-24)); (3663074512340871, (-22)); ((-33066298007162288), (-24)); (99999999999993239, (-17))];
  [(24515455221583252, (-10)); (21388104735933555, (-17)); (99999999999999423, (-17)); ((-7078279744199198), (-23)); (80562171469761338, (-24)); (70782794778573375, (-24)); (99999999999999689, (-17)); (33060414542221364, (-24)); ((-80562173809869717), (-24)); ((-33060408839805517), (-24)); (99999999999999623, (-17)); (99999999999987932, (-17)); ((-450598950789209), (-21)); ((-19580553143551665), (-23)); (45059895078969181, (-23)); (99999999999989853, (-17)); (24217648184710331, (-28)); (1958055314344055, (-22)); ((-25099922140725539), (-28)); (9999999999999809, (-16)); (99999999999985745, (-17)); ((-52138174175778007), (-23)); ((-1152433748627524), (-22)); (52138174556806027, (-23)); (99999999999986355, (-17)); (33062872608266412, (-24)); (11524335762435851, (-23)); ((-33062932691682229), (-24)); (99999999999999289, (-17))];
  [(24515459378977078, (-10)); (39925753678337683, (-17)); (99999999999999423, (-17)); ((-7078279744199198), (-23)); (80562171469761338, (-24)); (70782794778573375, (-24)); (99999999999999689, (-17)); (33060414542221364, (-24)); ((-80562173809869717), (-24)); ((-33060408839805517), (-24)); (99999999999999623, (-17)); (99999999999960165, (-17)); ((-81859853661440633), (-23)); ((-35571791690383701), (-23)); (81859853661599991, (-23)); (99999999999966493, (-17)); (43340887457294283, (-28)); (35571791690016989, (-23)); ((-46253556540420959), (-28)); (99999999999993672, (-17)); (99999999999956657, (-17)); ((-88938132229618775), (-23)); ((-27515577249731342), (-23)); (88938133139419563, (-23)); (99999999999960387, (-17)); (33064814579031689, (-24)); (27515574308997581, (-23)); ((-33065059374166727), (-24)); (99999999999996159, (-17))];
  [(24515455871760077, (-10)); (18382260599741596, (-17)); (99999999999999423, (-17)); ((-7078279744199198), (-23)); (80562171469761338, (-24)); (70782794778573375, (-24)); (99999999999999689, (-17)); (33060414542221364, (-24)); ((-80562173809869717), (-24)); ((-33060408839805517), (-24)); (99999999999999623, (-17)); (99999999999986766, (-17)); ((-47200079159500518), (-23)); ((-20510559473952863), (-23)); (47200079159553494, (-23)); (99999999999988864, (-17)); (25346386203205159, (-28)); (20510559473830943, (-23)); ((-26313951018153148), (-28)); (99999999999997891, (-17)); (99999999999984501, (-17)); ((-54278358225611149), (-23)); ((-12454343887431901), (-23)); (54278358637389345, (-23)); (99999999999985212, (-17)); (33062987206246708, (-24)); (12454342092825395, (-23)); ((-33063054752854405), (-24)); (99999999999999167, (-17))];
  [(24515459628424658, (-10)); (7486870966060053, (-16)); (99999999999999423, (-17)); ((-7078279744199198), (-23)); (80562171469761338, (-24)); (70782794778573375, (-24)); (99999999999999689, (-17)); (33060414542221364, (-24)); ((-80562173809869717), (-24)); ((-33060408839805517), (-24)); (99999999999999623, (-17)); (99999999999934741, (-17)); ((-10477882842820357), (-22)); ((-45531117782412658), (-23)); (10477882842846465, (-22)); (99999999999945099, (-17)); (54954187367909553, (-28)); (45531117781811858, (-23)); ((-59725557832734921), (-28)); (99999999999989631, (-17)); (99999999999930411, (-17)); ((-11185710666712046), (-22)); ((-37474904099473114), (-23)); (11185710790627321, (-22)); (99999999999937372, (-17)); (33065994373039429, (-24)); (3747490040078318, (-22)); ((-33066413623784234), (-24)); (99999999999992917, (-17))];
  [(24515456675131661, (-10)); (65816693782559044, (-17)); (99999999999999423, (-17)); ((-7078279744199198), (-23)); (80562171469761338, (-24)); (70782794778573375, (-24)); (99999999999999689, (-17)); (33060414542221364, (-24)); ((-80562173809869717), (-24)); ((-33060408839805517), (-24)); (99999999999999623, (-17)); (99999999999960854, (-17)); ((-81157352324996586), (-23)); ((-35266523239283833), (-23)); (81157352325153202, (-23)); (99999999999967071, (-17)); (42981616450448215, (-28)); (35266523238923388, (-23)); ((-45843884244334276), (-28)); (99999999999993783, (-17)); (99999999999957379, (-17)); ((-88235630903267083), (-23)); ((-27210308775406429), (-23)); (88235631802973123, (-23)); (9999999999996102, (-16)); (33064778085980859, (-24)); (27210305857904261, (-23)); ((-33065018190859602), (-24)); (99999999999996247, (-17))];
  [(24515450180476569, (-10)); (11362087539339749, (-17)); (99999999999999423, (-17)); ((-7078279744199198), (-23)); (80562171469761338, (-24)); (70782794778573375, (-24)); (99999999999999689, (-17)); (33060414542221364, (-24)); ((-80562173809869717), (-24)); ((-33060408839805517), (-24)); (99999999999999623, (-17)); (99999999999999611, (-17)); ((-8060669633042182), (-23)); ((-35027239009925367), (-24)); (80606696330437265, (-24)); (99999999999999667, (-17)); (43965477773888278, (-29)); (35027239009889811, (-24)); ((-44247938646435614), (-29)); (99999999999999933, (-17)); (99999999999998745, (-17)); ((-15138949261439841), (-23)); (45534929794944985, (-24)); (15138949110897454, (-23)); (9999999999999879, (-16)); (33060860690849484, (-24)); ((-45534934800011378), (-24)); ((-33060853798517928), (-24)); (99999999999999833, (-17))];
  [(24515457287711981, (-10)); (25060447787707962, (-17)); (99999999999999423, (-17)); ((-7078279744199198), (-23)); (80562171469761338, (-24)); (70782794778573375, (-24)); (99999999999999689, (-17)); (33060414542221364, (-24)); ((-80562173809869717), (-24)); ((-33060408839805517), (-24)); (99999999999999623, (-17)); (99999999999978628, (-17)); ((-59956799780675833), (-23)); ((-26053928850329468), (-23)); (5995679978076132, (-22)); (99999999999982014, (-17)); (32030177669375111, (-28)); (26053928850132745, (-23)); ((-33592018056083361), (-28)); (99999999999996603, (-17)); (99999999999975908, (-17)); ((-6703507866351978), (-22)); ((-17997713685551613), (-23)); (67035079258591236, (-23)); (99999999999977462, (-17)); (33063665862482199, (-24)); (17997711469122125, (-23)); ((-33063786483309683), (-24)); (99999999999998324, (-17))];
  [(24515458580998853, (-10)); (45420626272178999, (-17)); (99999999999999423, (-17)); ((-7078279744199198), (-23)); (80562171469761338, (-24)); (70782794778573375, (-24)); (99999999999999689, (-17)); (33060414542221364, (-24)); ((-80562173809869717), (-24)); ((-33060408839805517), (-24)); (99999999999999623, (-17)); (99999999999961631, (-17)); ((-80338606641050591), (-23)); ((-34910741386774181), (-23)); (80338606641204084, (-23)); (99999999999967726, (-17)); (42562930909708963, (-28)); (34910741386420968, (-23)); ((-45368153678282397), (-28)); (99999999999993905, (-17)); (99999999999958178, (-17)); ((-87416885231083432), (-23)); ((-26854526895828643), (-23)); (87416886119024375, (-23)); (99999999999961731, (-17)); (33064735557827706, (-24)); (26854524005402175, (-23)); ((-33064970365970685), (-24)); (99999999999996336, (-17))];
  [(24515453028635485, (-10)); (37074662492758659, (-17)); (99999999999999423, (-17)); ((-7078279744199198), (-23)); (80562171469761338, (-24)); (70782794778573375, (-24)); (99999999999999689, (-17)); (33060414542221364, (-24)); ((-80562173809869717), (-24)); ((-33060408839805517), (-24)); (99999999999999623, (-17)); (99999999999989897, (-17)); ((-41238016410161129), (-23)); ((-1791977480531803), (-22)); (4123801641020157, (-22)); (99999999999991496, (-17)); (22197824585783548, (-28)); (17919774805224968, (-23)); ((-22936652577243422), (-28)); (99999999999998401, (-17)); (99999999999987843, (-17)); ((-48316295561924405), (-23)); ((-98635590216885584), (-24)); (48316295888040189, (-23)); (99999999999988265, (-17)); (33062667546918625, (-24)); (98635574242217873, (-24)); ((-33062715189180615), (-24)); (99999999999999467, (-17))];
  [(24515452838070719, (-10)); (31355615967834272, (-17)); (99999999999999423, (-17)); ((-7078279744199198), (-23)); (80562171469761338, (-24)); (70782794778573375, (-24)); (99999999999999689, (-17)); (33060414542221364, (-24)); ((-80562173809869717), (-24)); ((-33060408839805517), (-24)); (99999999999999623, (-17)); (99999999999992051, (-17)); ((-36570223700172939), (-23)); ((-15891408730105366), (-23)); (3657022370020474, (-22)); (99999999999993305, (-17)); (19722221254982348, (-28)); (15891408730032179, (-23)); ((-20303758674344863), (-28)); (99999999999998734, (-17)); (99999999999990163, (-17)); ((-43648502918994992), (-23)); ((-78351927921565665), (-24)); (43648503178045503, (-23)); (99999999999990408, (-17)); (33062416226110974, (-24)); (78351913490308464, (-24)); ((-33062450464056185), (-24)); (99999999999999634, (-17))];
  [(24515455403318652, (-10)); (51820994069145088, (-17)); (99999999999999423, (-17)); ((-7078279744199198), (-23)); (80562171469761338, (-24)); (70782794778573375, (-24)); (99999999999999689, (-17)); (33060414542221364, (-24)); ((-80562173809869717), (-24)); ((-33060408839805517), (-24)); (99999999999999623, (-17)); (99999999999975042, (-17)); ((-6480330348715022), (-22)); ((-28159952876230187), (-23)); (64803303487250075, (-23)); (99999999999979006, (-17)); (34549874872053445, (-28)); (28159952876000377, (-23)); ((-36375347178818629), (-28)); (99999999999996025, (-17)); (99999999999972145, (-17)); ((-71881582300367889), (-23)); ((-20103737871680036), (-23)); (71881582965077714, (-23)); (9999999999997411, (-16)); (33063921736650104, (-24)); (20103735494987812, (-23)); ((-33064066306924485), (-24)); (99999999999997913, (-17))];
  [(24515455902754031, (-10)); (42830575965284956, (-17)); (99999999999999423, (-17)); ((-7078279744199198), (-23)); (80562171469761338, (-24)); (70782794778573375, (-24)); (99999999999999689, (-17)); (33060414542221364, (-24)); ((-80562173809869717), (-24)); ((-33060408839805517), (-24)); (99999999999999623, (-17)); (99999999999976885, (-17)); ((-62356936521559105), (-23)); ((-27096896307023343), (-23)); (62356936521651569, (-23)); (99999999999980549, (-17)); (33279470447119701, (-28)); (27096896306810552, (-23)); ((-34969804829643181), (-28)); (99999999999996336, (-17)); (99999999999974076, (-17)); ((-69435215369922003), (-23)); ((-19040681221595142), (-23)); (69435215999480363, (-23)); (99999999999975819, (-17)); (3306379272536177, (-23)); (19040678925798963, (-23)); ((-33063925000228497), (-24)); (99999999999998146, (-17))];
  [(24515454223379935, (-10)); (61740735381838163, (-17)); (99999999999999423, (-17)); ((-7078279744199198), (-23)); (80562171469761338, (-24)); (70782794778573375, (-24)); (99999999999999689, (-17)); (33060414542221364, (-24)); ((-80562173809869717), (-24)); ((-33060408839805517), (-24)); (99999999999999623, (-17)); (99999999999975908, (-17)); ((-63652595398047069), (-23)); ((-27659918412799047), (-23)); (63652595398143429, (-23)); (99999999999979738, (-17)); (33952983034417488, (-28)); (27659918412577326, (-23)); ((-35713654256142036), (-28)); (99999999999996181, (-17)); (99999999999973055, (-17)); ((-70730874227796142), (-23)); ((-19603703370205938), (-23)); (70730874875971609, (-23)); (9999999999997492, (-16)); (3306386112043116, (-23)); (19603701031565223, (-23)); ((-33063999783693889), (-24)); (99999999999998035, (-17))];
  [(24515455198635221, (-10)); (21379699927439599, (-17)); (99999999999999423, (-17)); ((-7078279744199198), (-23)); (80562171469761338, (-24)); (70782794778573375, (-24)); (99999999999999689, (-17)); (33060414542221364, (-24)); ((-80562173809869717), (-24)); ((-33060408839805517), (-24)); (99999999999999623, (-17)); (9999999999998801, (-16)); ((-44914263219173568), (-23)); ((-19517269544363393), (-23)); (44914263219221542, (-23)); (99999999999989908, (-17)); (24141029768513745, (-28)); (19517269544253001, (-23)); ((-25017210525390965), (-28)); (9999999999999809, (-16)); (99999999999985834, (-17)); ((-51992542318122862), (-23)); ((-11461053882272313), (-23)); (51992542697058456, (-23)); (99999999999986422, (-17)); (3306286482910063, (-23)); (11461052163248361, (-23)); ((-33062924375726794), (-24)); (99999999999999289, (-17))];
  [(24515454307149267, (-10)); (49202259827265871, (-17)); (99999999999999423, (-17)); ((-7078279744199198), (-23)); (80562171469761338, (-24)); (70782794778573375, (-24)); (99999999999999689, (-17)); (33060414542221364, (-24)); ((-80562173809869717), (-24)); ((-33060408839805517), (-24)); (99999999999999623, (-17)); (99999999999981037, (-17)); ((-56489445640023227), (-23)); ((-24547207390327937), (-23)); (564894456400991, (-21)); (99999999999984057, (-17)); (30220112709420925, (-28)); (2454720739015331, (-22)); ((-31606939288053582), (-28)); (9999999999999698, (-16)); (99999999999978439, (-17)); ((-63567724572680196), (-23)); ((-16490992110917724), (-23)); (63567725117930636, (-23)); (9999999999997975, (-16)); (33063482062611098, (-24)); (16490990009144067, (-23)); ((-33063586908933405), (-24)); (99999999999998579, (-17))];
  [(24515452298258767, (-10)); (48242950773947446, (-17)); (99999999999999423, (-17)); ((-7078279744199198), (-23)); (80562171469761338, (-24)); (70782794778573375, (-24)); (99999999999999689, (-17)); (33060414542221364, (-24)); ((-80562173809869717), (-24)); ((-33060408839805517), (-24)); (99999999999999623, (-17)); (99999999999988698, (-17)); ((-43603853382050626), (-23)); ((-1894783747725543), (-22)); (43603853382095837, (-23)); (99999999999990496, (-17)); (2344869038694226, (-27)); (1894783747715138, (-22)); ((-24275026433429048), (-28)); (99999999999998201, (-17)); (99999999999986555, (-17)); ((-5068213249982563), (-22)); ((-10891621771841604), (-23)); (50682132859933355, (-23)); (99999999999987099, (-17)); (33062794539468048, (-24)); (10891620096147262, (-23)); ((-33062849754257684), (-24)); (99999999999999345, (-17))];
  [(24515450845911824, (-10)); (11895656554160139, (-17)); (99999999999999423, (-17)); ((-7078279744199198), (-23)); (80562171469761338, (-24)); (70782794778573375, (-24)); (99999999999999689, (-17)); (33060414542221364, (-24)); ((-80562173809869717), (-24)); ((-33060408839805517), (-24)); (99999999999999623, (-17)); (99999999999999079, (-17)); ((-1246107269271105), (-22)); ((-54148971605968626), (-24)); (12461072692714743, (-23)); (99999999999999223, (-17)); (67858375097262553, (-29)); (54148971605883645, (-24)); ((-68528516194987787), (-29)); (99999999999999845, (-17)); (99999999999998057, (-17)); ((-1953935225789143), (-22)); (26413195744109887, (-24)); (19539352170566489, (-23)); (99999999999998035, (-17)); (33061103164882828, (-24)); ((-2641320220403477), (-23)); ((-33061097957783103), (-24)); (999999999999999, (-15))];
  [(24515450927327131, (-10)); (24482386392596645, (-17)); (99999999999999423, (-17)); ((-7078279744199198), (-23)); (80562171469761338, (-24)); (70782794778573375, (-24)); (99999999999999689, (-17)); (33060414542221364, (-24)); ((-80562173809869717), (-24)); ((-33060408839805517), (-24)); (99999999999999623, (-17)); (99999999999997458, (-17)); ((-20665013939168957), (-23)); ((-8979879008060101), (-23)); (20665013939179111, (-23)); (99999999999997868, (-17)); (11215897575486638, (-28)); (89798790080367308, (-24)); ((-11401990462900358), (-28)); (99999999999999589, (-17)); (99999999999996136, (-17)); ((-2774329338648944), (-22)); ((-92366254427806579), (-25)); (27743293417027143, (-23)); (99999999999996092, (-17)); (33061552780162169, (-24)); (92366162704166997, (-25)); ((-33061555395061238), (-24)); (99999999999999933, (-17))];
  [(24515453444362143, (-10)); (74068667047142545, (-18)); (99999999999999423, (-17)); ((-7078279744199198), (-23)); (80562171469761338, (-24)); (70782794778573375, (-24)); (99999999999999689, (-17)); (33060414542221364, (-24)); ((-80562173809869717), (-24)); ((-33060408839805517), (-24)); (99999999999999623, (-17)); (99999999999996092, (-17)); ((-25620621256928286), (-23)); ((-1113331350333754), (-22)); (25620621256943893, (-23)); (99999999999996703, (-17)); (13877330216185736, (-28)); (11133313503301617, (-23)); ((-14163115125143122), (-28)); (99999999999999378, (-17)); (99999999999994604, (-17)); ((-32698900633055237), (-23)); ((-30770972033900385), (-24)); (3269890073478967, (-22)); (99999999999994582, (-17)); (33061822915770721, (-24)); (30770961223046058, (-24)); ((-33061833031788569), (-24)); (999999999999999, (-15))];
  [(24515452234891071, (-10)); (37278647869936765, (-17)); (99999999999999423, (-17)); ((-7078279744199198), (-23)); (80562171469761338, (-24)); (70782794778573375, (-24)); (99999999999999689, (-17)); (33060414542221364, (-24)); ((-80562173809869717), (-24)); ((-33060408839805517), (-24)); (99999999999999623, (-17)); (99999999999992084, (-17)); ((-36503638671113531), (-23)); ((-1586247453730807), (-22)); (36503638671145221, (-23)); (99999999999993339, (-17)); (19687244392150466, (-28)); (15862474537235148, (-23)); ((-2026656620301992), (-27)); (99999999999998734, (-17)); (99999999999990197, (-17)); ((-43581917890892165), (-23)); ((-78062585971579394), (-24)); (43581918148986016, (-23)); (99999999999990441, (-17)); (33062412674782353, (-24)); (78062571562338418, (-24)); ((-33062446724328623), (-24)); (99999999999999634, (-17))];
  [(24515455969660752, (-10)); (10060995315096155, (-17)); (99999999999999423, (-17)); ((-7078279744199198), (-23)); (80562171469761338, (-24)); (70782794778573375, (-24)); (99999999999999689, (-17)); (33060414542221364, (-24)); ((-80562173809869717), (-24)); ((-33060408839805517), (-24)); (99999999999999623, (-17)); (99999999999989164, (-17)); ((-42705191884590705), (-23)); ((-18557328599885303), (-23)); (42705191884634079, (-23)); (99999999999990885, (-17)); (22973437817311404, (-28)); (18557328599785504, (-23)); ((-23765989176638413), (-28)); (99999999999998279, (-17)); (99999999999987066, (-17)); ((-49783471015276138), (-23)); ((-10501112864761322), (-23)); (49783471362472021, (-23)); (99999999999987554, (-17)); (33062746290229998, (-24)); (10501111218781744, (-23)); ((-33062798574118923), (-24)); (999999999999994, (-15))];
  [(2451545111866436, (-9)); (58335932649739064, (-17)); (99999999999999423, (-17)); ((-7078279744199198), (-23)); (80562171469761338, (-24)); (70782794778573375, (-24)); (99999999999999689, (-17)); (33060414542221364, (-24)); ((-80562173809869717), (-24)); ((-33060408839805517), (-24)); (99999999999999623, (-17)); (99999999999989231, (-17)); ((-42561309993475949), (-23)); ((-18494805440780974), (-23)); (42561309993519031, (-23)); (99999999999990941, (-17)); (22897375342604341, (-28)); (18494805440681844, (-23)); ((-23684942895840777), (-28)); (9999999999999829, (-16)); (99999999999987133, (-17)); ((-49639589126228422), (-23)); ((-10438589700900191), (-23)); (49639589471357037, (-23)); (99999999999987621, (-17)); (33062738568068164, (-24)); (10438588059678138, (-23)); ((-33062790425235212), (-24)); (999999999999994, (-15))];
  [(24515459040835151, (-10)); (2646287283552512, (-16)); (99999999999999423, (-17)); ((-7078279744199198), (-23)); (80562171469761338, (-24)); (70782794778573375, (-24)); (99999999999999689, (-17)); (33060414542221364, (-24)); ((-80562173809869717), (-24)); ((-33060408839805517), (-24)); (99999999999999623, (-17)); (9999999999996958, (-16)); ((-71547872598556961), (-23)); ((-31090771754182384), (-23)); (7154787259867869, (-22)); (99999999999974398, (-17)); (38041885493309774, (-28)); (31090771753902249, (-23)); ((-4026612376861749), (-27)); (99999999999995159, (-17)); (99999999999966449, (-17)); ((-7862615131488016), (-22)); ((-23034556972610911), (-23)); (78626152076503154, (-23)); (99999999999969025, (-17)); (33064276371282036, (-24)); (23034554372886987, (-23)); ((-33064457459098774), (-24)); (99999999999997291, (-17))];
  [(24515459715967877, (-10)); (35866826208732905, (-17)); (99999999999999423, (-17)); ((-7078279744199198), (-23)); (80562171469761338, (-24)); (70782794778573375, (-24)); (99999999999999689, (-17)); (33060414542221364, (-24)); ((-80562173809869717), (-24)); ((-33060408839805517), (-24)); (99999999999999623, (-17)); (99999999999960576, (-17)); ((-8143804000318957), (-22)); ((-35388494669554485), (-23)); (81438040003347288, (-23)); (99999999999966838, (-17)); (43125435707070075, (-28)); (35388494669191542, (-23)); ((-460081972519788), (-26)); (99999999999993738, (-17)); (9999999999995709, (-16)); ((-88516318577427618), (-23)); ((-27332280214956756), (-23)); (88516319481167071, (-23)); (99999999999960765, (-17)); (33064792694034536, (-24)); (27332277288172298, (-23)); ((-3306503470849514), (-23)); (99999999999996214, (-17))];
  [(24515457569314218, (-10)); (40887015896217549, (-17)); (99999999999999423, (-17)); ((-7078279744199198), (-23)); (80562171469761338, (-24)); (70782794778573375, (-24)); (99999999999999689, (-17)); (33060414542221364, (-24)); ((-80562173809869717), (-24)); ((-33060408839805517), (-24)); (99999999999999623, (-17)); (99999999999969724, (-17)); ((-71369683551275404), (-23)); ((-31013340592280132), (-23)); (7136968355139653, (-22)); (99999999999974531, (-17)); (3795026677448083, (-27)); (31013340592001389, (-23)); ((-40163428138839663), (-28)); (99999999999995193, (-17)); (99999999999966593, (-17)); ((-78447962270158516), (-23)); ((-22957125804817645), (-23)); (78447963029221078, (-23)); (99999999999969169, (-17)); (33064267065857235, (-24)); (22957123210986195, (-23)); ((-33064447134727861), (-24)); (99999999999997313, (-17))];
  [(24515453454869948, (-10)); (15145663425195699, (-17)); (99999999999999423, (-17)); ((-7078279744199198), (-23)); (80562171469761338, (-24)); (70782794778573375, (-24)); (99999999999999689, (-17)); (33060414542221364, (-24)); ((-80562173809869717), (-24)); ((-33060408839805517), (-24)); (99999999999999623, (-17)); (99999999999994504, (-17)); ((-30422595010008805), (-23)); ((-13219987293040904), (-23)); (30422595010030817, (-23)); (99999999999995381, (-17)); (16448319195600617, (-28)); (13219987292990254, (-23)); ((-16849299733223688), (-28)); (99999999999999123, (-17)); (99999999999992839, (-17)); ((-37500874317149332), (-23)); ((-5163771151848766), (-23)); (37500874487874403, (-23)); (99999999999992917, (-17)); (33062083883242552, (-24)); (51637699119913484, (-24)); ((-33062103127255376), (-24)); (99999999999999811, (-17))];
  [(24515454991872371, (-10)); (65943020415195175, (-17)); (99999999999999423, (-17)); ((-7078279744199198), (-23)); (80562171469761338, (-24)); (70782794778573375, (-24)); (99999999999999689, (-17)); (33060414542221364, (-24)); ((-80562173809869717), (-24)); ((-33060408839805517), (-24)); (99999999999999623, (-17)); (99999999999970091, (-17)); ((-70929874773804748), (-23)); ((-30822223881243425), (-23)); (7092987477392437, (-22)); (99999999999974842, (-17)); (37722608831206114, (-28)); (30822223880968108, (-23)); ((-39909187066200502), (-28)); (99999999999995248, (-17)); (99999999999966982, (-17)); ((-78008153499006281), (-23)); ((-22766009079240649), (-23)); (7800815425174913, (-22)); (99999999999969513, (-17)); (33064243945743506, (-24)); (22766006499953089, (-23)); ((-33064421575342864), (-24)); (99999999999997358, (-17))];
  [(24515455152370743, (-10)); (60038798733376142, (-19)); (99999999999999423, (-17)); ((-7078279744199198), (-23)); (80562171469761338, (-24)); (70782794778573375, (-24)); (99999999999999689, (-17)); (33060414542221364, (-24)); ((-80562173809869717), (-24)); ((-33060408839805517), (-24)); (99999999999999623, (-17)); (99999999999993949, (-17)); ((-31910062888273157), (-23)); ((-13866359053841686), (-23)); (31910062888297366, (-23)); (99999999999994904, (-17)); (17241665729721626, (-28)); (13866359053785962, (-23)); ((-17683632336229493), (-28)); (99999999999999023, (-17)); (9999999999999224, (-16)); ((-38988342174044329), (-23)); ((-58101429618258937), (-24)); (38988342366140268, (-23)); (99999999999992339, (-17)); (3306216441623223, (-23)); (58101416727864715, (-24)); ((-33062187018035659), (-24)); (99999999999999767, (-17))];
  [(24515453079836923, (-10)); (44383786765019972, (-18)); (99999999999999423, (-17)); ((-7078279744199198), (-23)); (80562171469761338, (-24)); (70782794778573375, (-24)); (99999999999999689, (-17)); (33060414542221364, (-24)); ((-80562173809869717), (-24)); ((-33060408839805517), (-24)); (99999999999999623, (-17)); (99999999999997236, (-17)); ((-21571728600825807), (-23)); ((-93738873518228461), (-24)); (21571728600836877, (-23)); (99999999999997691, (-17)); (11703878670644527, (-28)); (93738873517973808, (-24)); ((-11906031716080179), (-28)); (99999999999999567, (-17)); (99999999999995881, (-17)); ((-28650008035120194), (-23)); ((-13176709180171891), (-24)); (28650008078684496, (-23)); (99999999999995848, (-17)); (33061602308740651, (-24)); (13176699708019613, (-24)); ((-33061606078076673), (-24)); (99999999999999944, (-17))];
  [(24515456748340316, (-10)); (10781233537920121, (-17)); (99999999999999423, (-17)); ((-7078279744199198), (-23)); (80562171469761338, (-24)); (70782794778573375, (-24)); (99999999999999689, (-17)); (33060414542221364, (-24)); ((-80562173809869717), (-24)); ((-33060408839805517), (-24)); (99999999999999623, (-17)); (99999999999986355, (-17)); ((-47913147733208778), (-23)); ((-20820419870140306), (-23)); (47913147733263369, (-23)); (9999999999998852, (-16)); (25721153904899961, (-28)); (20820419870014675, (-23)); ((-2671918242214133), (-27)); (99999999999997824, (-17)); (99999999999984068, (-17)); ((-54991426789075266), (-23)); ((-12764204307193718), (-23)); (54991427211098897, (-23)); (99999999999984823, (-17)); (33063025257480289, (-24)); (12764202489008846, (-23)); ((-3306309549532263), (-23)); (99999999999999123, (-17))];
  [(24515452884117705, (-10)); (53321502378401031, (-17)); (99999999999999423, (-17)); ((-7078279744199198), (-23)); (80562171469761338, (-24)); (70782794778573375, (-24)); (99999999999999689, (-17)); (33060414542221364, (-24)); ((-80562173809869717), (-24)); ((-33060408839805517), (-24)); (99999999999999623, (-17)); (99999999999984956, (-17)); ((-50299506454352059), (-23)); ((-218574001627998), (-21)); (5029950645441223, (-22)); (99999999999987343, (-17)); (2697649405236853, (-27)); (21857400162661344, (-23)); ((-28076430069745584), (-28)); (99999999999997613, (-17)); (99999999999982581, (-17)); ((-57377785475935449), (-23)); ((-13801184678747333), (-23)); (57377785932246646, (-23)); (99999999999983469, (-17)); (33063152713997058, (-24)); (13801182781654565, (-23)); ((-33063231954090984), (-24)); (99999999999999001, (-17))];
  [(24515456013664994, (-10)); (16191572452942671, (-18)); (99999999999999423, (-17)); ((-7078279744199198), (-23)); (80562171469761338, (-24)); (70782794778573375, (-24)); (99999999999999689, (-17)); (33060414542221364, (-24)); ((-80562173809869717), (-24)); ((-33060408839805517), (-24)); (99999999999999623, (-17)); (99999999999991507, (-17)); ((-37806539888068872), (-23)); ((-16428643772780437), (-23)); (3780653988810287, (-22)); (99999999999992861, (-17)); (20379564708284041, (-28)); (16428643772702219, (-23)); ((-21000423622297149), (-28)); (99999999999998657, (-17)); (99999999999989575, (-17)); ((-44884819089129672), (-23)); ((-83724278757048076), (-24)); (44884819365943067, (-23)); (99999999999989875, (-17)); (33062482956459317, (-24)); (83724263917003947, (-24)); ((-33062520510820949), (-24)); (999999999999996, (-15))];
  [(24515453362176931, (-10)); (24923721617004291, (-17)); (99999999999999423, (-17)); ((-7078279744199198), (-23)); (80562171469761338, (-24)); (70782794778573375, (-24)); (99999999999999689, (-17)); (33060414542221364, (-24)); ((-80562173809869717), (-24)); ((-33060408839805517), (-24)); (99999999999999623, (-17)); (99999999999992373, (-17)); ((-35841203248332198), (-23)); ((-15574616523089355), (-23)); (35841203248362749, (-23)); (99999999999993583, (-17)); (19334700934508503, (-28)); (15574616523019056, (-23)); ((-19892976155233555), (-28)); (99999999999998779, (-17)); (99999999999990508, (-17)); ((-42919482477627554), (-23)); ((-7518400561038814), (-23)); (42919482726203852, (-23)); (9999999999999073, (-16)); (33062376886764307, (-24)); (75183991420180104, (-24)); ((-33062409161569903), (-24)); (99999999999999656, (-17))];
  [(2451545831997335, (-9)); (81255203193312364, (-17)); (99999999999999423, (-17)); ((-7078279744199198), (-23)); (80562171469761338, (-24)); (70782794778573375, (-24)); (99999999999999689, (-17)); (33060414542221364, (-24)); ((-80562173809869717), (-24)); ((-33060408839805517), (-24)); (99999999999999623, (-17)); (99999999999939748, (-17)); ((-10067834038037975), (-22)); ((-43749271175262829), (-23)); (10067834038062077, (-22)); (99999999999949318, (-17)); (52893330939584754, (-28)); (43749271174708133, (-23)); ((-57297500077879704), (-28)); (9999999999999043, (-16)); (99999999999935563, (-17)); ((-10775661867820558), (-22)); ((-35693057356759055), (-23)); (10775661985843135, (-22)); (9999999999994188, (-16)); (33065784983955781, (-24)); (35693053793681124, (-23)); ((-33066169556768141), (-24)); (99999999999993572, (-17))];
  [(24515452218754026, (-10)); (8366381246066189, (-16)); (99999999999999423, (-17)); ((-7078279744199198), (-23)); (80562171469761338, (-24)); (70782794778573375, (-24)); (99999999999999689, (-17)); (33060414542221364, (-24)); ((-80562173809869717), (-24)); ((-33060408839805517), (-24)); (99999999999999623, (-17)); (99999999999975042, (-17)); ((-64801572283722382), (-23)); ((-28159200590411486), (-23)); (64801572283822237, (-23)); (99999999999979006, (-17)); (34549319537464056, (-28)); (28159200590181686, (-23)); ((-36374792067306316), (-28)); (99999999999996025, (-17)); (99999999999972145, (-17)); ((-71879851096964933), (-23)); ((-20102985585804099), (-23)); (71879851761649887, (-23)); (9999999999997411, (-16)); (33063921679721946, (-24)); (20102983209169126, (-23)); ((-33064066250880848), (-24)); (99999999999997913, (-17))];
  [(24515456963620055, (-10)); (97238841956652833, (-17)); (99999999999999423, (-17)); ((-7078279744199198), (-23)); (80562171469761338, (-24)); (70782794778573375, (-24)); (99999999999999689, (-17)); (33060414542221364, (-24)); ((-80562173809869717), (-24)); ((-33060408839805517), (-24)); (99999999999999623, (-17)); (99999999999937972, (-17)); ((-10215991488346169), (-22)); ((-44393081978357783), (-23)); (10215991488370989, (-22)); (99999999999947831, (-17)); (53639699595521038, (-28)); (44393081977786639, (-23)); ((-58174576267333578), (-28)); (99999999999990141, (-17)); (99999999999933742, (-17)); ((-10923819316000275), (-22)); ((-36336868208835611), (-23)); (10923819436151972, (-22)); (99999999999940292, (-17)); (33065860814409468, (-24)); (36336864596759031, (-23)); ((-33066257720094279), (-24)); (99999999999993339, (-17))];
  [(24515450189985973, (-10)); (43133498800380587, (-17)); (99999999999999423, (-17)); ((-7078279744199198), (-23)); (80562171469761338, (-24)); (70782794778573375, (-24)); (99999999999999689, (-17)); (33060414542221364, (-24)); ((-80562173809869717), (-24)); ((-33060408839805517), (-24)); (99999999999999623, (-17)); (99999999999995481, (-17)); ((-27569155689797476), (-23)); ((-11980039441701939), (-23)); (2756915568981555, (-22)); (99999999999996203, (-17)); (14922153126729559, (-28)); (11980039441660344, (-23)); ((-15252243912300401), (-28)); (99999999999999278, (-17)); (99999999999993916, (-17)); ((-34647435037931264), (-23)); ((-39238232061738397), (-24)); (34647435167660437, (-23)); (99999999999993938, (-17)); (33061928967843257, (-24)); (39238220606625648, (-24)); ((-33061942544003559), (-24)); (99999999999999867, (-17))];
  [(24515452648200123, (-10)); (77166343469863752, (-17)); (99999999999999423, (-17)); ((-7078279744199198), (-23)); (80562171469761338, (-24)); (70782794778573375, (-24)); (99999999999999689, (-17)); (33060414542221364, (-24)); ((-80562173809869717), (-24)); ((-33060408839805517), (-24)); (99999999999999623, (-17)); (99999999999976064, (-17)); ((-6345290378435472), (-22)); ((-27573143417575649), (-23)); (63452903784450477, (-23)); (99999999999979861, (-17)); (33849151946240717, (-28)); (27573143417355319, (-23)); ((-35598191061581019), (-28)); (99999999999996192, (-17)); (9999999999997321, (-16)); ((-7053118261697262), (-22)); ((-1951692836838064), (-22)); (70531183262278742, (-23)); (99999999999975053, (-17)); (33063850576446475, (-24)); (19516926036343297, (-23)); ((-33063988175952672), (-24)); (99999999999998035, (-17))];
  [(24515454024375416, (-10)); (1210629541823296, (-16)); (99999999999999423, (-17)); ((-7078279744199198), (-23)); (80562171469761338, (-24)); (70782794778573375, (-24)); (99999999999999689, (-17)); (33060414542221364, (-24)); ((-80562173809869717), (-24)); ((-33060408839805517), (-24)); (99999999999999623, (-17)); (99999999999993894, (-17)); ((-32048390688887823), (-23)); ((-13926468710879664), (-23)); (32048390688912244, (-23)); (9999999999999486, (-16)); (17314394134034527, (-28)); (13926468710823458, (-23)); ((-17760792836440942), (-28)); (99999999999999023, (-17)); (99999999999992173, (-17)); ((-3912666997267174), (-22)); ((-58702526234370517), (-24)); (39126670166755083, (-23)); (99999999999992284, (-17)); (33062171800512528, (-24)); (58702513298239149, (-24)); ((-33062194776632973), (-24)); (99999999999999767, (-17))];
  [(24515454288603277, (-10)); (18384636788961894, (-17)); (99999999999999423, (-17)); ((-7078279744199198), (-23)); (80562171469761338, (-24)); (70782794778573375, (-24)); (99999999999999689, (-17)); (33060414542221364, (-24)); ((-80562173809869717), (-24)); ((-33060408839805517), (-24)); (99999999999999623, (-17)); (9999999999999164, (-16)); ((-3750954149849783), (-22)); ((-16299584601653176), (-23)); (37509541498531288, (-23)); (99999999999992961, (-17)); (20221335687565837, (-28)); (16299584601576184, (-23)); ((-20832224834066437), (-28)); (99999999999998668, (-17)); (99999999999989719, (-17)); ((-44587820703825389), (-23)); ((-8243368694758646), (-23)); (44587820976371623, (-23)); (99999999999989997, (-17)); (33062466894288927, (-24)); (82433672205744776, (-24)); ((-3306250359959043), (-23)); (999999999999996, (-15))];
  [(24515454399843453, (-10)); (36883205714382616, (-17)); (99999999999999423, (-17)); ((-7078279744199198), (-23)); (80562171469761338, (-24)); (70782794778573375, (-24)); (99999999999999689, (-17)); (33060414542221364, (-24)); ((-80562173809869717), (-24)); ((-33060408839805517), (-24)); (99999999999999623, (-17)); (99999999999985423, (-17)); ((-49515261840154931), (-23)); ((-21516610573187444), (-23)); (49515261840213239, (-23)); (99999999999987732, (-17)); (26564523482777088, (-28)); (21516610573053272, (-23)); ((-27630120413846271), (-28)); (99999999999997691, (-17)); (99999999999983069, (-17)); ((-56593540873004993), (-23)); ((-13460395063207487), (-23)); (56593541318048026, (-23)); (99999999999983913, (-17)); (3306311088513573, (-23)); (13460393192046802, (-23)); ((-33063187081905022), (-24)); (99999999999999045, (-17))];
  [(24515456990844333, (-10)); (95520544025633425, (-17)); (99999999999999423, (-17)); ((-7078279744199198), (-23)); (80562171469761338, (-24)); (70782794778573375, (-24)); (99999999999999689, (-17)); (33060414542221364, (-24)); ((-80562173809869717), (-24)); ((-33060408839805517), (-24)); (99999999999999623, (-17)); (99999999999939027, (-17)); ((-10127464844805003), (-22)); ((-44008393868869247), (-23)); (10127464844829393, (-22)); (99999999999948708, (-17)); (53193210886537613, (-28)); (44008393868307961, (-23)); ((-57650550999710504), (-28)); (99999999999990308, (-17)); (99999999999934819, (-17)); ((-1083529267373091), (-21)); ((-35952180070079721), (-23)); (10835292792610419, (-22)); (99999999999941225, (-17)); (33065815452348996, (-24)); (35952176487280707, (-23)); ((-33066205045274575), (-24)); (99999999999993472, (-17))];
  [(24515450230778088, (-10)); (96440150641106137, (-17)); (99999999999999423, (-17)); ((-7078279744199198), (-23)); (80562171469761338, (-24)); (70782794778573375, (-24)); (99999999999999689, (-17)); (33060414542221364, (-24)); ((-80562173809869717), (-24)); ((-33060408839805517), (-24)); (99999999999999623, (-17)); (99999999999978284, (-17)); ((-6045289978765866), (-22)); ((-26269506635529108), (-23)); (60452899787745577, (-23)); (99999999999981737, (-17)); (32289474136060705, (-28)); (26269506635329113, (-23)); ((-33876790261899714), (-28)); (99999999999996558, (-17)); (99999999999975553, (-17)); ((-67531178663375502), (-23)); ((-1821329148715255), (-22)); (6753117926557526, (-22)); (99999999999977152, (-17)); (33063692191797719, (-24)); (18213289254318287, (-23)); ((-33063815113122237), (-24)); (99999999999998301, (-17))];
  [(24515459098467673, (-10)); (88587774568797961, (-19)); (99999999999999423, (-17)); ((-7078279744199198), (-23)); (80562171469761338, (-24)); (70782794778573375, (-24)); (99999999999999689, (-17)); (33060414542221364, (-24)); ((-80562173809869717), (-24)); ((-33060408839805517), (-24)); (99999999999999623, (-17)); (99999999999981204, (-17)); ((-562426101956921), (-21)); ((-24439946278167271), (-23)); (56242610195767316, (-23)); (99999999999984179, (-17)); (30091854284418491, (-28)); (24439946277994164, (-23)); ((-31465940963926187), (-28)); (99999999999997014, (-17)); (99999999999978606, (-17)); ((-63320889131895173), (-23)); ((-16383730990596568), (-23)); (63320889673598958, (-23)); (99999999999979883, (-17)); (33063469037912642, (-24)); (16383728896985018, (-23)); ((-3306357273317859), (-23)); (99999999999998601, (-17))];
  [(24515456139164688, (-10)); (15267543011067664, (-17)); (99999999999999423, (-17)); ((-7078279744199198), (-23)); (80562171469761338, (-24)); (70782794778573375, (-24)); (99999999999999689, (-17)); (33060414542221364, (-24)); ((-80562173809869717), (-24)); ((-33060408839805517), (-24)); (99999999999999623, (-17)); (9999999999998691, (-16)); ((-46930302686043477), (-23)); ((-20393329451415653), (-23)); (46930302686095856, (-23)); (99999999999988987, (-17)); (25203697296913835, (-28)); (20393329451295123, (-23)); ((-26161295352267189), (-28)); (99999999999997913, (-17)); (99999999999984657, (-17)); ((-54008581756029793), (-23)); ((-12337113855975757), (-23)); (54008582163931839, (-23)); (99999999999985356, (-17)); (33062972720018339, (-24)); (12337112070289686, (-23)); ((-33063039404309134), (-24)); (99999999999999178, (-17))];
  [(24515452451403118, (-10)); (28395472874218319, (-17)); (99999999999999423, (-17)); ((-7078279744199198), (-23)); (80562171469761338, (-24)); (70782794778573375, (-24)); (99999999999999689, (-17)); (33060414542221364, (-24)); ((-80562173809869717), (-24)); ((-33060408839805517), (-24)); (99999999999999623, (-17)); (99999999999993761, (-17)); ((-32390885407589025), (-23)); ((-14075298085630684), (-23)); (32390885407613976, (-23)); (9999999999999476, (-16)); (17497602875904658, (-28)); (14075298085573271, (-23)); ((-17953416531213406), (-28)); (99999999999999012, (-17)); (99999999999992017, (-17)); ((-3946916468645257), (-22)); ((-60190820095110995), (-24)); (39469164885456661, (-23)); (99999999999992151, (-17)); (33062190397307868, (-24)); (60190807045735889, (-24)); ((-3306221414434805), (-23)); (99999999999999767, (-17))];
  [(24515453567402675, (-10)); (81640520618121071, (-17)); (99999999999999423, (-17)); ((-7078279744199198), (-23)); (80562171469761338, (-24)); (70782794778573375, (-24)); (99999999999999689, (-17)); (33060414542221364, (-24)); ((-80562173809869717), (-24)); ((-33060408839805517), (-24)); (99999999999999623, (-17)); (99999999999969347, (-17)); ((-71819272336534038), (-23)); ((-3120870715689065), (-22)); (71819272336656699, (-23)); (99999999999974221, (-17)); (38182367391059112, (-28)); (31208707156608377, (-23)); ((-4042322032660195), (-27)); (99999999999995137, (-17)); (99999999999966194, (-17)); ((-78897551048958227), (-23)); ((-23152492384291786), (-23)); (78897551814481046, (-23)); (99999999999968825, (-17)); (33064290638117271, (-24)); (23152489775593003, (-23)); ((-33064473252232541), (-24)); (99999999999997269, (-17))];
  [(24515459834745782, (-10)); (38037256106497497, (-17)); (99999999999999423, (-17)); ((-7078279744199198), (-23)); (80562171469761338, (-24)); (70782794778573375, (-24)); (99999999999999689, (-17)); (33060414542221364, (-24)); ((-80562173809869717), (-24)); ((-33060408839805517), (-24)); (99999999999999623, (-17)); (99999999999958555, (-17)); ((-83493915696890383), (-23)); ((-36281865195466282), (-23)); (83493915697056158, (-23)); (99999999999965139, (-17)); (44177154032537824, (-28)); (36281865195084779, (-23)); ((-47206683007061656), (-28)); (99999999999993427, (-17)); (99999999999954992, (-17)); ((-90572194241593081), (-23)); ((-28225650808836811), (-23)); (90572195174874957, (-23)); (99999999999958922, (-17)); (33064899522124624, (-24)); (28225647814064709, (-23)); ((-33065155189423201), (-24)); (9999999999999597, (-16))];
  [(24515451222993629, (-10)); (61797961604627694, (-18)); (99999999999999423, (-17)); ((-7078279744199198), (-23)); (80562171469761338, (-24)); (70782794778573375, (-24)); (99999999999999689, (-17)); (33060414542221364, (-24)); ((-80562173809869717), (-24)); ((-33060408839805517), (-24)); (99999999999999623, (-17)); (99999999999999245, (-17)); ((-11270329276144145), (-23)); ((-48974655327097885), (-24)); (11270329276147166, (-23)); (99999999999999367, (-17)); (61402147258070359, (-29)); (48974655327028369, (-24)); ((-61950444774083735), (-29)); (99999999999999878, (-17)); (99999999999998268, (-17)); ((-18348608858431041), (-23)); (31587512416645456, (-24)); (18348608753999447, (-23)); (99999999999998257, (-17)); (33061037643315729, (-24)); ((-31587518482885387), (-24)); ((-33061031810816327), (-24)); (999999999999999, (-15))];
  [(24515459950322588, (-10)); (2751662146627567, (-16)); (99999999999999423, (-17)); ((-7078279744199198), (-23)); (80562171469761338, (-24)); (70782794778573375, (-24)); (99999999999999689, (-17)); (33060414542221364, (-24)); ((-80562173809869717), (-24)); ((-33060408839805517), (-24)); (99999999999999623, (-17)); (99999999999964051, (-17)); ((-77760799669163583), (-23)); ((-33790568226082224), (-23)); (77760799669307377, (-23)); (99999999999969769, (-17)); (41240250091338524, (-28)); (3379056822575132, (-22)); ((-4386824237201381), (-27)); (99999999999994293, (-17)); (99999999999960687, (-17)); ((-84839078296229996), (-23)); ((-25734353649913133), (-23)); (84839079147128908, (-23)); (99999999999963951, (-17)); (33064601213009272, (-24)); (25734350844733564, (-23)); ((-33064819581950291), (-24)); (99999999999996636, (-17))];
  [(24515456074663023, (-10)); (18301203137532207, (-17)); (99999999999999423, (-17)); ((-7078279744199198), (-23)); (80562171469761338, (-24)); (70782794778573375, (-24)); (99999999999999689, (-17)); (33060414542221364, (-24)); ((-80562173809869717), (-24)); ((-33060408839805517), (-24)); (99999999999999623, (-17)); (99999999999986078, (-17)); ((-48392616107820916), (-23)); ((-21028770463552651), (-23)); (48392616107876619, (-23)); (99999999999988287, (-17)); (25973775552109343, (-28)); (21028770463424498, (-23)); ((-26991187063174493), (-28)); (99999999999997791, (-17)); (99999999999983769, (-17)); ((-55470895156799226), (-23)); ((-1297255491645751), (-22)); (55470895585711935, (-23)); (99999999999984546, (-17)); (3306305090591507, (-23)); (12972553082418476, (-23)); ((-3306312284326311), (-23)); (99999999999999112, (-17))];
  [(24515455247674095, (-10)); (90464090757265569, (-17)); (99999999999999423, (-17)); ((-7078279744199198), (-23)); (80562171469761338, (-24)); (70782794778573375, (-24)); (99999999999999689, (-17)); (33060414542221364, (-24)); ((-80562173809869717), (-24)); ((-33060408839805517), (-24)); (99999999999999623, (-17)); (99999999999954481, (-17)); ((-8750753229665684), (-22)); ((-38025962262477198), (-23)); (87507532296838931, (-23)); (9999999999996172, (-16)); (46224532548249253, (-28)); (38025962262058139, (-23)); ((-49552029146582299), (-28)); (99999999999992761, (-17)); (99999999999950773, (-17)); ((-94585810783698681), (-23)); ((-2996974800853988), (-22)); (94585811774655814, (-23)); (99999999999955214, (-17)); (33065107493431754, (-24)); (2996974488103646, (-22)); ((-33065390958557623), (-24)); (99999999999995448, (-17))];
  [(24515452265247428, (-10)); (10247664545822943, (-17)); (99999999999999423, (-17)); ((-7078279744199198), (-23)); (80562171469761338, (-24)); (70782794778573375, (-24)); (99999999999999689, (-17)); (33060414542221364, (-24)); ((-80562173809869717), (-24)); ((-33060408839805517), (-24)); (99999999999999623, (-17)); (99999999999997591, (-17)); ((-20141270342432718), (-23)); ((-87522888345457768), (-24)); (20141270342442366, (-23)); (99999999999997968, (-17)); (10934434789954015, (-28)); (87522888345235766, (-24)); ((-11110001807423942), (-28)); (99999999999999623, (-17)); (99999999999996303, (-17)); ((-27219549797277434), (-23)); ((-69607235344855119), (-25)); (27219549820290631, (-23)); (99999999999996236, (-17)); (33061524211944434, (-24)); (69607145352872092, (-25)); ((-33061526035101009), (-24)); (99999999999999956, (-17))];
  [(24515455116193849, (-10)); (71660733889036632, (-17)); (99999999999999423, (-17)); ((-7078279744199198), (-23)); (80562171469761338, (-24)); (70782794778573375, (-24)); (99999999999999689, (-17)); (33060414542221364, (-24)); ((-80562173809869717), (-24)); ((-33060408839805517), (-24)); (99999999999999623, (-17)); (99999999999966394, (-17)); ((-75191313937687214), (-23)); ((-32674011017576214), (-23)); (75191313937821669, (-23)); (99999999999971734, (-17)); (39919249064849654, (-28)); (32674011017266825, (-23)); ((-42376657738429913), (-28)); (9999999999999466, (-16)); (99999999999963129, (-17)); ((-8226959260166764), (-22)); ((-24617796356458676), (-23)); (82269593415644418, (-23)); (99999999999966105, (-17)); (33064467042873774, (-24)); (24617793636250096, (-23)); ((-33064669633156627), (-24)); (99999999999996914, (-17))];
  [(24515454888405548, (-10)); (59452108452426522, (-17)); (99999999999999423, (-17)); ((-7078279744199198), (-23)); (80562171469761338, (-24)); (70782794778573375, (-24)); (99999999999999689, (-17)); (33060414542221364, (-24)); ((-80562173809869717), (-24)); ((-33060408839805517), (-24)); (99999999999999623, (-17)); (99999999999973854, (-17)); ((-66322759031473583), (-23)); ((-28820224707583623), (-23)); (66322759031578181, (-23)); (99999999999978006, (-17)); (353394415325244, (-26)); (28820224707342902, (-23)); ((-37250202922223252), (-28)); (99999999999995848, (-17)); (99999999999970901, (-17)); ((-73401037822862323), (-23)); ((-20764009753267393), (-23)); (73401038509405111, (-23)); (99999999999972999, (-17)); (330640019174222, (-22)); (20764007326329731, (-23)); ((-33064154259857645), (-24)); (99999999999997791, (-17))];
  [(24515458455532053, (-10)); (1222137670872202, (-16)); (99999999999999423, (-17)); ((-7078279744199198), (-23)); (80562171469761338, (-24)); (70782794778573375, (-24)); (99999999999999689, (-17)); (33060414542221364, (-24)); ((-80562173809869717), (-24)); ((-33060408839805517), (-24)); (99999999999999623, (-17)); (99999999999979128, (-17)); ((-59246121809871997), (-23)); ((-25745107280439817), (-23)); (59246121809955461, (-23)); (99999999999982447, (-17)); (31659834064774698, (-28)); (25745107280247726, (-23)); ((-33185121317558242), (-28)); (99999999999996692, (-17)); (9999999999997643, (-16)); ((-66324400702925771), (-23)); ((-17688892092166618), (-23)); (66324401287785706, (-23)); (9999999999997794, (-16)); (33063628255584275, (-24)); (17688889899237381, (-23)); ((-33063745575043315), (-24)); (9999999999999839, (-16))];
  [(24515455394881191, (-10)); (34611168358022826, (-17)); (99999999999999423, (-17)); ((-7078279744199198), (-23)); (80562171469761338, (-24)); (70782794778573375, (-24)); (99999999999999689, (-17)); (33060414542221364, (-24)); ((-80562173809869717), (-24)); ((-33060408839805517), (-24)); (99999999999999623, (-17)); (99999999999982525, (-17)); ((-54215896224487741), (-23)); ((-23559247822214156), (-23)); (54215896224557642, (-23)); (99999999999985301, (-17)); (29030258497170368, (-28)); (23559247822053302, (-23)); ((-30307978349242148), (-28)); (99999999999997236, (-17)); (99999999999980005, (-17)); ((-61294175189807159), (-23)); ((-15503032467639344), (-23)); (61294175702390237, (-23)); (99999999999981148, (-17)); (33063361245569498, (-24)); (15503030441044964, (-23)); ((-33063456313534191), (-24)); (99999999999998757, (-17))];
  [(24515451981501719, (-10)); (18023841988370204, (-17)); (99999999999999423, (-17)); ((-7078279744199198), (-23)); (80562171469761338, (-24)); (70782794778573375, (-24)); (99999999999999689, (-17)); (33060414542221364, (-24)); ((-80562173809869717), (-24)); ((-33060408839805517), (-24)); (99999999999999623, (-17)); (99999999999996814, (-17)); ((-23164725733741675), (-23)); ((-10066116327640032), (-23)); (23164725733754437, (-23)); (99999999999997324, (-17)); (12560486588221409, (-28)); (10066116327610667, (-23)); ((-12793099912755679), (-28)); (99999999999999489, (-17)); (99999999999995404, (-17)); ((-30243005145150653), (-23)); ((-20098999464995528), (-24)); (3024300521160133, (-22)); (9999999999999537, (-16)); (33061689252885364, (-24)); (20098989466146226, (-24)); ((-33061695274875354), (-24)); (99999999999999922, (-17))];
  [(24515453789341184, (-10)); (19632565932188906, (-17)); (99999999999999423, (-17)); ((-7078279744199198), (-23)); (80562171469761338, (-24)); (70782794778573375, (-24)); (99999999999999689, (-17)); (33060414542221364, (-24)); ((-80562173809869717), (-24)); ((-33060408839805517), (-24)); (99999999999999623, (-17)); (99999999999992628, (-17)); ((-3521706332712609), (-22)); ((-15303399628298342), (-23)); (35217063327155588, (-23)); (99999999999993794, (-17)); (19002700155688142, (-28)); (1530339962823047, (-22)); ((-19542145679452005), (-28)); (99999999999998823, (-17)); (99999999999990785, (-17)); ((-42295342565388005), (-23)); ((-72471836456134564), (-24)); (42295342804996976, (-23)); (99999999999990985, (-17)); (33062343183865828, (-24)); (72471822472296735, (-24)); ((-3306237388654743), (-23)); (99999999999999678, (-17))];
  [(24515457776910402, (-10)); (46012985611904944, (-17)); (99999999999999423, (-17)); ((-7078279744199198), (-23)); (80562171469761338, (-24)); (70782794778573375, (-24)); (99999999999999689, (-17)); (33060414542221364, (-24)); ((-80562173809869717), (-24)); ((-33060408839805517), (-24)); (99999999999999623, (-17)); (99999999999965872, (-17)); ((-75778663515472781), (-23)); ((-32929240847131413), (-23)); (75778663515609333, (-23)); (9999999999997129, (-16)); (40222428110667008, (-28)); (32929240846817163, (-23)); ((-42716941095477523), (-28)); (99999999999994582, (-17)); (99999999999962585, (-17)); ((-82856942171015161), (-23)); ((-24873026205431935), (-23)); (82856942993431806, (-23)); (99999999999965616, (-17)); (33064497833959782, (-24)); (24873023465800201, (-23)); ((-33064703842151119), (-24)); (99999999999996858, (-17))];
  [(24515457120665931, (-10)); (69385568079916038, (-17)); (99999999999999423, (-17)); ((-7078279744199198), (-23)); (80562171469761338, (-24)); (70782794778573375, (-24)); (99999999999999689, (-17)); (33060414542221364, (-24)); ((-80562173809869717), (-24)); ((-33060408839805517), (-24)); (99999999999999623, (-17)); (99999999999955957, (-17)); ((-86069730596816188), (-23)); ((-37401172708265254), (-23)); (86069730596992349, (-23)); (99999999999962963, (-17)); (45491537223936855, (-28)); (37401172707859859, (-23)); ((-48711035205428743), (-28)); (99999999999993006, (-17)); (99999999999952294, (-17)); ((-93148009104513943), (-23)); ((-293449584067935), (-21)); (9314801007480992, (-22)); (99999999999956557, (-17)); (33065033035575462, (-24)); (29344955326838757, (-23)); ((-33065306416920069), (-24)); (99999999999995637, (-17))];
  [(24515455673135207, (-10)); (68148309625627135, (-17)); (99999999999999423, (-17)); ((-7078279744199198), (-23)); (80562171469761338, (-24)); (70782794778573375, (-24)); (99999999999999689, (-17)); (33060414542221364, (-24)); ((-80562173809869717), (-24)); ((-33060408839805517), (-24)); (99999999999999623, (-17)); (99999999999965261, (-17)); ((-76450590652319455), (-23)); ((-33221223433051807), (-23)); (76450590652458453, (-23)); (99999999999970779, (-17)); (40568364279115201, (-28)); (33221223432731956, (-23)); ((-43107184488633266), (-28)); (99999999999994482, (-17)); (99999999999961953, (-17)); ((-8352886929820873), (-22)); ((-25165008813566562), (-23)); (83528870130280598, (-23)); (99999999999965061, (-17)); (33064532968895546, (-24)); (25165006051714724, (-23)); ((-33064743073163847), (-24)); (9999999999999678, (-16))];
  [(24515459304323732, (-10)); (44707635760467523, (-17)); (99999999999999423, (-17)); ((-7078279744199198), (-23)); (80562171469761338, (-24)); (70782794778573375, (-24)); (99999999999999689, (-17)); (33060414542221364, (-24)); ((-80562173809869717), (-24)); ((-33060408839805517), (-24)); (99999999999999623, (-17)); (99999999999957734, (-17)); ((-84330270262023034), (-23)); ((-3664529889892036), (-22)); (84330270262192165, (-23)); (99999999999964451, (-17)); (44604729446819686, (-28)); (36645298898531181, (-23)); ((-47695181137896725), (-28)); (99999999999993283, (-17)); (99999999999954137, (-17)); ((-91408548794710411), (-23)); ((-28589084539941184), (-23)); (91408549740010562, (-23)); (99999999999958167, (-17)); (33064942953451222, (-24)); (28589081517510778, (-23)); ((-33065204296484776), (-24)); (99999999999995859, (-17))];
  [(24515454309012122, (-10)); (82142161853219986, (-17)); (99999999999999423, (-17)); ((-7078279744199198), (-23)); (80562171469761338, (-24)); (70782794778573375, (-24)); (99999999999999689, (-17)); (33060414542221364, (-24)); ((-80562173809869717), (-24)); ((-33060408839805517), (-24)); (99999999999999623, (-17)); (99999999999965061, (-17)); ((-7666646337422332), (-22)); ((-33315029847619405), (-23)); (76666463374363091, (-23)); (99999999999970601, (-17)); (40678864332978501, (-28)); (33315029847297749, (-23)); ((-43232639690415908), (-28)); (99999999999994449, (-17)); (99999999999961742, (-17)); ((-837447420170113), (-21)); ((-25258815235271016), (-23)); (83744742852185129, (-23)); (99999999999964861, (-17)); (33064544192812623, (-24)); (25258812466280438, (-23)); ((-33064755685082819), (-24)); (99999999999996758, (-17))];
  [(24515455210697888, (-10)); (47185142617212128, (-17)); (99999999999999423, (-17)); ((-7078279744199198), (-23)); (80562171469761338, (-24)); (70782794778573375, (-24)); (99999999999999689, (-17)); (33060414542221364, (-24)); ((-80562173809869717), (-24)); ((-33060408839805517), (-24)); (99999999999999623, (-17)); (9999999999997804, (-16)); ((-60786049679294967), (-23)); ((-26414275260310055), (-23)); (60786049679382847, (-23)); (99999999999981537, (-17)); (32462709085490108, (-28)); (26414275260107847, (-23)); ((-34067748622135241), (-28)); (99999999999996514, (-17)); (99999999999975286, (-17)); ((-67864328550225681), (-23)); ((-18358060122947591), (-23)); (67864329157212371, (-23)); (99999999999976918, (-17)); (33063709783685385, (-24)); (18358057879096888, (-23)); ((-33063834311429534), (-24)); (99999999999998268, (-17))];
  [(24515458292588261, (-10)); (27163584142096364, (-17)); (99999999999999423, (-17)); ((-7078279744199198), (-23)); (80562171469761338, (-24)); (70782794778573375, (-24)); (99999999999999689, (-17)); (33060414542221364, (-24)); ((-80562173809869717), (-24)); ((-33060408839805517), (-24)); (99999999999999623, (-17)); (99999999999972999, (-17)); ((-67396120658413268), (-23)); ((-29286648650915099), (-23)); (67396120658521285, (-23)); (99999999999977285, (-17)); (35895250856410771, (-28)); (29286648650666532, (-23)); ((-37869152258451777), (-28)); (99999999999995715, (-17)); (99999999999970013, (-17)); ((-74474399434381763), (-23)); ((-21230433732084716), (-23)); (74474400136347708, (-23)); (999999999999722, (-15)); (33064058363077784, (-24)); (21230431269652931, (-23)); ((-33064216484939141), (-24)); (99999999999997702, (-17))];
  [(24515455484924498, (-10)); (4772768607715191, (-16)); (99999999999999423, (-17)); ((-7078279744199198), (-23)); (80562171469761338, (-24)); (70782794778573375, (-24)); (99999999999999689, (-17)); (33060414542221364, (-24)); ((-80562173809869717), (-24)); ((-33060408839805517), (-24)); (99999999999999623, (-17)); (99999999999976563, (-17)); ((-62796990683919996), (-23)); ((-27288119649596557), (-23)); (62796990684013784, (-23)); (99999999999980282, (-17)); (33508786258278296, (-28)); (2728811964938076, (-22)); ((-35221825456233091), (-28)); (99999999999996281, (-17)); (99999999999973743, (-17)); ((-69875269525960958), (-23)); ((-19231904578716756), (-23)); (69875270161842366, (-23)); (99999999999975531, (-17)); (3306381601145999, (-23)); (19231902268368999, (-23)); ((-33063950337644367), (-24)); (99999999999998102, (-17))];
  [(24515455762422034, (-10)); (51350649610518906, (-17)); (99999999999999423, (-17)); ((-7078279744199198), (-23)); (80562171469761338, (-24)); (70782794778573375, (-24)); (99999999999999689, (-17)); (33060414542221364, (-24)); ((-80562173809869717), (-24)); ((-33060408839805517), (-24)); (99999999999999623, (-17)); (99999999999973543, (-17)); ((-66713771077936267), (-23)); ((-2899013704286053), (-22)); (66713771078042104, (-23)); (9999999999997774, (-16)); (35542108953079753, (-28)); (28990137042616961, (-23)); ((-37476688419246784), (-28)); (99999999999995792, (-17)); (99999999999970579, (-17)); ((-73792049863707591), (-23)); ((-20933922101471344), (-23)); (73792050555868854, (-23)); (99999999999972711, (-17)); (33064022499171965, (-24)); (2093391966160363, (-22)); ((-33064177028676033), (-24)); (99999999999997746, (-17))];
  [(24515457517763325, (-10)); (3775505587146033, (-16)); (99999999999999423, (-17)); ((-7078279744199198), (-23)); (80562171469761338, (-24)); (70782794778573375, (-24)); (99999999999999689, (-17)); (33060414542221364, (-24)); ((-80562173809869717), (-24)); ((-33060408839805517), (-24)); (99999999999999623, (-17)); (99999999999971589, (-17)); ((-6913672459947063), (-22)); ((-30043019414563658), (-23)); (69136724599584291, (-23)); (99999999999976108, (-17)); (36795878006886699, (-28)); (30043019414302079, (-23)); ((-38873348984225231), (-28)); (99999999999995481, (-17)); (99999999999968536, (-17)); ((-76215003350433093), (-23)); ((-21986804553278475), (-23)); (76215004077409888, (-23)); (99999999999970901, (-17)); (33064149828060774, (-24)); (21986802033287779, (-23)); ((-33064317439992021), (-24)); (99999999999997524, (-17))];
  [(24515453544348301, (-10)); (84648272876725494, (-17)); (99999999999999423, (-17)); ((-7078279744199198), (-23)); (80562171469761338, (-24)); (70782794778573375, (-24)); (99999999999999689, (-17)); (33060414542221364, (-24)); ((-80562173809869717), (-24)); ((-33060408839805517), (-24)); (99999999999999623, (-17)); (9999999999996787, (-16)); ((-73519462993116001), (-23)); ((-31947516527777316), (-23)); (73519462993244538, (-23)); (99999999999972977, (-17)); (39058579034196584, (-28)); (31947516527481522, (-23)); ((-41407433037932151), (-28)); (99999999999994893, (-17)); (99999999999964662, (-17)); ((-80597741681114736), (-23)); ((-23891301811387575), (-23)); (8059774247106807, (-22)); (99999999999967459, (-17)); (33064379628991694, (-24)); (2389129914646547, (-22)); ((-33064572196453537), (-24)); (99999999999997091, (-17))];
  [(24515450439468832, (-10)); (30905114618752916, (-17)); (99999999999999423, (-17)); ((-7078279744199198), (-23)); (80562171469761338, (-24)); (70782794778573375, (-24)); (99999999999999689, (-17)); (33060414542221364, (-24)); ((-80562173809869717), (-24)); ((-33060408839805517), (-24)); (99999999999999623, (-17)); (99999999999997224, (-17)); ((-21610330518992118), (-23)); ((-93906616232476231), (-24)); (21610330519003222, (-23)); (99999999999997669, (-17)); (11724419453898013, (-28)); (93906616232220665, (-24)); ((-11927681065060369), (-28)); (99999999999999556, (-17)); (9999999999999587, (-16)); ((-28688609952731944), (-23)); ((-13344451907181629), (-24)); (28688609996850825, (-23)); (99999999999995826, (-17)); (33061604393917517, (-24)); (13344442422266338, (-24)); ((-33061608254884876), (-24)); (99999999999999933, (-17))];
  [(2451545801540798, (-9)); (50154720713684187, (-17)); (99999999999999423, (-17)); ((-7078279744199198), (-23)); (80562171469761338, (-24)); (70782794778573375, (-24)); (99999999999999689, (-17)); (33060414542221364, (-24)); ((-80562173809869717), (-24)); ((-33060408839805517), (-24)); (99999999999999623, (-17)); (99999999999962175, (-17)); ((-79774277380126971), (-23)); ((-34665514921612018), (-23)); (79774277380278304, (-23)); (9999999999996817, (-16)); (42273627977254794, (-28)); (34665514921263755, (-23)); ((-45038417439968725), (-28)); (99999999999993983, (-17)); (99999999999958744, (-17)); ((-86852555978267146), (-23)); ((-26609300412009478), (-23)); (86852556858098871, (-23)); (99999999999962208, (-17)); (33064706172898699, (-24)); (26609297540245184, (-23)); ((-33064937218768733), (-24)); (99999999999996403, (-17))];
  [(24515451760486881, (-10)); (87332147902936219, (-17)); (99999999999999423, (-17)); ((-7078279744199198), (-23)); (80562171469761338, (-24)); (70782794778573375, (-24)); (99999999999999689, (-17)); (33060414542221364, (-24)); ((-80562173809869717), (-24)); ((-33060408839805517), (-24)); (99999999999999623, (-17)); (99999999999975475, (-17)); ((-64241821181854403), (-23)); ((-27915963539685814), (-23)); (64241821181952531, (-23)); (99999999999979361, (-17)); (34258924401344728, (-28)); (27915963539459963, (-23)); ((-36052827390165021), (-28)); (99999999999996092, (-17)); (999999999999726, (-15)); ((-71320100003138493), (-23)); ((-1985974851657279), (-22)); (71320100659780436, (-23)); (99999999999974498, (-17)); (33063892189260813, (-24)); (19859746158447631, (-23)); ((-33064033882243172), (-24)); (99999999999997968, (-17))];
  [(2451545284655577, (-9)); (86532751776671024, (-17)); (99999999999999423, (-17)); ((-7078279744199198), (-23)); (80562171469761338, (-24)); (70782794778573375, (-24)); (99999999999999689, (-17)); (33060414542221364, (-24)); ((-80562173809869717), (-24)); ((-33060408839805517), (-24)); (99999999999999623, (-17)); (99999999999970535, (-17)); ((-70401285182836993), (-23)); ((-3059252791037733), (-22)); (70401285182954858, (-23)); (99999999999975209, (-17)); (37450529915346633, (-28)); (305925279101061, (-21)); ((-39603875734428584), (-28)); (99999999999995326, (-17)); (99999999999967437, (-17)); ((-77479563915632399), (-23)); ((-22536313090899126), (-23)); (77479564660779861, (-23)); (99999999999969913, (-17)); (33064216312008782, (-24)); (22536310529091298, (-23)); ((-33064390881624472), (-24)); (99999999999997413, (-17))];
  [(24515453850256684, (-10)); (67378149931118092, (-17)); (99999999999999423, (-17)); ((-7078279744199198), (-23)); (80562171469761338, (-24)); (70782794778573375, (-24)); (99999999999999689, (-17)); (33060414542221364, (-24)); ((-80562173809869717), (-24)); ((-33060408839805517), (-24)); (99999999999999623, (-17)); (99999999999975031, (-17)); ((-64819548782740839), (-23)); ((-28167012188438622), (-23)); (64819548782840736, (-23)); (99999999999978983, (-17)); (34559313861367496, (-28)); (28167012188208695, (-23)); ((-36384784074527943), (-28)); (99999999999996025, (-17)); (99999999999972133, (-17)); ((-7189782759572514), (-22)); ((-20110797184425548), (-23)); (71897828260668365, (-23)); (99999999999974087, (-17)); (3306392269363659, (-23)); (20110794807196125, (-23)); ((-33064067255610835), (-24)); (99999999999997913, (-17))];
  [(24515457863487997, (-10)); (64026823222002749, (-17)); (99999999999999423, (-17)); ((-7078279744199198), (-23)); (80562171469761338, (-24)); (70782794778573375, (-24)); (99999999999999689, (-17)); (33060414542221364, (-24)); ((-80562173809869717), (-24)); ((-33060408839805517), (-24)); (99999999999999623, (-17)); (99999999999954658, (-17)); ((-87336651465275445), (-23)); ((-37951706849896461), (-23)); (87336651465456837, (-23)); (99999999999961853, (-17)); (46136795224372882, (-28)); (37951706849479038, (-23)); ((-49452109074366035), (-28)); (99999999999992806, (-17)); (9999999999995095, (-16)); ((-94414929954772209), (-23)); ((-29895492590309741), (-23)); (94414930943273804, (-23)); (99999999999955358, (-17)); (33065098582034101, (-24)); (29895489468457423, (-23)); ((-3306538091399036), (-23)); (99999999999995481, (-17))];
  [(24515458551133964, (-10)); (54755470208781132, (-18)); (99999999999999423, (-17)); ((-7078279744199198), (-23)); (80562171469761338, (-24)); (70782794778573375, (-24)); (99999999999999689, (-17)); (33060414542221364, (-24)); ((-80562173809869717), (-24)); ((-33060408839805517), (-24)); (99999999999999623, (-17)); (99999999999981548, (-17)); ((-55701633980969997), (-23)); ((-24204867760123229), (-23)); (55701633981043784, (-23)); (99999999999984479, (-17)); (29808132091987778, (-28)); (24204867759953441, (-23)); ((-31156743851568081), (-28)); (99999999999997069, (-17)); (99999999999978983, (-17)); ((-62779912924944894), (-23)); ((-16148652454667601), (-23)); (62779913458875691, (-23)); (99999999999980227, (-17)); (33063440229871313, (-24)); (16148650378944513, (-23)); ((-33063541647072225), (-24)); (99999999999998646, (-17))];
  [(24515456524946713, (-10)); (23813077002591354, (-17)); (99999999999999423, (-17)); ((-7078279744199198), (-23)); (80562171469761338, (-24)); (70782794778573375, (-24)); (99999999999999689, (-17)); (33060414542221364, (-24)); ((-80562173809869717), (-24)); ((-33060408839805517), (-24)); (99999999999999623, (-17)); (99999999999982325, (-17)); ((-54523562853726956), (-23)); ((-23692942822730524), (-23)); (54523562853797651, (-23)); (99999999999985145, (-17)); (29191274098154007, (-28)); (23692942822567841, (-23)); ((-30482838475620611), (-28)); (99999999999997202, (-17)); (99999999999979794, (-17)); ((-61601841814626354), (-23)); ((-15636727478327315), (-23)); (61601842331630108, (-23)); (99999999999980971, (-17)); (33063377594992471, (-24)); (15636725441559381, (-23)); ((-33063473894179878), (-24)); (99999999999998734, (-17))];
  [(24515450796023947, (-10)); (38561472126438812, (-17)); (99999999999999423, (-17)); ((-7078279744199198), (-23)); (80562171469761338, (-24)); (70782794778573375, (-24)); (99999999999999689, (-17)); (33060414542221364, (-24)); ((-80562173809869717), (-24)); ((-33060408839805517), (-24)); (99999999999999623, (-17)); (99999999999995182, (-17)); ((-28480316637970169), (-23)); ((-12375979895880969), (-23)); (2848031663798946, (-22)); (99999999999995948, (-17)); (15409591810080328, (-28)); (12375979895836582, (-23)); ((-15761836280603347), (-28)); (99999999999999234, (-17)); (99999999999993583, (-17)); ((-35558595973013978), (-23)); ((-43197636904762495), (-24)); (35558596115833935, (-23)); (99999999999993616, (-17)); (33061978445762565, (-24)); (4319762514838444, (-23)); ((-33061993783498107), (-24)); (99999999999999856, (-17))];
  [(24515453748513232, (-10)); (15040996971816367, (-17)); (99999999999999423, (-17)); ((-7078279744199198), (-23)); (80562171469761338, (-24)); (70782794778573375, (-24)); (99999999999999689, (-17)); (33060414542221364, (-24)); ((-80562173809869717), (-24)); ((-33060408839805517), (-24)); (99999999999999623, (-17)); (99999999999993849, (-17)); ((-32156185646290815), (-23)); ((-13973310472917065), (-23)); (32156185646315405, (-23)); (99999999999994826, (-17)); (17372687723835754, (-28)); (13973310472860478, (-23)); ((-17822410214307638), (-28)); (99999999999999023, (-17)); (99999999999992117, (-17)); ((-39234464928526117), (-23)); ((-59170943890382002), (-24)); (39234465124158196, (-23)); (9999999999999224, (-16)); (33062177716713456, (-24)); (59170930918608891, (-24)); ((-33062200971526673), (-24)); (99999999999999767, (-17))];
  [(24515457213652679, (-10)); (53193651988904522, (-17)); (99999999999999423, (-17)); ((-7078279744199198), (-23)); (80562171469761338, (-24)); (70782794778573375, (-24)); (99999999999999689, (-17)); (33060414542221364, (-24)); ((-80562173809869717), (-24)); ((-33060408839805517), (-24)); (99999999999999623, (-17)); (99999999999965006, (-17)); ((-76726394548644395), (-23)); ((-33341072640536117), (-23)); (76726394548784388, (-23)); (99999999999970568, (-17)); (40709404606080948, (-28)); (33341072640213959, (-23)); ((-43267611715691601), (-28)); (99999999999994438, (-17)); (99999999999961686, (-17)); ((-83804673190571377), (-23)); ((-25284858030169088), (-23)); (83804674026606395, (-23)); (99999999999964828, (-17)); (33064547295121787, (-24)); (25284855259196621, (-23)); ((-33064759200719159), (-24)); (99999999999996747, (-17))];
  [(24515459357449901, (-10)); (84022831354385519, (-17)); (99999999999999423, (-17)); ((-7078279744199198), (-23)); (80562171469761338, (-24)); (70782794778573375, (-24)); (99999999999999689, (-17)); (33060414542221364, (-24)); ((-80562173809869717), (-24)); ((-33060408839805517), (-24)); (99999999999999623, (-17)); (99999999999929734, (-17)); ((-10872403624255718), (-22)); ((-47245488136252369), (-23)); (10872403624283829, (-22)); (99999999999940892, (-17)); (56930111573777314, (-28)); (47245488135605474, (-23)); ((-62067018191669376), (-28)); (99999999999988831, (-17)); (99999999999925271, (-17)); ((-1158023144247959), (-21)); ((-39189274583743427), (-23)); (11580231572064495, (-22)); (99999999999932887, (-17)); (33066195143803707, (-24)); (39189270754575193, (-23)); ((-33066648983299155), (-24)); (99999999999992262, (-17))];
  [(24515451340448949, (-10)); (63075007137631534, (-17)); (99999999999999423, (-17)); ((-7078279744199198), (-23)); (80562171469761338, (-24)); (70782794778573375, (-24)); (99999999999999689, (-17)); (33060414542221364, (-24)); ((-80562173809869717), (-24)); ((-33060408839805517), (-24)); (99999999999999623, (-17)); (99999999999986977, (-17)); ((-46820295534757393), (-23)); ((-20345526391866405), (-23)); (46820295534809523, (-23)); (99999999999989042, (-17)); (25145955445908693, (-28)); (20345526391746444, (-23)); ((-26098567751375867), (-28)); (99999999999997935, (-17)); (99999999999984723, (-17)); ((-53898574606324097), (-23)); ((-12289310792789622), (-23)); (53898575012645559, (-23)); (99999999999985412, (-17)); (33062966857209107, (-24)); (1228930901074105, (-22)); ((-33063033097712705), (-24)); (99999999999999201, (-17))];
  [(24515452272712649, (-10)); (64008431653515885, (-17)); (99999999999999423, (-17)); ((-7078279744199198), (-23)); (80562171469761338, (-24)); (70782794778573375, (-24)); (99999999999999689, (-17)); (33060414542221364, (-24)); ((-80562173809869717), (-24)); ((-33060408839805517), (-24)); (99999999999999623, (-17)); (99999999999983247, (-17)); ((-5309899578113922), (-22)); ((-23073904300336228), (-23)); (53098995781206284, (-23)); (99999999999985911, (-17)); (28445606906419249, (-28)); (23073904300181936, (-23)); ((-29670155221594996), (-28)); (99999999999997347, (-17)); (9999999999998076, (-16)); ((-60177274762504354), (-23)); ((-15017688908836169), (-23)); (60177275259039409, (-23)); (99999999999981837, (-17)); (33063301880611374, (-24)); (15017686919174045, (-23)); ((-33063392187681738), (-24)); (99999999999998823, (-17))];
  [(24515451101420531, (-10)); (3227819655960239, (-16)); (99999999999999423, (-17)); ((-7078279744199198), (-23)); (80562171469761338, (-24)); (70782794778573375, (-24)); (99999999999999689, (-17)); (33060414542221364, (-24)); ((-80562173809869717), (-24)); ((-33060408839805517), (-24)); (99999999999999623, (-17)); (99999999999995814, (-17)); ((-26503352318477177), (-23)); ((-11516899892158251), (-23)); (2650335231849388, (-22)); (99999999999996481, (-17)); (14350330970766221, (-28)); (11516899892119812, (-23)); ((-14656054148076691), (-28)); (99999999999999334, (-17)); (99999999999994293, (-17)); ((-33581631681922578), (-23)); ((-34606836213942259), (-24)); (33581631796339254, (-23)); (99999999999994293, (-17)); (33061870926993413, (-24)); (34606825111224545, (-24)); ((-33061882597204031), (-24)); (99999999999999889, (-17))];
  [(24515456926767495, (-10)); (84689161892321707, (-17)); (99999999999999423, (-17)); ((-7078279744199198), (-23)); (80562171469761338, (-24)); (70782794778573375, (-24)); (99999999999999689, (-17)); (33060414542221364, (-24)); ((-80562173809869717), (-24)); ((-33060408839805517), (-24)); (99999999999999623, (-17)); (99999999999947198, (-17)); ((-94251465614450466), (-23)); ((-40956504828796231), (-23)); (94251465614661716, (-23)); (9999999999995558, (-16)); (49648013710865673, (-28)); (40956504828310093, (-23)); ((-53508308894834045), (-28)); (99999999999991607, (-17)); (99999999999943245, (-17)); ((-10132974400460684), (-22)); ((-3290029079781672), (-22)); (10132974509247537, (-22)); (99999999999948597, (-17)); (33065455274605112, (-24)); (32900287447285687, (-23)); ((-3306578866085208), (-23)); (99999999999994527, (-17))];
  [(24515452457691524, (-10)); (55503541394521339, (-17)); (99999999999999423, (-17)); ((-7078279744199198), (-23)); (80562171469761338, (-24)); (70782794778573375, (-24)); (99999999999999689, (-17)); (33060414542221364, (-24)); ((-80562173809869717), (-24)); ((-33060408839805517), (-24)); (99999999999999623, (-17)); (99999999999985711, (-17)); ((-4902478196746175), (-22)); ((-21303474988254556), (-23)); (49024781967518893, (-23)); (99999999999987976, (-17)); (26305793465043714, (-28)); (21303474988123031, (-23)); ((-27350899323153044), (-28)); (99999999999997735, (-17)); (9999999999998338, (-16)); ((-56103061007358194), (-23)); ((-13247259462059108), (-23)); (56103061445353902, (-23)); (9999999999998419, (-16)); (33063084616992805, (-24)); (1324725760711676, (-22)); ((-33063159008932635), (-24)); (99999999999999079, (-17))];
  [(24515454622184765, (-10)); (51377987287882332, (-17)); (99999999999999423, (-17)); ((-7078279744199198), (-23)); (80562171469761338, (-24)); (70782794778573375, (-24)); (99999999999999689, (-17)); (33060414542221364, (-24)); ((-80562173809869717), (-24)); ((-33060408839805517), (-24)); (99999999999999623, (-17)); (99999999999978773, (-17)); ((-59750041840685918), (-23)); ((-25964083218087352), (-23)); (59750041840770812, (-23)); (99999999999982137, (-17)); (31922461428514624, (-28)); (25964083217891979, (-23)); ((-33474334415473095), (-28)); (99999999999996625, (-17)); (99999999999976052, (-17)); ((-66828320726500208), (-23)); ((-17907868046473978), (-23)); (66828321318600813, (-23)); (99999999999977596, (-17)); (33063654924289472, (-24)); (17907865836881433, (-23)); ((-33063774651350375), (-24)); (99999999999998335, (-17))];
  [(24515457581271967, (-10)); (10900090576754806, (-17)); (99999999999999423, (-17)); ((-7078279744199198), (-23)); (80562171469761338, (-24)); (70782794778573375, (-24)); (99999999999999689, (-17)); (33060414542221364, (-24)); ((-80562173809869717), (-24)); ((-33060408839805517), (-24)); (99999999999999623, (-17)); (99999999999983247, (-17)); ((-53085069653609843), (-23)); ((-23067852771013948), (-23)); (53085069653676854, (-23)); (99999999999985911, (-17)); (28437278763536011, (-28)); (23067852770859735, (-23)); ((-2966238366042262), (-27)); (99999999999997347, (-17)); (99999999999980771, (-17)); ((-60163348635175035), (-23)); ((-15011637379053484), (-23)); (60163349131509978, (-23)); (99999999999981848, (-17)); (33063301036577897, (-24)); (1501163538985185, (-22)); ((-33063391406242182), (-24)); (99999999999998823, (-17))];
  [(24515459106094018, (-10)); (4423386577683468, (-16)); (99999999999999423, (-17)); ((-7078279744199198), (-23)); (80562171469761338, (-24)); (70782794778573375, (-24)); (99999999999999689, (-17)); (33060414542221364, (-24)); ((-80562173809869717), (-24)); ((-33060408839805517), (-24)); (99999999999999623, (-17)); (99999999999959222, (-17)); ((-82826680467923354), (-23)); ((-35991921455655228), (-23)); (82826680468086503, (-23)); (99999999999965694, (-17)); (4383676034150832, (-27)); (35991921455279802, (-23)); ((-46817549836930539), (-28)); (99999999999993527, (-17)); (9999999999995568, (-16)); ((-89904959022211776), (-23)); ((-27935707046966632), (-23)); (8990495994590562, (-22)); (99999999999959521, (-17)); (33064864945216515, (-24)); (27935704074260008, (-23)); ((-33065116070875934), (-24)); (99999999999996048, (-17))];
  [(24515452395664994, (-10)); (1874138882829075, (-16)); (99999999999999423, (-17)); ((-7078279744199198), (-23)); (80562171469761338, (-24)); (70782794778573375, (-24)); (99999999999999689, (-17)); (33060414542221364, (-24)); ((-80562173809869717), (-24)); ((-33060408839805517), (-24)); (99999999999999623, (-17)); (99999999999995937, (-17)); ((-26139486740360401), (-23)); ((-11358783916422256), (-23)); (26139486740376648, (-23)); (99999999999996581, (-17)); (14155467785499719, (-28)); (11358783916384866, (-23)); ((-14452883334570288), (-28)); (99999999999999356, (-17)); (99999999999994416, (-17)); ((-33217766109033192), (-23)); ((-33025676336286741), (-24)); (33217766218222187, (-23)); (99999999999994416, (-17)); (33061851147536911, (-24)); (33025665353876492, (-24)); ((-33061862168203774), (-24)); (99999999999999889, (-17))];
  [(24515458029264878, (-10)); (11070476406757257, (-17)); (99999999999999423, (-17)); ((-7078279744199198), (-23)); (80562171469761338, (-24)); (70782794778573375, (-24)); (99999999999999689, (-17)); (33060414542221364, (-24)); ((-80562173809869717), (-24)); ((-33060408839805517), (-24)); (99999999999999623, (-17)); (99999999999981404, (-17)); ((-55931964979397703), (-23)); ((-2430495694759644), (-22)); (55931964979472094, (-23)); (99999999999984357, (-17)); (29929171965942799, (-28)); (24304956947425239, (-23)); ((-31288305279986162), (-28)); (99999999999997047, (-17)); (99999999999978817, (-17)); ((-63010243920063602), (-23)); ((-16248741649755665), (-23)); (63010244457303895, (-23)); (99999999999980083, (-17)); (33063452519418313, (-24)); (16248739566416218, (-23)); ((-33063554874060982), (-24)); (99999999999998623, (-17))];
  [(24515458308281773, (-10)); (23135476448038539, (-17)); (99999999999999423, (-17)); ((-7078279744199198), (-23)); (80562171469761338, (-24)); (70782794778573375, (-24)); (99999999999999689, (-17)); (33060414542221364, (-24)); ((-80562173809869717), (-24)); ((-33060408839805517), (-24)); (99999999999999623, (-17)); (99999999999974865, (-17)); ((-65026211674276674), (-23)); ((-28256816517638808), (-23)); (65026211674377238, (-23)); (99999999999978861, (-17)); (3466592195111376, (-27)); (28256816517407409, (-23)); ((-36503577938162834), (-28)); (99999999999996014, (-17)); (99999999999971956, (-17)); ((-72104490484291987), (-23)); ((-20200601520458108), (-23)); (72104491152204772, (-23)); (99999999999973943, (-17)); (33063933520937636, (-24)); (20200599136394757, (-23)); ((-33064079198563217), (-24)); (99999999999997913, (-17))];
  [(24515459918218637, (-10)); (74602060921839131, (-17)); (99999999999999423, (-17)); ((-7078279744199198), (-23)); (80562171469761338, (-24)); (70782794778573375, (-24)); (99999999999999689, (-17)); (33060414542221364, (-24)); ((-80562173809869717), (-24)); ((-33060408839805517), (-24)); (99999999999999623, (-17)); (9999999999993272, (-16)); ((-10638968928063549), (-22)); ((-46231109321770759), (-23)); (10638968928090467, (-22)); (99999999999943401, (-17)); (55762767927038505, (-28)); (46231109321151335, (-23)); ((-60680349633912556), (-28)); (9999999999998932, (-16)); (99999999999928335, (-17)); ((-11346796749641021), (-22)); ((-38174895692087104), (-23)); (11346796875871247, (-22)); (99999999999935563, (-17)); (33066076528839254, (-24)); (38174891940122011, (-23)); ((-33066509598437843), (-24)); (99999999999992661, (-17))];
  [(24515458047690969, (-10)); (39633502733179626, (-17)); (99999999999999423, (-17)); ((-7078279744199198), (-23)); (80562171469761338, (-24)); (70782794778573375, (-24)); (99999999999999689, (-17)); (33060414542221364, (-24)); ((-80562173809869717), (-24)); ((-33060408839805517), (-24)); (99999999999999623, (-17)); (99999999999967859, (-17)); ((-73530884412070397), (-23)); ((-31952479648422833), (-23)); (73530884412198966, (-23)); (99999999999972966, (-17)); (39064131819145036, (-28)); (31952479648126948, (-23)); ((-41413539264567589), (-28)); (99999999999994893, (-17)); (9999999999996465, (-16)); ((-8060916309990505), (-22)); ((-23896264932410688), (-23)); (80609163890022498, (-23)); (99999999999967448, (-17)); (33064380193471516, (-24)); (23896262267110891, (-23)); ((-3306457281058923), (-23)); (99999999999997091, (-17))];
  [(24515451205962664, (-10)); (78037414824445483, (-17)); (99999999999999423, (-17)); ((-7078279744199198), (-23)); (80562171469761338, (-24)); (70782794778573375, (-24)); (99999999999999689, (-17)); (33060414542221364, (-24)); ((-80562173809869717), (-24)); ((-33060408839805517), (-24)); (99999999999999623, (-17)); (99999999999981914, (-17)); ((-55156876005329194), (-23)); ((-23968145896659867), (-23)); (55156876005401541, (-23)); (9999999999998479, (-16)); (29523299843673149, (-28)); (23968145896493377, (-23)); ((-30845326293160724), (-28)); (99999999999997125, (-17)); (99999999999979361, (-17)); ((-6223515495713023), (-22)); ((-15911930573194285), (-23)); (62235155483233701, (-23)); (99999999999980571, (-17)); (33063411307777731, (-24)); (15911928515484669, (-23)); ((-33063510337758041), (-24)); (99999999999998679, (-17))];
  [(24515454111056537, (-10)); (85208365374618955, (-17)); (99999999999999423, (-17)); ((-7078279744199198), (-23)); (80562171469761338, (-24)); (70782794778573375, (-24)); (99999999999999689, (-17)); (33060414542221364, (-24)); ((-80562173809869717), (-24)); ((-33060408839805517), (-24)); (99999999999999623, (-17)); (99999999999964451, (-17)); ((-77331702667000804), (-23)); ((-33604106264138825), (-23)); (77331702667143021, (-23)); (99999999999970091, (-17)); (41019804655550104, (-28)); (33604106263811563, (-23)); ((-4361844219147315), (-27)); (99999999999994349, (-17)); (99999999999961109, (-17)); ((-84409981300231754), (-23)); ((-25547891673783578), (-23)); (84409982144964753, (-23)); (99999999999964306, (-17)); (33064578822775938, (-24)); (25547888882793976, (-23)); ((-33064794469949264), (-24)); (9999999999999668, (-16))];
  [(24515453001640309, (-10)); (88440652688536125, (-17)); (99999999999999423, (-17)); ((-7078279744199198), (-23)); (80562171469761338, (-24)); (70782794778573375, (-24)); (99999999999999689, (-17)); (33060414542221364, (-24)); ((-80562173809869717), (-24)); ((-33060408839805517), (-24)); (99999999999999623, (-17)); (99999999999968736, (-17)); ((-72518709236743562), (-23)); ((-31512643973822017), (-23)); (72518709236868627, (-23)); (99999999999973699, (-17)); (38543290246433491, (-28)); (31512643973534222, (-23)); ((-40829006842102444), (-28)); (99999999999995026, (-17)); (99999999999965572, (-17)); ((-79596987939119432), (-23)); ((-23456429224346875), (-23)); (79596988714692624, (-23)); (99999999999968259, (-17)); (33064327293884195, (-24)); (23456426592518573, (-23)); ((-33064514046019038), (-24)); (99999999999997191, (-17))];
  [(24515457538303183, (-10)); (751163336456799, (-15)); (99999999999999423, (-17)); ((-7078279744199198), (-23)); (80562171469761338, (-24)); (70782794778573375, (-24)); (99999999999999689, (-17)); (33060414542221364, (-24)); ((-80562173809869717), (-24)); ((-33060408839805517), (-24)); (99999999999999623, (-17)); (99999999999949551, (-17)); ((-92134822051028746), (-23)); ((-40036727932819679), (-23)); (92134822051230615, (-23)); (99999999999957567, (-17)); (48575701146517552, (-28)); (40036727932355129, (-23)); ((-52264303995741557), (-28)); (99999999999991984, (-17)); (99999999999945688, (-17)); ((-99213100471593492), (-23)); ((-3198051383186287), (-22)); (99213101529045285, (-23)); (99999999999950739, (-17)); (33065346338135311, (-24)); (31980510551331576, (-23)); ((-33065663609318479), (-24)); (99999999999994837, (-17))];
  [(24515453695802432, (-10)); (31275930899849647, (-17)); (99999999999999423, (-17)); ((-7078279744199198), (-23)); (80562171469761338, (-24)); (70782794778573375, (-24)); (99999999999999689, (-17)); (33060414542221364, (-24)); ((-80562173809869717), (-24)); ((-33060408839805517), (-24)); (99999999999999623, (-17)); (99999999999989631, (-17)); ((-41772423820906137), (-23)); ((-1815199888388035), (-22)); (41772423820947631, (-23)); (99999999999991274, (-17)); (22480975562509904, (-28)); (18151998883784861, (-23)); ((-23239188351453777), (-28)); (99999999999998357, (-17)); (99999999999987566, (-17)); ((-48850702964991953), (-23)); ((-10095783117918631), (-23)); (48850703298785986, (-23)); (9999999999998801, (-16)); (33062696292546438, (-24)); (10095781502781467, (-23)); ((-3306274560713272), (-23)); (99999999999999445, (-17))];
  [(245154521241426, (-8)); (61940211562853653, (-17)); (99999999999999423, (-17)); ((-7078279744199198), (-23)); (80562171469761338, (-24)); (70782794778573375, (-24)); (99999999999999689, (-17)); (33060414542221364, (-24)); ((-80562173809869717), (-24)); ((-33060408839805517), (-24)); (99999999999999623, (-17)); (99999999999984579, (-17)); ((-5092330660518216), (-22)); ((-22128469410180117), (-23)); (50923306605243824, (-23)); (99999999999987021, (-17)); (27304072623043462, (-28)); (22128469410038207, (-23)); ((-28431146326113321), (-28)); (99999999999997558, (-17)); (99999999999982181, (-17)); ((-58001585617803857), (-23)); ((-14072253946750766), (-23)); (58001586083077944, (-23)); (99999999999983102, (-17)); (33063185974400966, (-24)); (1407225202903118, (-22)); ((-33063267617587), (-21)); (99999999999998967, (-17))];
  [(24515453503060522, (-10)); (57573311438834152, (-18)); (99999999999999423, (-17)); ((-7078279744199198), (-23)); (80562171469761338, (-24)); (70782794778573375, (-24)); (99999999999999689, (-17)); (33060414542221364, (-24)); ((-80562173809869717), (-24)); ((-33060408839805517), (-24)); (99999999999999623, (-17)); (99999999999996292, (-17)); ((-2497013334913989), (-22)); ((-10850647220845454), (-23)); (24970133349154713, (-23)); (99999999999996891, (-17)); (13528687467568645, (-28)); (10850647220811335, (-23)); ((-13799517084578383), (-28)); (99999999999999423, (-17)); (99999999999994826, (-17)); ((-32048412734611911), (-23)); ((-27944308993925382), (-24)); (32048412827000786, (-23)); (99999999999994815, (-17)); (33061787527448743, (-24)); (27944298398145796, (-24)); ((-33061796471905424), (-24)); (99999999999999922, (-17))];
  [(24515458425201736, (-10)); (63249580377428949, (-17)); (99999999999999423, (-17)); ((-7078279744199198), (-23)); (80562171469761338, (-24)); (70782794778573375, (-24)); (99999999999999689, (-17)); (33060414542221364, (-24)); ((-80562173809869717), (-24)); ((-33060408839805517), (-24)); (99999999999999623, (-17)); (99999999999951539, (-17)); ((-90299606336914436), (-23)); ((-39239244103381196), (-23)); (90299606337108343, (-23)); (99999999999959233, (-17)); (47645001379565078, (-28)); (39239244102934969, (-23)); ((-51187387661855155), (-28)); (99999999999992306, (-17)); (99999999999947731, (-17)); ((-97377884783844459), (-23)); ((-31183029941751237), (-23)); (9737788581492388, (-22)); (99999999999952527, (-17)); (33065251789669536, (-24)); (31183026721912157, (-23)); ((-33065555353203832), (-24)); (99999999999995093, (-17))];
  [(24515455655038082, (-10)); (64094761328373662, (-17)); (99999999999999423, (-17)); ((-7078279744199198), (-23)); (80562171469761338, (-24)); (70782794778573375, (-24)); (99999999999999689, (-17)); (33060414542221364, (-24)); ((-80562173809869717), (-24)); ((-33060408839805517), (-24)); (99999999999999623, (-17)); (9999999999996757, (-16)); ((-73858242792365121), (-23)); ((-32094731599960949), (-23)); (73858242792494844, (-23)); (99999999999972722, (-17)); (39232933689341689, (-28)); (32094731599662423, (-23)); ((-41603387401778491), (-28)); (99999999999994849, (-17)); (99999999999964351, (-17)); ((-80936521475496846), (-23)); ((-24038516894771429), (-23)); (80936522270318217, (-23)); (99999999999967182, (-17)); (3306439733738548, (-23)); (24038514218646229, (-23)); ((-33064591896092855), (-24)); (99999999999997058, (-17))];
  [(24515457742651082, (-10)); (17183948721707287, (-17)); (99999999999999423, (-17)); ((-7078279744199198), (-23)); (80562171469761338, (-24)); (70782794778573375, (-24)); (99999999999999689, (-17)); (33060414542221364, (-24)); ((-80562173809869717), (-24)); ((-33060408839805517), (-24)); (99999999999999623, (-17)); (9999999999998006, (-16)); ((-57919963885215555), (-23)); ((-25168831964148308), (-23)); (57919963885295324, (-23)); (99999999999983225, (-17)); (30968010636585566, (-28)); (25168831963964724, (-23)); ((-32425173657202322), (-28)); (99999999999996836, (-17)); (99999999999977418, (-17)); ((-64998242797321282), (-23)); ((-17112616732031704), (-23)); (64998243363126193, (-23)); (99999999999978817, (-17)); (33063558004860099, (-24)); (17112614582954914, (-23)); ((-33063669172373542), (-24)); (9999999999999849, (-16))];
  [(2451545906251173, (-9)); (81495936855413009, (-17)); (99999999999999423, (-17)); ((-7078279744199198), (-23)); (80562171469761338, (-24)); (70782794778573375, (-24)); (99999999999999689, (-17)); (33060414542221364, (-24)); ((-80562173809869717), (-24)); ((-33060408839805517), (-24)); (99999999999999623, (-17)); (99999999999933997, (-17)); ((-10537149225673313), (-22)); ((-4578865688960828), (-22)); (10537149225699717, (-22)); (99999999999944478, (-17)); (55251295855699833, (-28)); (45788656889000661, (-23)); ((-60076943420028783), (-28)); (99999999999989508, (-17)); (99999999999929645, (-17)); ((-11244977048713563), (-22)); ((-37732443226262503), (-23)); (11244977173480546, (-22)); (99999999999936706, (-17)); (3306602456135085, (-23)); (37732439507971745, (-23)); ((-33066448944636313), (-24)); (99999999999992817, (-17))];
  [(24515459824773092, (-10)); (37255415310443218, (-17)); (99999999999999423, (-17)); ((-7078279744199198), (-23)); (80562171469761338, (-24)); (70782794778573375, (-24)); (99999999999999689, (-17)); (33060414542221364, (-24)); ((-80562173809869717), (-24)); ((-33060408839805517), (-24)); (99999999999999623, (-17)); (99999999999959088, (-17)); ((-82954225154558283), (-23)); ((-3604734536289978), (-22)); (8295422515472193, (-22)); (99999999999965583, (-17)); (43900619187770636, (-28)); (36047345362523195, (-23)); ((-46891934779580424), (-28)); (99999999999993505, (-17)); (99999999999955547, (-17)); ((-9003250370701436), (-22)); ((-27991130958427878), (-23)); (90032504632540993, (-23)); (99999999999959399, (-17)); (33064871433853876, (-24)); (27991127981503348, (-23)); ((-33065123548600782), (-24)); (99999999999996037, (-17))];
  [(24515456267691739, (-10)); (86415006214820611, (-17)); (99999999999999423, (-17)); ((-7078279744199198), (-23)); (80562171469761338, (-24)); (70782794778573375, (-24)); (99999999999999689, (-17)); (33060414542221364, (-24)); ((-80562173809869717), (-24)); ((-33060408839805517), (-24)); (99999999999999623, (-17)); (99999999999950473, (-17)); ((-91273194442446801), (-23)); ((-39662311955775155), (-23)); (91273194442644922, (-23)); (99999999999958344, (-17)); (4813922638139361, (-27)); (39662311955319256, (-23)); ((-5175915251953711), (-27)); (9999999999999214, (-16)); (99999999999946632, (-17)); ((-98351472875389961), (-23)); ((-31606097826332511), (-23)); (98351473920460016, (-23)); (99999999999951572, (-17)); (33065301996513145, (-24)); (31606094574296058, (-23)); ((-33065612829148801), (-24)); (9999999999999496, (-16))];
  [(24515457545879348, (-10)); (89928429004834609, (-17)); (99999999999999423, (-17)); ((-7078279744199198), (-23)); (80562171469761338, (-24)); (70782794778573375, (-24)); (99999999999999689, (-17)); (33060414542221364, (-24)); ((-80562173809869717), (-24)); ((-33060408839805517), (-24)); (99999999999999623, (-17)); (9999999999993906, (-16)); ((-10124908024408558), (-22)); ((-43997283333492863), (-23)); (10124908024432936, (-22)); (99999999999948741, (-17)); (53180438173509106, (-28)); (43997283332931857, (-23)); ((-57635562988878064), (-28)); (99999999999990319, (-17)); (99999999999934852, (-17)); ((-10832735853371196), (-22)); ((-3594106953385804), (-22)); (10832735972213963, (-22)); (99999999999941258, (-17)); (33065814154479407, (-24)); (35941065951904614, (-23)); ((-33066203538609142), (-24)); (99999999999993483, (-17))];
  [(24515457987594246, (-10)); (33617954427585162, (-17)); (99999999999999423, (-17)); ((-7078279744199198), (-23)); (80562171469761338, (-24)); (70782794778573375, (-24)); (99999999999999689, (-17)); (33060414542221364, (-24)); ((-80562173809869717), (-24)); ((-33060408839805517), (-24)); (99999999999999623, (-17)); (99999999999971301, (-17)); ((-6948029267866048), (-22)); ((-30192315210216815), (-23)); (69480292678775263, (-23)); (99999999999975853, (-17)); (36974116151747836, (-28)); (30192315209952631, (-23)); ((-39072078905633134), (-28)); (99999999999995448, (-17)); (99999999999968237, (-17)); ((-76558571424687154), (-23)); ((-22136100360290154), (-23)); (76558572156600711, (-23)); (99999999999970623, (-17)); (33064167928661083, (-24)); (22136097828938194, (-23)); ((-33064337418659893), (-24)); (99999999999997502, (-17))];
  [(24515456308707711, (-10)); (32431445857066155, (-17)); (99999999999999423, (-17)); ((-7078279744199198), (-23)); (80562171469761338, (-24)); (70782794778573375, (-24)); (99999999999999689, (-17)); (33060414542221364, (-24)); ((-80562173809869717), (-24)); ((-33060408839805517), (-24)); (99999999999999623, (-17)); (99999999999979672, (-17)); ((-58475874953059739), (-23)); ((-25410400347937713), (-23)); (58475874953141054, (-23)); (99999999999982903, (-17)); (31257843178258501, (-28)); (25410400347750587, (-23)); ((-32743807665269742), (-28)); (9999999999999678, (-16)); (99999999999976996, (-17)); ((-65554153857179099), (-23)); ((-17354185134199786), (-23)); (65554154430971669, (-23)); (99999999999978451, (-17)); (3306358743596819, (-23)); (1735418296674055, (-22)); ((-33063701206763189), (-24)); (99999999999998446, (-17))];
  [(245154527273688, (-8)); (73975759093263138, (-17)); (99999999999999423, (-17)); ((-7078279744199198), (-23)); (80562171469761338, (-24)); (70782794778573375, (-24)); (99999999999999689, (-17)); (33060414542221364, (-24)); ((-80562173809869717), (-24)); ((-33060408839805517), (-24)); (99999999999999623, (-17)); (99999999999977163, (-17)); ((-61984312843182771), (-23)); ((-26934974545092671), (-23)); (61984312843274134, (-23)); (99999999999980782, (-17)); (33086245575805742, (-28)); (26934974544882416, (-23)); ((-34756086897402838), (-28)); (99999999999996381, (-17)); (99999999999974365, (-17)); ((-69062591696898896), (-23)); ((-18878759447345356), (-23)); (69062592321103097, (-23)); (99999999999976086, (-17)); (33063773102680988, (-24)); (18878757163870981, (-23)); ((-3306390351382253), (-23)); (99999999999998168, (-17))];
  [(24515455238642348, (-10)); (71646188565647606, (-17)); (99999999999999423, (-17)); ((-7078279744199198), (-23)); (80562171469761338, (-24)); (70782794778573375, (-24)); (99999999999999689, (-17)); (33060414542221364, (-24)); ((-80562173809869717), (-24)); ((-33060408839805517), (-24)); (99999999999999623, (-17)); (99999999999965727, (-17)); ((-7593203185832871), (-22)); ((-32995886295566362), (-23)); (75932031858465823, (-23)); (99999999999971179, (-17)); (40301277078667807, (-28)); (32995886295250837, (-23)); ((-42806314048959848), (-28)); (99999999999994549, (-17)); (9999999999996243, (-16)); ((-83010310511667756), (-23)); ((-24939671658937314), (-23)); (83010311336288222, (-23)); (99999999999965494, (-17)); (33064505842413405, (-24)); (24939668914233817, (-23)); ((-33064712826619975), (-24)); (99999999999996825, (-17))];
  [(24515459307649257, (-10)); (41164735230477745, (-17)); (99999999999999423, (-17)); ((-7078279744199198), (-23)); (80562171469761338, (-24)); (70782794778573375, (-24)); (99999999999999689, (-17)); (33060414542221364, (-24)); ((-80562173809869717), (-24)); ((-33060408839805517), (-24)); (99999999999999623, (-17)); (99999999999959854, (-17)); ((-82181686141418543), (-23)); ((-35711642388961118), (-23)); (82181686141579151, (-23)); (99999999999966227, (-17)); (43506363176936361, (-28)); (35711642388591515, (-23)); ((-46441184231582611), (-28)); (99999999999993616, (-17)); (99999999999956335, (-17)); ((-89259964704973145), (-23)); ((-27655427958948695), (-23)); (89259965619398575, (-23)); (99999999999960099, (-17)); (33064831385878804, (-24)); (27655425007571981, (-23)); ((-33065078235926062), (-24)); (99999999999996114, (-17))];
  [(2451545674767253, (-9)); (697292206174708, (-15)); (99999999999999423, (-17)); ((-7078279744199198), (-23)); (80562171469761338, (-24)); (70782794778573375, (-24)); (99999999999999689, (-17)); (33060414542221364, (-24)); ((-80562173809869717), (-24)); ((-33060408839805517), (-24)); (99999999999999623, (-17)); (99999999999958067, (-17)); ((-83996669069887945), (-23)); ((-36500334165331487), (-23)); (83996669070055732, (-23)); (99999999999964728, (-17)); (44434254382820322, (-28)); (36500334164945377, (-23)); ((-47499781885562697), (-28)); (99999999999993339, (-17)); (99999999999954481, (-17)); ((-9107494760736794), (-22)); ((-2844411979532329), (-22)); (91074948547874287, (-23)); (99999999999958467, (-17)); (33064925637188553, (-24)); (28444116783925107, (-23)); ((-33065184653949469), (-24)); (99999999999995903, (-17))];
  [(24515458947089869, (-10)); (95170559591530324, (-17)); (99999999999999423, (-17)); ((-7078279744199198), (-23)); (80562171469761338, (-24)); (70782794778573375, (-24)); (99999999999999689, (-17)); (33060414542221364, (-24)); ((-80562173809869717), (-24)); ((-33060408839805517), (-24)); (99999999999999623, (-17)); (9999999999992405, (-16)); ((-11303640979201784), (-22)); ((-49119408523133199), (-23)); (11303640979232169, (-22)); (99999999999936118, (-17)); (59083229693326077, (-28)); (49119408522433963, (-23)); ((-64634964047627363), (-28)); (99999999999987943, (-17)); (9999999999991942, (-16)); ((-12011468791230357), (-22)); ((-4106319511319356), (-22)); (12011468927012625, (-22)); (99999999999927802, (-17)); (33066413929755855, (-24)); (41063191141401929, (-23)); ((-33066907104297735), (-24)); (99999999999991518, (-17))];
  [(24515457517011175, (-10)); (34328590665661118, (-17)); (99999999999999423, (-17)); ((-7078279744199198), (-23)); (80562171469761338, (-24)); (70782794778573375, (-24)); (99999999999999689, (-17)); (33060414542221364, (-24)); ((-80562173809869717), (-24)); ((-33060408839805517), (-24)); (99999999999999623, (-17)); (99999999999973288, (-17)); ((-67034458221020584), (-23)); ((-29129490041978397), (-23)); (67034458221127448, (-23)); (99999999999977529, (-17)); (35708129938968598, (-28)); (29129490041732482, (-23)); ((-3766098544133456), (-27)); (99999999999995759, (-17)); (99999999999970313, (-17)); ((-74112737002184832), (-23)); ((-21073275111191281), (-23)); (74112737698954039, (-23)); (99999999999972478, (-17)); (33064039359623005, (-24)); (21073272660719027, (-23)); ((-33064195557016182), (-24)); (99999999999997724, (-17))];
  [(24515457703569736, (-10)); (26371787274521652, (-17)); (99999999999999423, (-17)); ((-7078279744199198), (-23)); (80562171469761338, (-24)); (70782794778573375, (-24)); (99999999999999689, (-17)); (33060414542221364, (-24)); ((-80562173809869717), (-24)); ((-33060408839805517), (-24)); (99999999999999623, (-17)); (99999999999976175, (-17)); ((-63305450679452268), (-23)); ((-27509068405921316), (-23)); (6330545067954757, (-22)); (99999999999979972, (-17)); (33773083086041777, (-28)); (27509068405701998, (-23)); ((-3551436922322182), (-27)); (99999999999996214, (-17)); (99999999999973332, (-17)); ((-70383729514188534), (-23)); ((-19452853351851438), (-23)); (70383730157375909, (-23)); (99999999999975175, (-17)); (33063842850769071, (-24)); (19452851024690037, (-23)); ((-33063979748414755), (-24)); (99999999999998057, (-17))];
  [(24515454633149011, (-10)); (28718454255055037, (-18)); (99999999999999423, (-17)); ((-7078279744199198), (-23)); (80562171469761338, (-24)); (70782794778573375, (-24)); (99999999999999689, (-17)); (33060414542221364, (-24)); ((-80562173809869717), (-24)); ((-33060408839805517), (-24)); (99999999999999623, (-17)); (99999999999994604, (-17)); ((-30121990956052541), (-23)); ((-1308936129796637), (-22)); (30121990956074119, (-23)); (99999999999995459, (-17)); (16286208539032897, (-28)); (13089361297916718, (-23)); ((-16681100944992977), (-28)); (99999999999999145, (-17)); (9999999999999295, (-16)); ((-37200270267511623), (-23)); ((-5033145146836128), (-23)); (37200270433917842, (-23)); (99999999999993017, (-17)); (33062067430003773, (-24)); (503314391691793, (-22)); ((-33062086214915826), (-24)); (99999999999999822, (-17))];
  [(24515459189852164, (-10)); (82798770351504181, (-17)); (99999999999999423, (-17)); ((-7078279744199198), (-23)); (80562171469761338, (-24)); (70782794778573375, (-24)); (99999999999999689, (-17)); (33060414542221364, (-24)); ((-80562173809869717), (-24)); ((-33060408839805517), (-24)); (99999999999999623, (-17)); (9999999999993201, (-16)); ((-10694864986006063), (-22)); ((-46474002850188069), (-23)); (10694864986033264, (-22)); (99999999999942812, (-17)); (56042662687780639, (-28)); (46474002849562128, (-23)); ((-61013416541300103), (-28)); (99999999999989198, (-17)); (99999999999927602, (-17)); ((-11402692806780514), (-22)); ((-38417789238983936), (-23)); (11402692933814016, (-22)); (9999999999993493, (-16)); (33066104968625923, (-24)); (38417785468532566, (-23)); ((-33066543077055372), (-24)); (99999999999992562, (-17))];
  [(2451545673009438, (-9)); (50668678371628362, (-17)); (99999999999999423, (-17)); ((-7078279744199198), (-23)); (80562171469761338, (-24)); (70782794778573375, (-24)); (99999999999999689, (-17)); (33060414542221364, (-24)); ((-80562173809869717), (-24)); ((-33060408839805517), (-24)); (99999999999999623, (-17)); (99999999999969003, (-17)); ((-72220305261939464), (-23)); ((-31382974014707664), (-23)); (72220305262063481, (-23)); (99999999999973921, (-17)); (38388371193195381, (-28)); (31382974014422235, (-23)); ((-40655256938748607), (-28)); (99999999999995071, (-17)); (9999999999996585, (-16)); ((-79298583968602295), (-23)); ((-23326759255367142), (-23)); (79298584739887626, (-23)); (99999999999968503, (-17)); (33064311561578219, (-24)); (23326756633406702, (-23)); ((-33064496579244689), (-24)); (99999999999997224, (-17))];
  [(24515457479268136, (-10)); (19647931123914608, (-18)); (99999999999999423, (-17)); ((-7078279744199198), (-23)); (80562171469761338, (-24)); (70782794778573375, (-24)); (99999999999999689, (-17)); (33060414542221364, (-24)); ((-80562173809869717), (-24)); ((-33060408839805517), (-24)); (99999999999999623, (-17)); (99999999999986877, (-17)); ((-46990471922408734), (-23)); ((-20419475693321397), (-23)); (46990471922461245, (-23)); (99999999999988953, (-17)); (25235344271647462, (-28)); (2041947569320056, (-22)); ((-26195157154518256), (-28)); (99999999999997913, (-17)); (99999999999984612, (-17)); ((-54068750991530642), (-23)); ((-12363260099870726), (-23)); (54068751400297201, (-23)); (99999999999985312, (-17)); (33062975933189444, (-24)); (12363258312195094, (-23)); ((-330630428089964), (-22)); (99999999999999178, (-17))];
  [(24515451031583534, (-10)); (33549493953737197, (-17)); (99999999999999423, (-17)); ((-7078279744199198), (-23)); (80562171469761338, (-24)); (70782794778573375, (-24)); (99999999999999689, (-17)); (33060414542221364, (-24)); ((-80562173809869717), (-24)); ((-33060408839805517), (-24)); (99999999999999623, (-17)); (99999999999995703, (-17)); ((-26854095096906572), (-23)); ((-11669313420587089), (-23)); (2685409509692372, (-22)); (99999999999996392, (-17)); (1453853238024489, (-27)); (11669313420547625, (-23)); ((-14852008511923032), (-28)); (99999999999999312, (-17)); (99999999999994171, (-17)); ((-33932374455313107), (-23)); ((-36130971614187741), (-24)); (33932374574768935, (-23)); (99999999999994182, (-17)); (33061890029700337, (-24)); (36130960395501291, (-24)); ((-33061902300522966), (-24)); (99999999999999878, (-17))];
  [(24515452142885281, (-10)); (46072230037334294, (-17)); (99999999999999423, (-17)); ((-7078279744199198), (-23)); (80562171469761338, (-24)); (70782794778573375, (-24)); (99999999999999689, (-17)); (33060414542221364, (-24)); ((-80562173809869717), (-24)); ((-33060408839805517), (-24)); (99999999999999623, (-17)); (99999999999989853, (-17)); ((-41323763682134859), (-23)); ((-1795703585526798), (-22)); (41323763682175464, (-23)); (99999999999991473, (-17)); (22242795656882938, (-28)); (17957035855174531, (-23)); ((-22984392167302303), (-28)); (9999999999999839, (-16)); (99999999999987799, (-17)); ((-48402042832666263), (-23)); ((-99008200744733529), (-24)); (48402043160014046, (-23)); (99999999999988243, (-17)); (33062672113105584, (-24)); (99008184741713176, (-24)); ((-33062719989514036), (-24)); (99999999999999456, (-17))];
  [(24515453427361441, (-10)); (66636067374127317, (-17)); (99999999999999423, (-17)); ((-7078279744199198), (-23)); (80562171469761338, (-24)); (70782794778573375, (-24)); (99999999999999689, (-17)); (33060414542221364, (-24)); ((-80562173809869717), (-24)); ((-33060408839805517), (-24)); (99999999999999623, (-17)); (99999999999977318, (-17)); ((-61776310527388549), (-23)); ((-26844588175631862), (-23)); (61776310527479309, (-23)); (99999999999980926, (-17)); (32977418125499312, (-28)); (26844588175423015, (-23)); ((-34635627699231009), (-28)); (99999999999996392, (-17)); (99999999999974531, (-17)); ((-6885458938409289), (-22)); ((-18788373071007888), (-23)); (68854590005308367, (-23)); (99999999999976241, (-17)); (33063762052364822, (-24)); (18788370794411665, (-23)); ((-3306389140392472), (-23)); (99999999999998179, (-17))];
  [(24515459746715771, (-10)); (28008533658690027, (-17)); (99999999999999423, (-17)); ((-7078279744199198), (-23)); (80562171469761338, (-24)); (70782794778573375, (-24)); (99999999999999689, (-17)); (33060414542221364, (-24)); ((-80562173809869717), (-24)); ((-33060408839805517), (-24)); (99999999999999623, (-17)); (99999999999964928, (-17)); ((-76815476498476403), (-23)); ((-333797827575065), (-21)); (76815476498616724, (-23)); (99999999999970501, (-17)); (407543822373992, (-26)); (33379782757183596, (-23)); ((-43318681974824358), (-28)); (99999999999994427, (-17)); (99999999999961597, (-17)); ((-83893755139123613), (-23)); ((-25323568150084562), (-23)); (838937559764387, (-21)); (9999999999996475, (-16)); (33064551864651237, (-24)); (25323565376166221, (-23)); ((-33064764335145178), (-24)); (99999999999996736, (-17))];
  [(24515454849802139, (-10)); (73482252847005669, (-17)); (99999999999999423, (-17)); ((-7078279744199198), (-23)); (80562171469761338, (-24)); (70782794778573375, (-24)); (99999999999999689, (-17)); (33060414542221364, (-24)); ((-80562173809869717), (-24)); ((-33060408839805517), (-24)); (99999999999999623, (-17)); (9999999999996686, (-16)); ((-74675602773311298), (-23)); ((-32449911303206601), (-23)); (74675602773443912, (-23)); (99999999999972122, (-17)); (39654384031745645, (-28)); (32449911302901436, (-23)); ((-42077452633293433), (-28)); (99999999999994738, (-17)); (99999999999963607, (-17)); ((-81753881444700585), (-23)); ((-24393696625039401), (-23)); (81753882251266893, (-23)); (99999999999966527, (-17)); (33064440140902474, (-24)); (24393693921884919, (-23)); ((-33064639554022095), (-24)); (99999999999996969, (-17))];
  [(24515458339441968, (-10)); (94206333386364172, (-17)); (99999999999999423, (-17)); ((-7078279744199198), (-23)); (80562171469761338, (-24)); (70782794778573375, (-24)); (99999999999999689, (-17)); (33060414542221364, (-24)); ((-80562173809869717), (-24)); ((-33060408839805517), (-24)); (99999999999999623, (-17)); (99999999999929723, (-17)); ((-10872613159952221), (-22)); ((-4724639866315674), (-22)); (10872613159980332, (-22)); (99999999999940881, (-17)); (56931222249804202, (-28)); (47246398662509818, (-23)); ((-62068683526206314), (-28)); (99999999999988842, (-17)); (9999999999992526, (-16)); ((-11580440978173084), (-22)); ((-39190185110717068), (-23)); (11580441107760998, (-22)); (99999999999932876, (-17)); (3306619525655937, (-23)); (39190181281479537, (-23)); ((-33066649150477115), (-24)); (99999999999992273, (-17))];
  [(24515458435985255, (-10)); (7569159306357548, (-16)); (99999999999999423, (-17)); ((-7078279744199198), (-23)); (80562171469761338, (-24)); (70782794778573375, (-24)); (99999999999999689, (-17)); (33060414542221364, (-24)); ((-80562173809869717), (-24)); ((-33060408839805517), (-24)); (99999999999999623, (-17)); (99999999999942935, (-17)); ((-97982549131369585), (-23)); ((-4257782854644915), (-22)); (97982549131597903, (-23)); (99999999999951994, (-17)); (51534995726756931, (-28)); (42577828545923756, (-23)); ((-55706550483591855), (-28)); (99999999999990929, (-17)); (99999999999938849, (-17)); ((-10506082746792403), (-22)); ((-34521614638821146), (-23)); (10506082860940975, (-22)); (99999999999944744, (-17)); (33065646978647414, (-24)); (34521611164897842, (-23)); ((-33066009632629016), (-24)); (99999999999993983, (-17))];
  [(24515452522756774, (-10)); (22496308446041413, (-17)); (99999999999999423, (-17)); ((-7078279744199198), (-23)); (80562171469761338, (-24)); (70782794778573375, (-24)); (99999999999999689, (-17)); (33060414542221364, (-24)); ((-80562173809869717), (-24)); ((-33060408839805517), (-24)); (99999999999999623, (-17)); (99999999999994926, (-17)); ((-29216274689870799), (-23)); ((-12695786803540856), (-23)); (29216274689891096, (-23)); (99999999999995737, (-17)); (15802652978159437, (-28)); (12695786803494145, (-23)); ((-1617372902273928), (-27)); (9999999999999919, (-16)); (99999999999993305, (-17)); ((-36294554014341647), (-23)); ((-46395706224672359), (-24)); (36294554167735232, (-23)); (99999999999993361, (-17)); (33062018344783081, (-24)); (46395694224957157, (-24)); ((-33062035199140586), (-24)); (99999999999999833, (-17))];
  [(24515451079686577, (-10)); (19193762080472099, (-17)); (99999999999999423, (-17)); ((-7078279744199198), (-23)); (80562171469761338, (-24)); (70782794778573375, (-24)); (99999999999999689, (-17)); (33060414542221364, (-24)); ((-80562173809869717), (-24)); ((-33060408839805517), (-24)); (99999999999999623, (-17)); (99999999999998002, (-17)); ((-18360084935836745), (-23)); ((-79782835798944218), (-24)); (18360084935844763, (-23)); (99999999999998324, (-17)); (99745788025509848, (-29)); (7978283579875975, (-23)); ((-10120793092482927), (-28)); (99999999999999689, (-17)); (99999999999996769, (-17)); ((-25438364416270425), (-23)); (779329600895614, (-24)); (2543836441369384, (-22)); (99999999999996714, (-17)); (33061426791384171, (-24)); ((-77933801118181935), (-26)); ((-33061426566366963), (-24)); (99999999999999956, (-17))];
  [(24515455233982084, (-10)); (63741327132933612, (-17)); (99999999999999423, (-17)); ((-7078279744199198), (-23)); (80562171469761338, (-24)); (70782794778573375, (-24)); (99999999999999689, (-17)); (33060414542221364, (-24)); ((-80562173809869717), (-24)); ((-33060408839805517), (-24)); (99999999999999623, (-17)); (9999999999996998, (-16)); ((-71064192514440955), (-23)); ((-30880590985633004), (-23)); (71064192514561043, (-23)); (99999999999974742, (-17)); (37792571843955195, (-28)); (30880590985356638, (-23)); ((-39986902677924263), (-28)); (99999999999995237, (-17)); (9999999999996686, (-16)); ((-78142471237712841), (-23)); ((-22824376188070835), (-23)); (78142471992385728, (-23)); (99999999999969402, (-17)); (33064251050254029, (-24)); (22824373604341569, (-23)); ((-33064429388217903), (-24)); (99999999999997347, (-17))];
  [(2451545499404035, (-9)); (64558572974258499, (-17)); (99999999999999423, (-17)); ((-7078279744199198), (-23)); (80562171469761338, (-24)); (70782794778573375, (-24)); (99999999999999689, (-17)); (33060414542221364, (-24)); ((-80562173809869717), (-24)); ((-33060408839805517), (-24)); (99999999999999623, (-17)); (9999999999997079, (-16)); ((-70095596468299217), (-23)); ((-30459692403810656), (-23)); (70095596468416055, (-23)); (99999999999975431, (-17)); (37292280434007377, (-28)); (3045969240354177, (-22)); ((-39427350273513184), (-28)); (99999999999995359, (-17)); (99999999999967704, (-17)); ((-77173875205486246), (-23)); ((-22403477574226237), (-23)); (77173875946241207, (-23)); (99999999999970157, (-17)); (33064200240791266, (-24)); (22403475022527087, (-23)); ((-33064373135053706), (-24)); (99999999999997435, (-17))];
  [(24515453732600864, (-10)); (73844778582816639, (-17)); (99999999999999423, (-17)); ((-7078279744199198), (-23)); (80562171469761338, (-24)); (70782794778573375, (-24)); (99999999999999689, (-17)); (33060414542221364, (-24)); ((-80562173809869717), (-24)); ((-33060408839805517), (-24)); (99999999999999623, (-17)); (99999999999972478, (-17)); ((-68058098663958277), (-23)); ((-29574307892564885), (-23)); (68058098664068434, (-23)); (99999999999976841, (-17)); (36237843809519703, (-28)); (2957430789231141, (-22)); ((-38250513867410518), (-28)); (99999999999995626, (-17)); (99999999999969469, (-17)); ((-75136377430416604), (-23)); ((-21518092995619811), (-23)); (75136378141894549, (-23)); (99999999999971712, (-17)); (33064093155676805, (-24)); (21518090511297548, (-23)); ((-33064254824713258), (-24)); (99999999999997635, (-17))];
  [(24515455195375411, (-10)); (87209240539999067, (-17)); (99999999999999423, (-17)); ((-7078279744199198), (-23)); (80562171469761338, (-24)); (70782794778573375, (-24)); (99999999999999689, (-17)); (33060414542221364, (-24)); ((-80562173809869717), (-24)); ((-33060408839805517), (-24)); (99999999999999623, (-17)); (99999999999956857, (-17)); ((-85194762749395332), (-23)); ((-37020959795947773), (-23)); (85194762749567947, (-23)); (99999999999963707, (-17)); (45045633694203185, (-28)); (37020959795550578, (-23)); ((-48199222391076546), (-28)); (99999999999993139, (-17)); (99999999999953237, (-17)); ((-92273041269663141), (-23)); ((-28964745465549151), (-23)); (92273042227385941, (-23)); (99999999999957367, (-17)); (33064987740329637, (-24)); (28964742414529837, (-23)); ((-33065254966513337), (-24)); (99999999999995748, (-17))];
  [(24515459441861236, (-10)); (79343704113298341, (-17)); (99999999999999423, (-17)); ((-7078279744199198), (-23)); (80562171469761338, (-24)); (70782794778573375, (-24)); (99999999999999689, (-17)); (33060414542221364, (-24)); ((-80562173809869717), (-24)); ((-33060408839805517), (-24)); (99999999999999623, (-17)); (99999999999932732, (-17)); ((-10637626336078867), (-22)); ((-4622527515534774), (-22)); (10637626336105777, (-22)); (99999999999943412, (-17)); (55754993525796797, (-28)); (46225275154728474, (-23)); ((-60673133184252492), (-28)); (99999999999989309, (-17)); (99999999999928346, (-17)); ((-11345454157675626), (-22)); ((-38169061525220219), (-23)); (11345454283886557, (-22)); (99999999999935574, (-17)); (33066075740582929, (-24)); (38169057773699156, (-23)); ((-33066508872663287), (-24)); (9999999999999265, (-16))];
  [(24515452816594206, (-10)); (97814272721283313, (-17)); (99999999999999423, (-17)); ((-7078279744199198), (-23)); (80562171469761338, (-24)); (70782794778573375, (-24)); (99999999999999689, (-17)); (33060414542221364, (-24)); ((-80562173809869717), (-24)); ((-33060408839805517), (-24)); (99999999999999623, (-17)); (99999999999964639, (-17)); ((-77124342750914209), (-23)); ((-33513999046906544), (-23)); (77124342751055653, (-23)); (99999999999970257, (-17)); (40913746513667253, (-28)); (3351399904658103, (-22)); ((-43498538104813633), (-28)); (99999999999994382, (-17)); (99999999999961298, (-17)); ((-84202621387124152), (-23)); ((-25457784449695874), (-23)); (8420262222887748, (-22)); (99999999999964484, (-17)); (33064568049908147, (-24)); (25457781665563522, (-23)); ((-33064782415760201), (-24)); (99999999999996703, (-17))];
  [(24515453102543768, (-10)); (45414468661114493, (-17)); (99999999999999423, (-17)); ((-7078279744199198), (-23)); (80562171469761338, (-24)); (70782794778573375, (-24)); (99999999999999689, (-17)); (33060414542221364, (-24)); ((-80562173809869717), (-24)); ((-33060408839805517), (-24)); (99999999999999623, (-17)); (99999999999986988, (-17)); ((-46796058595257174), (-23)); ((-20334994350551716), (-23)); (46796058595309245, (-23)); (99999999999989064, (-17)); (25133185625244479, (-28)); (20334994350431879, (-23)); ((-26084689963568053), (-28)); (99999999999997935, (-17)); (99999999999984746, (-17)); ((-53874337667172077), (-23)); ((-1227877875067365), (-22)); (53874338073145292, (-23)); (99999999999985445, (-17)); (33062965560701243, (-24)); (12278776969426495, (-23)); ((-33063031702479055), (-24)); (99999999999999201, (-17))];
  [(24515455698359157, (-10)); (45441649533361783, (-17)); (99999999999999423, (-17)); ((-7078279744199198), (-23)); (80562171469761338, (-24)); (70782794778573375, (-24)); (99999999999999689, (-17)); (33060414542221364, (-24)); ((-80562173809869717), (-24)); ((-33060408839805517), (-24)); (99999999999999623, (-17)); (9999999999997663, (-16)); ((-62704126989983294), (-23)); ((-27247766194327368), (-23)); (62704126990076796, (-23)); (99999999999980338, (-17)); (33460479969488897, (-28)); (27247766194112206, (-23)); ((-35168534751051084), (-28)); (99999999999996292, (-17)); (9999999999997381, (-16)); ((-69782405833358353), (-23)); ((-19191551120377448), (-23)); (6978240646790542, (-22)); (99999999999975586, (-17)); (33063811106018118, (-24)); (19191548813100482, (-23)); ((-33063944980010548), (-24)); (99999999999998113, (-17))];
  [(24515459132288424, (-10)); (35515226754445717, (-17)); (99999999999999423, (-17)); ((-7078279744199198), (-23)); (80562171469761338, (-24)); (70782794778573375, (-24)); (99999999999999689, (-17)); (33060414542221364, (-24)); ((-80562173809869717), (-24)); ((-33060408839805517), (-24)); (99999999999999623, (-17)); (99999999999964151, (-17)); ((-77649541749717615), (-23)); ((-33742221652147774), (-23)); (77649541749860996, (-23)); (99999999999969846, (-17)); (41183611526305936, (-28)); (33742221651817813, (-23)); ((-43803849436585551), (-28)); (99999999999994305, (-17)); (99999999999960798, (-17)); ((-8472782037838239), (-22)); ((-25686007072300438), (-23)); (84727821227682569, (-23)); (9999999999996404, (-16)); (33064595459520997, (-24)); (25686004270800099, (-23)); ((-33064813108435691), (-24)); (99999999999996647, (-17))];
  [(24515455042263316, (-10)); (77117721978115283, (-18)); (99999999999999423, (-17)); ((-7078279744199198), (-23)); (80562171469761338, (-24)); (70782794778573375, (-24)); (99999999999999689, (-17)); (33060414542221364, (-24)); ((-80562173809869717), (-24)); ((-33060408839805517), (-24)); (99999999999999623, (-17)); (99999999999992473, (-17)); ((-35589539096022943), (-23)); ((-1546525711890036), (-22)); (35589539096053066, (-23)); (99999999999993661, (-17)); (19200901187185773, (-28)); (15465257118831047, (-23)); ((-19751422719593847), (-28)); (99999999999998801, (-17)); (99999999999990619, (-17)); ((-42667818328933775), (-23)); ((-74090411485296905), (-24)); (4266781857389428, (-22)); (9999999999999083, (-16)); (33062363304043497, (-24)); (74090397378301002, (-24)); ((-33062394928818698), (-24)); (99999999999999667, (-17))];
  [(24515450267764721, (-10)); (36981368898441858, (-17)); (99999999999999423, (-17)); ((-7078279744199198), (-23)); (80562171469761338, (-24)); (70782794778573375, (-24)); (99999999999999689, (-17)); (33060414542221364, (-24)); ((-80562173809869717), (-24)); ((-33060408839805517), (-24)); (99999999999999623, (-17)); (99999999999996492, (-17)); ((-24279015042430785), (-23)); ((-10550325200649375), (-23)); (24279015042444803, (-23)); (99999999999997047, (-17)); (13157839136648833, (-28)); (10550325200617117, (-23)); ((-13414824806545766), (-28)); (99999999999999445, (-17)); (99999999999995048, (-17)); ((-31357294437831594), (-23)); ((-24941088563477868), (-24)); (31357294520291194, (-23)); (99999999999995015, (-17)); (33061749885835783, (-24)); (24941078196206331, (-24)); ((-33061757790101302), (-24)); (99999999999999922, (-17))];
  [(24515451552685956, (-10)); (63850019886197396, (-17)); (99999999999999423, (-17)); ((-7078279744199198), (-23)); (80562171469761338, (-24)); (70782794778573375, (-24)); (99999999999999689, (-17)); (33060414542221364, (-24)); ((-80562173809869717), (-24)); ((-33060408839805517), (-24)); (99999999999999623, (-17)); (99999999999985967, (-17)); ((-48594056166889858), (-23)); ((-21116305237606082), (-23)); (48594056166946016, (-23)); (99999999999988198, (-17)); (26080376386733061, (-28)); (21116305237476856, (-23)); ((-2710665025773551), (-27)); (99999999999997768, (-17)); (99999999999983646, (-17)); ((-55672335212974237), (-23)); ((-13060089697170639), (-23)); (55672335644781237, (-23)); (99999999999984446, (-17)); (3306306172828299, (-23)); (13060087856470755, (-23)); ((-3306313445154212), (-23)); (9999999999999909, (-16))];
  [(24515453670805697, (-10)); (8934470165418229, (-16)); (99999999999999423, (-17)); ((-7078279744199198), (-23)); (80562171469761338, (-24)); (70782794778573375, (-24)); (99999999999999689, (-17)); (33060414542221364, (-24)); ((-80562173809869717), (-24)); ((-33060408839805517), (-24)); (99999999999999623, (-17)); (99999999999964595, (-17)); ((-77168753666415976), (-23)); ((-33533297588718651), (-23)); (771687536665576, (-21)); (99999999999970224, (-17)); (40936512898397841, (-28)); (33533297588392766, (-23)); ((-43524628345892324), (-28)); (99999999999994382, (-17)); (99999999999961253, (-17)); ((-84247032301987902), (-23)); ((-25477082992976227), (-23)); (84247033144379405, (-23)); (99999999999964451, (-17)); (33064570362325007, (-24)); (25477080207375248, (-23)); ((-33064785038444357), (-24)); (99999999999996703, (-17))];
  [(24515453062940836, (-10)); (23283668063549201, (-17)); (99999999999999423, (-17)); ((-7078279744199198), (-23)); (80562171469761338, (-24)); (70782794778573375, (-24)); (99999999999999689, (-17)); (33060414542221364, (-24)); ((-80562173809869717), (-24)); ((-33060408839805517), (-24)); (99999999999999623, (-17)); (99999999999993527, (-17)); ((-33005266479771212), (-23)); ((-14342274321522167), (-23)); (33005266479797115, (-23)); (99999999999994549, (-17)); (17825713726080852, (-28)); (14342274321462552, (-23)); ((-1829869589187183), (-27)); (99999999999998979, (-17)); (99999999999991773, (-17)); ((-40083545749808398), (-23)); ((-62860582657142933), (-24)); (40083545957639515, (-23)); (99999999999991906, (-17)); (33062223703351546, (-24)); (62860569404626283, (-24)); ((-33062248861257345), (-24)); (99999999999999756, (-17))];
  [(24515455889554983, (-10)); (43436386484991563, (-17)); (99999999999999423, (-17)); ((-7078279744199198), (-23)); (80562171469761338, (-24)); (70782794778573375, (-24)); (99999999999999689, (-17)); (33060414542221364, (-24)); ((-80562173809869717), (-24)); ((-33060408839805517), (-24)); (99999999999999623, (-17)); (99999999999976674, (-17)); ((-62647006350027512), (-23)); ((-27222944704983492), (-23)); (62647006350120855, (-23)); (99999999999980382, (-17)); (33431051940533387, (-28)); (27222944704768722, (-23)); ((-35136338283336954), (-28)); (99999999999996292, (-17)); (99999999999973865, (-17)); ((-69725285194223177), (-23)); ((-19166729629145136), (-23)); (69725285827949511, (-23)); (99999999999975642, (-17)); (33063808117197605, (-24)); (19166727323757019, (-23)); ((-33063941742794434), (-24)); (99999999999998113, (-17))];
  [(24515456076520984, (-10)); (44459188619835832, (-17)); (99999999999999423, (-17)); ((-7078279744199198), (-23)); (80562171469761338, (-24)); (70782794778573375, (-24)); (99999999999999689, (-17)); (33060414542221364, (-24)); ((-80562173809869717), (-24)); ((-33060408839805517), (-24)); (99999999999999623, (-17)); (99999999999975342, (-17)); ((-64417754588517302), (-23)); ((-27992414524457048), (-23)); (64417754588615981, (-23)); (99999999999979261, (-17)); (34351095417230188, (-28)); (27992414524229963, (-23)); ((-3615385768540591), (-27)); (99999999999996081, (-17)); (99999999999972455, (-17)); ((-71496033407273878), (-23)); ((-19936199507160466), (-23)); (71496034066443801, (-23)); (99999999999974387, (-17)); (33063901548098141, (-24)); (19936197143217554, (-23)); ((-33064044039386832), (-24)); (99999999999997957, (-17))];
  [(24515452258576853, (-10)); (94986979005957994, (-17)); (99999999999999423, (-17)); ((-7078279744199198), (-23)); (80562171469761338, (-24)); (70782794778573375, (-24)); (99999999999999689, (-17)); (33060414542221364, (-24)); ((-80562173809869717), (-24)); ((-33060408839805517), (-24)); (99999999999999623, (-17)); (99999999999969214, (-17)); ((-71977340956702902), (-23)); ((-31277395087513792), (-23)); (71977340956826114, (-23)); (9999999999997411, (-16)); (38263991381855532, (-28)); (31277395087230279, (-23)); ((-40514813726133525), (-28)); (99999999999995115, (-17)); (9999999999996606, (-16)); ((-79055619666856228), (-23)); ((-23221180320140751), (-23)); (79055620434650387, (-23)); (99999999999968703, (-17)); (33064298927859835, (-24)); (23221177706214842, (-23)); ((-33064482460191722), (-24)); (99999999999997258, (-17))];
  [(24515450955371605, (-10)); (35152703526762918, (-19)); (99999999999999423, (-17)); ((-7078279744199198), (-23)); (80562171469761338, (-24)); (70782794778573375, (-24)); (99999999999999689, (-17)); (33060414542221364, (-24)); ((-80562173809869717), (-24)); ((-33060408839805517), (-24)); (99999999999999623, (-17)); (99999999999999778, (-17)); ((-60639312046418317), (-24)); ((-26350511485034113), (-24)); (60639312046427065, (-24)); (99999999999999822, (-17)); (33101665072341284, (-29)); (26350511485013992, (-24)); ((-3326228181776969), (-28)); (99999999999999967, (-17)); (99999999999998979, (-17)); ((-13142210861725127), (-23)); (54211657979966347, (-24)); (13142210682497331, (-23)); (99999999999999079, (-17)); (33060750444106687, (-24)); ((-54211662324879395), (-24)); ((-33060743327786598), (-24)); (999999999999998, (-15))];
  [(24515451573945284, (-10)); (6414003623243314, (-16)); (99999999999999423, (-17)); ((-7078279744199198), (-23)); (80562171469761338, (-24)); (70782794778573375, (-24)); (99999999999999689, (-17)); (33060414542221364, (-24)); ((-80562173809869717), (-24)); ((-33060408839805517), (-24)); (99999999999999623, (-17)); (99999999999985789, (-17)); ((-489017508118691), (-21)); ((-21250012412569374), (-23)); (48901750811925968, (-23)); (99999999999988043, (-17)); (26242498774151378, (-28)); (21250012412438504, (-23)); ((-27281510384113972), (-28)); (99999999999997735, (-17)); (99999999999983458, (-17)); ((-55980029853533037), (-23)); ((-1319379688230646), (-22)); (5598003028976103, (-22)); (99999999999984268, (-17)); (33063078188407168, (-24)); (13193795031432284, (-23)); ((-33063152032196422), (-24)); (99999999999999067, (-17))];
  [(24515451417247299, (-10)); (56649887550524547, (-17)); (99999999999999423, (-17)); ((-7078279744199198), (-23)); (80562171469761338, (-24)); (70782794778573375, (-24)); (99999999999999689, (-17)); (33060414542221364, (-24)); ((-80562173809869717), (-24)); ((-33060408839805517), (-24)); (99999999999999623, (-17)); (99999999999988831, (-17)); ((-43357030256155984), (-23)); ((-18840581717372479), (-23)); (43357030256200686, (-23)); (99999999999990608, (-17)); (23318217841436515, (-28)); (18840581717269607, (-23)); ((-24135693443838591), (-28)); (99999999999998224, (-17)); (99999999999986711, (-17)); ((-50435309377476927), (-23)); ((-10784366003798568), (-23)); (50435309734038326, (-23)); (99999999999987232, (-17)); (33062781293367462, (-24)); (10784364336265586, (-23)); ((-33062835745040109), (-24)); (99999999999999367, (-17))];
  [(24515454310395764, (-10)); (24805830966957509, (-17)); (99999999999999423, (-17)); ((-7078279744199198), (-23)); (80562171469761338, (-24)); (70782794778573375, (-24)); (99999999999999689, (-17)); (33060414542221364, (-24)); ((-80562173809869717), (-24)); ((-33060408839805517), (-24)); (99999999999999623, (-17)); (9999999999998973, (-16)); ((-41573970934825902), (-23)); ((-18065762170695186), (-23)); (41573970934867004, (-23)); (99999999999991362, (-17)); (22374932818757133, (-28)); (18065762170600599, (-23)); ((-23125945602942011), (-28)); (99999999999998368, (-17)); (99999999999987665, (-17)); ((-48652250081762768), (-23)); ((-10009546398172524), (-23)); (48652250412705475, (-23)); (9999999999998811, (-16)); (33062685528394133, (-24)); (10009544789597286, (-23)); ((-33062734221817115), (-24)); (99999999999999445, (-17))];
  [(24515458848474557, (-10)); (64748231336813422, (-17)); (99999999999999423, (-17)); ((-7078279744199198), (-23)); (80562171469761338, (-24)); (70782794778573375, (-24)); (99999999999999689, (-17)); (33060414542221364, (-24)); ((-80562173809869717), (-24)); ((-33060408839805517), (-24)); (99999999999999623, (-17)); (99999999999947686, (-17)); ((-93808322829010381), (-23)); ((-40763939343254456), (-23)); (93808322829219651, (-23)); (99999999999955991, (-17)); (49424220915549313, (-28)); (40763939342772875, (-23)); ((-53249071818584071), (-28)); (99999999999991696, (-17)); (99999999999943756, (-17)); ((-10088660122553308), (-22)); ((-3270772529762442), (-22)); (10088660230703352, (-22)); (99999999999949041, (-17)); (33065432538320253, (-24)); (32707721961748645, (-23)); ((-33065762600841243), (-24)); (99999999999994604, (-17))];
  [(24515451379308826, (-10)); (9450040719260322, (-16)); (99999999999999423, (-17)); ((-7078279744199198), (-23)); (80562171469761338, (-24)); (70782794778573375, (-24)); (99999999999999689, (-17)); (33060414542221364, (-24)); ((-80562173809869717), (-24)); ((-33060408839805517), (-24)); (99999999999999623, (-17)); (99999999999973876, (-17)); ((-6629663763944004), (-22)); ((-28808873786910764), (-23)); (66296637639544553, (-23)); (99999999999978029, (-17)); (35325560300513377, (-28)); (28808873786670233, (-23)); ((-37235214911390813), (-28)); (99999999999995848, (-17)); (99999999999970923, (-17)); ((-73374916431204048), (-23)); ((-20752658831730946), (-23)); (73374917117371494, (-23)); (99999999999973022, (-17)); (33064000508255043, (-24)); (20752656405657072, (-23)); ((-33064152753022064), (-24)); (99999999999997791, (-17))];
  [(24515453739709239, (-10)); (80101080629335353, (-17)); (99999999999999423, (-17)); ((-7078279744199198), (-23)); (80562171469761338, (-24)); (70782794778573375, (-24)); (99999999999999689, (-17)); (33060414542221364, (-24)); ((-80562173809869717), (-24)); ((-33060408839805517), (-24)); (99999999999999623, (-17)); (99999999999969247, (-17)); ((-71931686879608247), (-23)); ((-31257556335984798), (-23)); (71931686879731289, (-23)); (99999999999974132, (-17)); (38240115054728911, (-28)); (31257556335701651, (-23)); ((-40488168373542521), (-28)); (99999999999995115, (-17)); (99999999999966094, (-17)); ((-79009965590417451), (-23)); ((-23201341567102413), (-23)); (79009966357555572, (-23)); (99999999999968725, (-17)); (33064296503447213, (-24)); (23201338954686235, (-23)); ((-3306447978161404), (-23)); (99999999999997258, (-17))];
  [(24515455954000754, (-10)); (14671351475685612, (-17)); (99999999999999423, (-17)); ((-7078279744199198), (-23)); (80562171469761338, (-24)); (70782794778573375, (-24)); (99999999999999689, (-17)); (33060414542221364, (-24)); ((-80562173809869717), (-24)); ((-33060408839805517), (-24)); (99999999999999623, (-17)); (99999999999987732, (-17)); ((-45431755092813663), (-23)); ((-19742143060149268), (-23)); (45431755092862738, (-23)); (99999999999989686, (-17)); (24414191116127933, (-28)); (19742143060036317, (-23)); ((-25310309403892006), (-28)); (99999999999998046, (-17)); (99999999999985523, (-17)); ((-52510034184328528), (-23)); ((-11685927415166706), (-23)); (52510034570699409, (-23)); (99999999999986156, (-17)); (3306289256213801, (-23)); (11685925679031474, (-23)); ((-33062953844786389), (-24)); (99999999999999256, (-17))];
  [(24515451477105087, (-10)); (70346491095435226, (-18)); (99999999999999423, (-17)); ((-7078279744199198), (-23)); (80562171469761338, (-24)); (70782794778573375, (-24)); (99999999999999689, (-17)); (33060414542221364, (-24)); ((-80562173809869717), (-24)); ((-33060408839805517), (-24)); (99999999999999623, (-17)); (99999999999998934, (-17)); ((-13349320504921367), (-23)); ((-58008808282990702), (-24)); (13349320504925604, (-23)); (99999999999999101, (-17)); (72665868732392504, (-29)); (58008808282893187, (-24)); ((-73441253078954105), (-29)); (99999999999999833, (-17)); (99999999999997879, (-17)); ((-20427600057340954), (-23)); (22553358773429297, (-24)); (20427599982776948, (-23)); (99999999999997846, (-17)); (33061151955410865, (-24)); ((-22553365527028721), (-24)); ((-33061147358361983), (-24)); (99999999999999922, (-17))];
  [(24515459898428461, (-10)); (91683021167616563, (-17)); (99999999999999423, (-17)); ((-7078279744199198), (-23)); (80562171469761338, (-24)); (70782794778573375, (-24)); (99999999999999689, (-17)); (33060414542221364, (-24)); ((-80562173809869717), (-24)); ((-33060408839805517), (-24)); (99999999999999623, (-17)); (99999999999919009, (-17)); ((-11672539808324862), (-22)); ((-5072243995671815), (-22)); (11672539808357263, (-22)); (99999999999931877, (-17)); (609170505959613, (-26)); (50722439955972539, (-23)); ((-66838201639995987), (-28)); (99999999999987133, (-17)); (99999999999914257, (-17)); ((-12380367615053711), (-22)); ((-42666226668738396), (-23)); (12380367756137539, (-22)); (99999999999923306, (-17)); (33066600283773798, (-24)); (42666222574939001, (-23)); ((-33067128562727194), (-24)); (99999999999990841, (-17))];
  [(24515454498239234, (-10)); (1674908728887895, (-16)); (99999999999999423, (-17)); ((-7078279744199198), (-23)); (80562171469761338, (-24)); (70782794778573375, (-24)); (99999999999999689, (-17)); (33060414542221364, (-24)); ((-80562173809869717), (-24)); ((-33060408839805517), (-24)); (99999999999999623, (-17)); (99999999999991507, (-17)); ((-37791646700017521), (-23)); ((-16422172012081664), (-23)); (37791646700051492, (-23)); (9999999999999285, (-16)); (20370681804684378, (-28)); (16422172012003509, (-23)); ((-2099209694961246), (-27)); (99999999999998657, (-17)); (99999999999989575, (-17)); ((-44869925901292281), (-23)); ((-83659561145136599), (-24)); (44869926177891695, (-23)); (99999999999989864, (-17)); (33062482056170682, (-24)); (83659546310016934, (-24)); ((-33062519673572788), (-24)); (999999999999996, (-15))];
  [(24515458379924386, (-10)); (86306135755378244, (-17)); (99999999999999423, (-17)); ((-7078279744199198), (-23)); (80562171469761338, (-24)); (70782794778573375, (-24)); (99999999999999689, (-17)); (33060414542221364, (-24)); ((-80562173809869717), (-24)); ((-33060408839805517), (-24)); (99999999999999623, (-17)); (99999999999935529, (-17)); ((-10413750819572029), (-22)); ((-4525243527776747), (-22)); (10413750819597819, (-22)); (99999999999945766, (-17)); (54632089482792477, (-28)); (45252435277174007, (-23)); ((-59344751335288493), (-28)); (99999999999989764, (-17)); (99999999999931222, (-17)); ((-11121578644385062), (-22)); ((-37196221573625548), (-23)); (11121578767378709, (-22)); (99999999999938083, (-17)); (33065961646589632, (-24)); (37196217896145594, (-23)); ((-33066375345875267), (-24)); (99999999999993028, (-17))];
  [(24515454108491112, (-10)); (89168013209399499, (-17)); (99999999999999423, (-17)); ((-7078279744199198), (-23)); (80562171469761338, (-24)); (70782794778573375, (-24)); (99999999999999689, (-17)); (33060414542221364, (-24)); ((-80562173809869717), (-24)); ((-33060408839805517), (-24)); (99999999999999623, (-17)); (99999999999962208, (-17)); ((-79740070304696384), (-23)); ((-34650650407624553), (-23)); (797400703048476, (-21)); (99999999999968214, (-17)); (42256414095367234, (-28)); (34650650407276592, (-23)); ((-45018433425525473), (-28)); (99999999999994005, (-17)); (99999999999958777, (-17)); ((-86818348903327996), (-23)); ((-26594435896891108), (-23)); (86818349782668188, (-23)); (99999999999962264, (-17)); (3306470442395256, (-23)); (26594433026258037, (-23)); ((-33064935209845776), (-24)); (99999999999996414, (-17))];
  [(24515451363720633, (-10)); (78787551883964413, (-17)); (99999999999999423, (-17)); ((-7078279744199198), (-23)); (80562171469761338, (-24)); (70782794778573375, (-24)); (99999999999999689, (-17)); (33060414542221364, (-24)); ((-80562173809869717), (-24)); ((-33060408839805517), (-24)); (99999999999999623, (-17)); (99999999999980971, (-17)); ((-5658189044918477), (-22)); ((-24587378821421404), (-23)); (56581890449260907, (-23)); (99999999999983991, (-17)); (30267862692005363, (-28)); (24587378821246201, (-23)); ((-31659674881723276), (-28)); (99999999999996969, (-17)); (99999999999978362, (-17)); ((-63660169380513644), (-23)); ((-16531163545067462), (-23)); (63660169927092401, (-23)); (99999999999979672, (-17)); (33063486912084872, (-24)); (16531161440236921, (-23)); ((-33063592210927238), (-24)); (99999999999998568, (-17))];
  [(245154531920471, (-8)); (18932685281180084, (-18)); (99999999999999423, (-17)); ((-7078279744199198), (-23)); (80562171469761338, (-24)); (70782794778573375, (-24)); (99999999999999689, (-17)); (33060414542221364, (-24)); ((-80562173809869717), (-24)); ((-33060408839805517), (-24)); (99999999999999623, (-17)); (99999999999997458, (-17)); ((-20700571287156719), (-23)); ((-89953302766725087), (-24)); (20700571287166909, (-23)); (99999999999997857, (-17)); (11235327940786494, (-28)); (89953302766490591, (-24)); ((-11421419365831298), (-28)); (999999999999996, (-15)); (99999999999996136, (-17)); ((-27778850733966374), (-23)); ((-93911381406601363), (-25)); (27778850765014923, (-23)); (99999999999996081, (-17)); (33061554751844469, (-24)); (93911289565398373, (-25)); ((-33061557348888374), (-24)); (99999999999999944, (-17))];
  [(24515452909263461, (-10)); (80321114625610823, (-17)); (99999999999999423, (-17)); ((-7078279744199198), (-23)); (80562171469761338, (-24)); (70782794778573375, (-24)); (99999999999999689, (-17)); (33060414542221364, (-24)); ((-80562173809869717), (-24)); ((-33060408839805517), (-24)); (99999999999999623, (-17)); (99999999999973332, (-17)); ((-66982450385781576), (-23)); ((-29106890296481803), (-23)); (6698245038588827, (-22)); (99999999999977562, (-17)); (35681477656688839, (-28)); (29106890296236274, (-23)); ((-37631009419669681), (-28)); (9999999999999577, (-16)); (99999999999970357, (-17)); ((-74060729167692981), (-23)); ((-21050675363975284), (-23)); (74060729863714883, (-23)); (99999999999972511, (-17)); (3306403665249615, (-23)); (21050672915222838, (-23)); ((-33064192543417289), (-24)); (99999999999997735, (-17))];
  [(24515450692205424, (-10)); (7835382197785502, (-16)); (99999999999999423, (-17)); ((-7078279744199198), (-23)); (80562171469761338, (-24)); (70782794778573375, (-24)); (99999999999999689, (-17)); (33060414542221364, (-24)); ((-80562173809869717), (-24)); ((-33060408839805517), (-24)); (99999999999999623, (-17)); (99999999999983802, (-17)); ((-52205387135322122), (-23)); ((-22685591116179674), (-23)); (52205387135386941, (-23)); (99999999999986378, (-17)); (27977554343715704, (-28)); (22685591116030524, (-23)); ((-29161673076316674), (-28)); (99999999999997424, (-17)); (99999999999981359, (-17)); ((-59283666129525098), (-23)); ((-146293756951365), (-21)); (59283666613220478, (-23)); (9999999999998237, (-16)); (33063254355444728, (-24)); (14629373735022988, (-23)); ((-33063341064608301), (-24)); (99999999999998879, (-17))];
  [(24515451224123756, (-10)); (3612403692783428, (-16)); (99999999999999423, (-17)); ((-7078279744199198), (-23)); (80562171469761338, (-24)); (70782794778573375, (-24)); (99999999999999689, (-17)); (33060414542221364, (-24)); ((-80562173809869717), (-24)); ((-33060408839805517), (-24)); (99999999999999623, (-17)); (99999999999994793, (-17)); ((-29608934940192536), (-23)); ((-12866415360507335), (-23)); (29608934940213384, (-23)); (99999999999995615, (-17)); (16012508094909243, (-28)); (12866415360459358, (-23)); ((-16393553181615061), (-28)); (99999999999999167, (-17)); (9999999999999315, (-16)); ((-36687214259022324), (-23)); ((-48101991924152356), (-24)); (36687214418057339, (-23)); (99999999999993205, (-17)); (33062039646630343, (-24)); (48101979794607755, (-24)); ((-33062057302332122), (-24)); (99999999999999822, (-17))];
  [(24515455583672463, (-10)); (93722721101324391, (-17)); (99999999999999423, (-17)); ((-7078279744199198), (-23)); (80562171469761338, (-24)); (70782794778573375, (-24)); (99999999999999689, (-17)); (33060414542221364, (-24)); ((-80562173809869717), (-24)); ((-33060408839805517), (-24)); (99999999999999623, (-17)); (99999999999950162, (-17)); ((-9155940872897559), (-22)); ((-39786684945546651), (-23)); (9155940872917495, (-22)); (99999999999958089, (-17)); (48284162513096729, (-28)); (39786684945087887, (-23)); ((-51927351307767822), (-28)); (99999999999992084, (-17)); (9999999999994631, (-16)); ((-98637687157806912), (-23)); ((-31730470825566392), (-23)); (98637688206989884, (-23)); (99999999999951295, (-17)); (33065316720706672, (-24)); (31730467564064567, (-23)); ((-33065629737062293), (-24)); (99999999999994915, (-17))];
  [(24515458064895268, (-10)); (63773165725520664, (-17)); (99999999999999423, (-17)); ((-7078279744199198), (-23)); (80562171469761338, (-24)); (70782794778573375, (-24)); (99999999999999689, (-17)); (33060414542221364, (-24)); ((-80562173809869717), (-24)); ((-33060408839805517), (-24)); (99999999999999623, (-17)); (99999999999953537, (-17)); ((-88414367263597347), (-23)); ((-38420022872153066), (-23)); (88414367263783249, (-23)); (9999999999996092, (-16)); (46686543937067594, (-28)); (38420022871725272, (-23)); ((-50082715752353124), (-28)); (99999999999992617, (-17)); (99999999999949796, (-17)); ((-95492645737611323), (-23)); ((-30363808648196167), (-23)); (95492646741599708, (-23)); (99999999999954348, (-17)); (33065154425136313, (-24)); (30363805490703223, (-23)); ((-33065444306145277), (-24)); (99999999999995337, (-17))];
  [(24515458453909061, (-10)); (40573740490852839, (-17)); (99999999999999423, (-17)); ((-7078279744199198), (-23)); (80562171469761338, (-24)); (70782794778573375, (-24)); (99999999999999689, (-17)); (33060414542221364, (-24)); ((-80562173809869717), (-24)); ((-33060408839805517), (-24)); (99999999999999623, (-17)); (99999999999965128, (-17)); ((-76593335584560741), (-23)); ((-33283252531371321), (-23)); (76593335584700258, (-23)); (99999999999970668, (-17)); (40641105607313425, (-28)); (33283252531050285, (-23)); ((-43190451215480152), (-28)); (9999999999999446, (-16)); (99999999999961819, (-17)); ((-83671614228399297), (-23)); ((-25227037916605294), (-23)); (8367161506252234, (-22)); (99999999999964939, (-17)); (33064540358026749, (-24)); (25227035150032995, (-23)); ((-33064751443742451), (-24)); (99999999999996769, (-17))];
  [(2451545268797142, (-9)); (49964891600241346, (-17)); (99999999999999423, (-17)); ((-7078279744199198), (-23)); (80562171469761338, (-24)); (70782794778573375, (-24)); (99999999999999689, (-17)); (33060414542221364, (-24)); ((-80562173809869717), (-24)); ((-33060408839805517), (-24)); (99999999999999623, (-17)); (99999999999986855, (-17)); ((-4704381320728996), (-22)); ((-20442654882925284), (-23)); (47043813207342587, (-23)); (99999999999988942, (-17)); (25263104834228718, (-28)); (20442654882804174, (-23)); ((-26224578064670823), (-28)); (99999999999997913, (-17)); (9999999999998459, (-16)); ((-54122092275645557), (-23)); ((-12386439291238098), (-23)); (54122092685178522, (-23)); (99999999999985301, (-17)); (33062978752218596, (-24)); (12386437501798689, (-23)); ((-33063045767494291), (-24)); (99999999999999178, (-17))];
  [(24515458000818379, (-10)); (42873813051734766, (-17)); (99999999999999423, (-17)); ((-7078279744199198), (-23)); (80562171469761338, (-24)); (70782794778573375, (-24)); (99999999999999689, (-17)); (33060414542221364, (-24)); ((-80562173809869717), (-24)); ((-33060408839805517), (-24)); (99999999999999623, (-17)); (9999999999996636, (-16)); ((-75227632026848674), (-23)); ((-32689792862082814), (-23)); (75227632026983246, (-23)); (99999999999971712, (-17)); (39938128287650252, (-28)); (32689792861773117, (-23)); ((-42397196864385478), (-28)); (9999999999999466, (-16)); (99999999999963085, (-17)); ((-82305910690307339), (-23)); ((-24633578202165966), (-23)); (82305911504805973, (-23)); (99999999999966072, (-17)); (33064468960054685, (-24)); (24633575480756372, (-23)); ((-33064671698240052), (-24)); (99999999999996914, (-17))];
  [(24515455732020629, (-10)); (1243233816014967, (-16)); (99999999999999423, (-17)); ((-7078279744199198), (-23)); (80562171469761338, (-24)); (70782794778573375, (-24)); (99999999999999689, (-17)); (33060414542221364, (-24)); ((-80562173809869717), (-24)); ((-33060408839805517), (-24)); (99999999999999623, (-17)); (99999999999989164, (-17)); ((-42702095166240468), (-23)); ((-18555982936351088), (-23)); (4270209516628383, (-22)); (99999999999990885, (-17)); (22971217108305843, (-28)); (18555982936251302, (-23)); ((-23764323842101476), (-28)); (99999999999998279, (-17)); (99999999999987066, (-17)); ((-4978037429697038), (-22)); ((-10499767201124726), (-23)); (49780374644121772, (-23)); (99999999999987554, (-17)); (33062746065664318, (-24)); (10499765555247542, (-23)); ((-33062798406632974), (-24)); (999999999999994, (-15))];
  [(24515456407005652, (-10)); (69609979673707412, (-18)); (99999999999999423, (-17)); ((-7078279744199198), (-23)); (80562171469761338, (-24)); (70782794778573375, (-24)); (99999999999999689, (-17)); (33060414542221364, (-24)); ((-80562173809869717), (-24)); ((-33060408839805517), (-24)); (99999999999999623, (-17)); (99999999999988765, (-17)); ((-43484791455344668), (-23)); ((-18896099710077766), (-23)); (43484791455389635, (-23)); (99999999999990552, (-17)); (23385952476936927, (-28)); (18896099709974288, (-23)); ((-24207302828926913), (-28)); (99999999999998224, (-17)); (99999999999986633, (-17)); ((-50563070574830149), (-23)); ((-10839884000727698), (-23)); (50563070933227217, (-23)); (99999999999987166, (-17)); (33062788169758196, (-24)); (10839882328970217, (-23)); ((-33062842945275804), (-24)); (99999999999999367, (-17))];
  [(2451545513050436, (-9)); (21961532614863088, (-17)); (99999999999999423, (-17)); ((-7078279744199198), (-23)); (80562171469761338, (-24)); (70782794778573375, (-24)); (99999999999999689, (-17)); (33060414542221364, (-24)); ((-80562173809869717), (-24)); ((-33060408839805517), (-24)); (99999999999999623, (-17)); (99999999999988043, (-17)); ((-44853364647100416), (-23)); ((-19490806373233911), (-23)); (44853364647148257, (-23)); (99999999999989941, (-17)); (24108827865622837, (-28)); (19490806373123815, (-23)); ((-24982793611627585), (-28)); (99999999999998102, (-17)); (99999999999985856, (-17)); ((-51931643746924605), (-23)); ((-11434590709129495), (-23)); (51931644124985204, (-23)); (99999999999986455, (-17)); (33062861559849135, (-24)); (11434588992119198, (-23)); ((-33062920915304045), (-24)); (99999999999999289, (-17))];
  [(24515458485547118, (-10)); (22181772156733315, (-17)); (99999999999999423, (-17)); ((-7078279744199198), (-23)); (80562171469761338, (-24)); (70782794778573375, (-24)); (99999999999999689, (-17)); (33060414542221364, (-24)); ((-80562173809869717), (-24)); ((-33060408839805517), (-24)); (99999999999999623, (-17)); (99999999999974476, (-17)); ((-65527567512335336), (-23)); ((-28474678197524825), (-23)); (65527567512437436, (-23)); (99999999999978517, (-17)); (34926334326409975, (-28)); (28474678197289847, (-23)); ((-36792235924565375), (-28)); (99999999999995948, (-17)); (99999999999971556, (-17)); ((-72605846315148032), (-23)); ((-20418463216919188), (-23)); (72605846990264726, (-23)); (99999999999973566, (-17)); (33063959966078201, (-24)); (20418460816276999, (-23)); ((-33064108218570425), (-24)); (99999999999997868, (-17))];
  [(24515453268471207, (-10)); (77626732875749394, (-18)); (99999999999999423, (-17)); ((-7078279744199198), (-23)); (80562171469761338, (-24)); (70782794778573375, (-24)); (99999999999999689, (-17)); (33060414542221364, (-24)); ((-80562173809869717), (-24)); ((-33060408839805517), (-24)); (99999999999999623, (-17)); (99999999999996347, (-17)); ((-24761650031210533), (-23)); ((-10760051832757853), (-23)); (24761650031225112, (-23)); (99999999999996925, (-17)); (13416544633628879, (-28)); (107600518327243, (-21)); ((-13683498778505054), (-28)); (99999999999999423, (-17)); (99999999999994882, (-17)); ((-31839929419677679), (-23)); ((-27038355044123863), (-24)); (31839929509071281, (-23)); (9999999999999486, (-16)); (33061776145206663, (-24)); (27038344517276269, (-24)); ((-33061784805948871), (-24)); (99999999999999911, (-17))];
  [(2451545999152727, (-9)); (10346468941307463, (-17)); (99999999999999423, (-17)); ((-7078279744199198), (-23)); (80562171469761338, (-24)); (70782794778573375, (-24)); (99999999999999689, (-17)); (33060414542221364, (-24)); ((-80562173809869717), (-24)); ((-33060408839805517), (-24)); (99999999999999623, (-17)); (99999999999972911, (-17)); ((-67501586325789162), (-23)); ((-29332478230821392), (-23)); (67501586325897508, (-23)); (99999999999977207, (-17)); (35950221041066134, (-28)); (29332478230572041, (-23)); ((-37929659413293848), (-28)); (99999999999995692, (-17)); (99999999999969924, (-17)); ((-74579865100242505), (-23)); ((-21276263315477757), (-23)); (74579865803723877, (-23)); (99999999999972122, (-17)); (33064063945061653, (-24)); (21276260849558401, (-23)); ((-33064222568094074), (-24)); (9999999999999768, (-16))];
  [(24515456170030939, (-10)); (94370662225026147, (-17)); (99999999999999423, (-17)); ((-7078279744199198), (-23)); (80562171469761338, (-24)); (70782794778573375, (-24)); (99999999999999689, (-17)); (33060414542221364, (-24)); ((-80562173809869717), (-24)); ((-33060408839805517), (-24)); (99999999999999623, (-17)); (99999999999945732, (-17)); ((-95545726443840602), (-23)); ((-41518919411901399), (-23)); (95545726444057697, (-23)); (99999999999954348, (-17)); (50303289523199785, (-28)); (41518919411401819, (-23)); ((-54270477001239215), (-28)); (99999999999991374, (-17)); (99999999999941735, (-17)); ((-10262400481540321), (-22)); ((-33462705423710801), (-23)); (10262400592187073, (-22)); (99999999999947276, (-17)); (33065521844870561, (-24)); (3346270203037689, (-22)); ((-33065865275755414), (-24)); (99999999999994338, (-17))];
  [(24515455343548921, (-10)); (94968439254466519, (-18)); (99999999999999423, (-17)); ((-7078279744199198), (-23)); (80562171469761338, (-24)); (70782794778573375, (-24)); (99999999999999689, (-17)); (33060414542221364, (-24)); ((-80562173809869717), (-24)); ((-33060408839805517), (-24)); (99999999999999623, (-17)); (99999999999991174, (-17)); ((-38526802116829362), (-23)); ((-167416301372875), (-21)); (38526802116864657, (-23)); (99999999999992584, (-17)); (20761536091593126, (-28)); (16741630137206269, (-23)); ((-21406210137797643), (-28)); (99999999999998601, (-17)); (99999999999989209, (-17)); ((-4560508130754268), (-22)); ((-86854142640240617), (-24)); (4560508159470452, (-22)); (99999999999989542, (-17)); (33062521733856454, (-24)); (86854127562041607, (-24)); ((-33062561311012981), (-24)); (99999999999999567, (-17))];
  [(24515456527619995, (-10)); (99964743568525194, (-17)); (99999999999999423, (-17)); ((-7078279744199198), (-23)); (80562171469761338, (-24)); (70782794778573375, (-24)); (99999999999999689, (-17)); (33060414542221364, (-24)); ((-80562173809869717), (-24)); ((-33060408839805517), (-24)); (99999999999999623, (-17)); (99999999999939171, (-17)); ((-10115952912409861), (-22)); ((-43958369341410353), (-23)); (10115952912434196, (-22)); (9999999999994883, (-16)); (5313601123134913, (-27)); (43958369340850342, (-23)); ((-57582827395208369), (-28)); (99999999999990341, (-17)); (99999999999934974, (-17)); ((-10823780741501153), (-22)); ((-35902155538814922), (-23)); (10823780860215226, (-22)); (99999999999941358, (-17)); (33065809639640896, (-24)); (35902151959823136, (-23)); ((-33066198237505368), (-24)); (99999999999993505, (-17))];
  [(24515459304169258, (-10)); (88994587120794, (-14)); (99999999999999423, (-17)); ((-7078279744199198), (-23)); (80562171469761338, (-24)); (70782794778573375, (-24)); (99999999999999689, (-17)); (33060414542221364, (-24)); ((-80562173809869717), (-24)); ((-33060408839805517), (-24)); (99999999999999623, (-17)); (99999999999926181, (-17)); ((-11144153483677417), (-22)); ((-48426363577697641), (-23)); (11144153483706949, (-22)); (99999999999937905, (-17)); (58287954062865704, (-28)); (48426363577018003, (-23)); ((-63684058027035917), (-28)); (99999999999988276, (-17)); (99999999999921607, (-17)); ((-11851981297997242), (-22)); ((-40370150115030614), (-23)); (11851981431487483, (-22)); (99999999999929701, (-17)); (33066333117327507, (-24)); (40370146195986626, (-23)); ((-33066811523139179), (-24)); (99999999999991795, (-17))];
  [(24515453342298074, (-10)); (35311020467976162, (-17)); (99999999999999423, (-17)); ((-7078279744199198), (-23)); (80562171469761338, (-24)); (70782794778573375, (-24)); (99999999999999689, (-17)); (33060414542221364, (-24)); ((-80562173809869717), (-24)); ((-33060408839805517), (-24)); (99999999999999623, (-17)); (99999999999989475, (-17)); ((-42078549014233409), (-23)); ((-18285024061866286), (-23)); (42078549014275512, (-23)); (99999999999991152, (-17)); (22643093644899567, (-28)); (1828502406176939, (-22)); ((-23411828031782989), (-28)); (99999999999998324, (-17)); (99999999999987399, (-17)); ((-49156828153921367), (-23)); ((-10228808306025205), (-23)); (49156828492113734, (-23)); (99999999999987865, (-17)); (33062712750975736, (-24)); (10228806680765875, (-23)); ((-33062762965259682), (-24)); (99999999999999423, (-17))];
  [(24515453329881257, (-10)); (7922644574811406, (-16)); (99999999999999423, (-17)); ((-7078279744199198), (-23)); (80562171469761338, (-24)); (70782794778573375, (-24)); (99999999999999689, (-17)); (33060414542221364, (-24)); ((-80562173809869717), (-24)); ((-33060408839805517), (-24)); (99999999999999623, (-17)); (99999999999971789, (-17)); ((-68887297870378623), (-23)); ((-29934632273156752), (-23)); (6888729787049148, (-22)); (99999999999976263, (-17)); (3666761301943435, (-27)); (29934632272897057, (-23)); ((-38730130214048586), (-28)); (99999999999995515, (-17)); (99999999999968747, (-17)); ((-75965576624924438), (-23)); ((-21878417403625402), (-23)); (75965577348317193, (-23)); (99999999999971079, (-17)); (33064136800618488, (-24)); (21878414891882859, (-23)); ((-33064303041395564), (-24)); (99999999999997546, (-17))];
  [(24515457650801959, (-10)); (76631409374302384, (-17)); (99999999999999423, (-17)); ((-7078279744199198), (-23)); (80562171469761338, (-24)); (70782794778573375, (-24)); (99999999999999689, (-17)); (33060414542221364, (-24)); ((-80562173809869717), (-24)); ((-33060408839805517), (-24)); (99999999999999623, (-17)); (99999999999947753, (-17)); ((-9375105333036951), (-22)); ((-40739053168468073), (-23)); (93751053330578526, (-23)); (99999999999956057, (-17)); (49395344437536173, (-28)); (40739053167987085, (-23)); ((-53214654904820691), (-28)); (99999999999991696, (-17)); (99999999999943823, (-17)); ((-10082933172771498), (-22)); ((-3268283912094468), (-22)); (10082933280839243, (-22)); (99999999999949107, (-17)); (33065429604534932, (-24)); (32682835786962887, (-23)); ((-33065759141534738), (-24)); (99999999999994604, (-17))];
  [(245154563064466, (-8)); (75312005132883475, (-17)); (99999999999999423, (-17)); ((-7078279744199198), (-23)); (80562171469761338, (-24)); (70782794778573375, (-24)); (99999999999999689, (-17)); (33060414542221364, (-24)); ((-80562173809869717), (-24)); ((-33060408839805517), (-24)); (99999999999999623, (-17)); (99999999999957345, (-17)); ((-84713257695328647), (-23)); ((-36811724177177093), (-23)); (84713257695499314, (-23)); (99999999999964118, (-17)); (44800193066747241, (-28)); (36811724176784367, (-23)); ((-47918891077358694), (-28)); (99999999999993228, (-17)); (99999999999953737, (-17)); ((-91791536222513909), (-23)); ((-28755509830859673), (-23)); (9179153717331753, (-22)); (99999999999957812, (-17)); (33064962808356093, (-24)); (2875550679576381, (-22)); ((-33065226785279174), (-24)); (99999999999995814, (-17))];
  [(2451545002549395, (-9)); (73336049213237831, (-17)); (99999999999999423, (-17)); ((-7078279744199198), (-23)); (80562171469761338, (-24)); (70782794778573375, (-24)); (99999999999999689, (-17)); (33060414542221364, (-24)); ((-80562173809869717), (-24)); ((-33060408839805517), (-24)); (99999999999999623, (-17)); (99999999999987932, (-17)); ((-45051968056453432), (-23)); ((-19577108495426991), (-23)); (45051968056501702, (-23)); (99999999999989841, (-17)); (24213761693927096, (-28)); (19577108495315916, (-23)); ((-25095481248627038), (-28)); (9999999999999809, (-16)); (99999999999985745, (-17)); ((-52130247153424428), (-23)); ((-11520892837888496), (-23)); (52130247534338564, (-23)); (99999999999986344, (-17)); (3306287221323115, (-23)); (1152089111431122, (-22)); ((-33062932245154802), (-24)); (99999999999999289, (-17))];
  [(24515455615616688, (-10)); (82497793517691165, (-17)); (99999999999999423, (-17)); ((-7078279744199198), (-23)); (80562171469761338, (-24)); (70782794778573375, (-24)); (99999999999999689, (-17)); (33060414542221364, (-24)); ((-80562173809869717), (-24)); ((-33060408839805517), (-24)); (99999999999999623, (-17)); (99999999999957168, (-17)); ((-84883134983754664), (-23)); ((-36885543505263594), (-23)); (84883134983926008, (-23)); (99999999999963973, (-17)); (44886819106829485, (-28)); (3688554350486929, (-22)); ((-48017700926550333), (-28)); (99999999999993194, (-17)); (99999999999953559, (-17)); ((-91961413508499412), (-23)); ((-28829329164562405), (-23)); (9196141446174415, (-22)); (99999999999957656, (-17)); (33064971607816893, (-24)); (28829326123848665, (-23)); ((-33065236718515465), (-24)); (99999999999995792, (-17))];
  [(24515454250560626, (-10)); (71816262334129743, (-18)); (99999999999999423, (-17)); ((-7078279744199198), (-23)); (80562171469761338, (-24)); (70782794778573375, (-24)); (99999999999999689, (-17)); (33060414542221364, (-24)); ((-80562173809869717), (-24)); ((-33060408839805517), (-24)); (99999999999999623, (-17)); (99999999999994504, (-17)); ((-30418229814444399), (-23)); ((-13218090419040865), (-23)); (30418229814466405, (-23)); (99999999999995381, (-17)); (16444988262476501, (-28)); (13218090418990231, (-23)); ((-16846524175662125), (-28)); (99999999999999134, (-17)); (99999999999992839, (-17)); ((-37496509121647638), (-23)); ((-51618742777044108), (-24)); (37496509292309991, (-23)); (99999999999992917, (-17)); (33062083546632546, (-24)); (51618730379913276, (-24)); ((-33062102848356967), (-24)); (99999999999999822, (-17))];
  [(24515455680770869, (-10)); (10374081801627466, (-18)); (99999999999999423, (-17)); ((-7078279744199198), (-23)); (80562171469761338, (-24)); (70782794778573375, (-24)); (99999999999999689, (-17)); (33060414542221364, (-24)); ((-80562173809869717), (-24)); ((-33060408839805517), (-24)); (99999999999999623, (-17)); (9999999999999255, (-16)); ((-35412438396474757), (-23)); ((-15388298891801895), (-23)); (35412438396504577, (-23)); (99999999999993738, (-17)); (19107074839643492, (-28)); (15388298891733264, (-23)); ((-19651502647377583), (-28)); (99999999999998812, (-17)); (99999999999990707, (-17)); ((-42490717631929864), (-23)); ((-73320829155761961), (-24)); (4249071787434587, (-22)); (99999999999990918, (-17)); (33062353778732603, (-24)); (73320815107323881, (-24)); ((-33062384882338298), (-24)); (99999999999999678, (-17))];
  [(24515456443721578, (-10)); (81825804752537223, (-17)); (99999999999999423, (-17)); ((-7078279744199198), (-23)); (80562171469761338, (-24)); (70782794778573375, (-24)); (99999999999999689, (-17)); (33060414542221364, (-24)); ((-80562173809869717), (-24)); ((-33060408839805517), (-24)); (99999999999999623, (-17)); (99999999999952349, (-17)); ((-8954135667813212), (-22)); ((-38909750498205938), (-23)); (89541356678322788, (-23)); (99999999999959921, (-17)); (47259618413435998, (-28)); (38909750497767175, (-23)); ((-50743298452005092), (-28)); (99999999999992428, (-17)); (99999999999948563, (-17)); ((-96619635135955422), (-23)); ((-30853536311507869), (-23)); (96619636156138696, (-23)); (99999999999953271, (-17)); (33065212640510764, (-24)); (3085353311674467, (-22)); ((-33065510711058095), (-24)); (99999999999995182, (-17))];
  [(24515456354851746, (-10)); (37990333213524952, (-17)); (99999999999999423, (-17)); ((-7078279744199198), (-23)); (80562171469761338, (-24)); (70782794778573375, (-24)); (99999999999999689, (-17)); (33060414542221364, (-24)); ((-80562173809869717), (-24)); ((-33060408839805517), (-24)); (99999999999999623, (-17)); (99999999999977029, (-17)); ((-62161484005515196), (-23)); ((-27011963390499571), (-23)); (62161484005607088, (-23)); (9999999999998066, (-16)); (33177860843421466, (-28)); (27011963390288109, (-23)); ((-34857117192643727), (-28)); (99999999999996347, (-17)); (99999999999974232, (-17)); ((-69239762856686029), (-23)); ((-18955748298609615), (-23)); (69239763483435977, (-23)); (99999999999975953, (-17)); (33063782406940648, (-24)); (18955746009276602, (-23)); ((-33063913671346912), (-24)); (99999999999998146, (-17))];
  [(24515450341470083, (-10)); (68689316743734952, (-17)); (99999999999999423, (-17)); ((-7078279744199198), (-23)); (80562171469761338, (-24)); (70782794778573375, (-24)); (99999999999999689, (-17)); (33060414542221364, (-24)); ((-80562173809869717), (-24)); ((-33060408839805517), (-24)); (99999999999999623, (-17)); (9999999999998842, (-16)); ((-44141653117139686), (-23)); ((-19181535673209761), (-23)); (44141653117186024, (-23)); (99999999999990252, (-17)); (23732399286962687, (-28)); (19181535673103136, (-23)); ((-24578672430664028), (-28)); (99999999999998157, (-17)); (99999999999986267, (-17)); ((-51219932227188511), (-23)); ((-1112531998557584), (-22)); (51219932595023293, (-23)); (99999999999986822, (-17)); (33062823343621113, (-24)); (11125318292098802, (-23)); ((-33062880284275518), (-24)); (99999999999999323, (-17))];
  [(24515451045450997, (-10)); (66620402490403541, (-17)); (99999999999999423, (-17)); ((-7078279744199198), (-23)); (80562171469761338, (-24)); (70782794778573375, (-24)); (99999999999999689, (-17)); (33060414542221364, (-24)); ((-80562173809869717), (-24)); ((-33060408839805517), (-24)); (99999999999999623, (-17)); (99999999999986766, (-17)); ((-47184805583211814), (-23)); ((-20503922417468663), (-23)); (47184805583264759, (-23)); (99999999999988864, (-17)); (25337502985732083, (-28)); (20503922417346825, (-23)); ((-26304514122443834), (-28)); (99999999999997891, (-17)); (99999999999984501, (-17)); ((-54263084649541865), (-23)); ((-12447706830442752), (-23)); (54263085061100626, (-23)); (99999999999985212, (-17)); (33062986305620239, (-24)); (12447705036341285, (-23)); ((-33063053804466938), (-24)); (99999999999999167, (-17))];
  [(24515451164063294, (-10)); (25115660276921126, (-17)); (99999999999999423, (-17)); ((-7078279744199198), (-23)); (80562171469761338, (-24)); (70782794778573375, (-24)); (99999999999999689, (-17)); (33060414542221364, (-24)); ((-80562173809869717), (-24)); ((-33060408839805517), (-24)); (99999999999999623, (-17)); (99999999999996991, (-17)); ((-22501985257260193), (-23)); ((-97781257520831242), (-24)); (22501985257272234, (-23)); (99999999999997458, (-17)); (12204630018183871, (-28)); (97781257520554143, (-24)); ((-12424505868580127), (-28)); (99999999999999534, (-17)); (99999999999995615, (-17)); ((-29580264678190274), (-23)); ((-17219093490321562), (-24)); (29580264735119432, (-23)); (99999999999995559, (-17)); (33061653133310287, (-24)); (17219083710596282, (-24)); ((-33061658211623167), (-24)); (99999999999999944, (-17))];
  [(24515452158036716, (-10)); (33636185993458778, (-17)); (99999999999999423, (-17)); ((-7078279744199198), (-23)); (80562171469761338, (-24)); (70782794778573375, (-24)); (99999999999999689, (-17)); (33060414542221364, (-24)); ((-80562173809869717), (-24)); ((-33060408839805517), (-24)); (99999999999999623, (-17)); (99999999999993205, (-17)); ((-33803247229171585), (-23)); ((-14689032882886521), (-23)); (33803247229198759, (-23)); (99999999999994293, (-17)); (18250427037384654, (-28)); (14689032882823989, (-23)); ((-18746670882308081), (-28)); (99999999999998934, (-17)); (99999999999991418, (-17)); ((-40881526487744763), (-23)); ((-6632816853460246), (-23)); (40881526707040799, (-23)); (99999999999991585, (-17)); (3306226681755321, (-23)); (66328155018237496, (-24)); ((-33062293904201788), (-24)); (99999999999999745, (-17))];
  [(24515452903074441, (-10)); (72852463328520534, (-17)); (99999999999999423, (-17)); ((-7078279744199198), (-23)); (80562171469761338, (-24)); (70782794778573375, (-24)); (99999999999999689, (-17)); (33060414542221364, (-24)); ((-80562173809869717), (-24)); ((-33060408839805517), (-24)); (99999999999999623, (-17)); (99999999999976874, (-17)); ((-62372297363599232), (-23)); ((-27103571284358365), (-23)); (6237229736369176, (-22)); (99999999999980549, (-17)); (33287799024690172, (-28)); (27103571284145474, (-23)); ((-34978686613840182), (-28)); (99999999999996336, (-17)); (99999999999974065, (-17)); ((-69450576211741456), (-23)); ((-19047356199438), (-20)); (69450576841520543, (-23)); (99999999999975819, (-17)); (33063793570594554, (-24)); (1904735390313388, (-22)); ((-33063925893131653), (-24)); (99999999999998146, (-17))];
  [(24515456594342873, (-10)); (59733206265842664, (-18)); (99999999999999423, (-17)); ((-7078279744199198), (-23)); (80562171469761338, (-24)); (70782794778573375, (-24)); (99999999999999689, (-17)); (33060414542221364, (-24)); ((-80562173809869717), (-24)); ((-33060408839805517), (-24)); (99999999999999623, (-17)); (99999999999988476, (-17)); ((-44027008622757224), (-23)); ((-19131717479256533), (-23)); (44027008622803324, (-23)); (99999999999990308, (-17)); (23671326970880005, (-28)); (19131717479150458, (-23)); ((-24514279495235769), (-28)); (99999999999998168, (-17)); (99999999999986322, (-17)); ((-51105287734453067), (-23)); ((-11075501787832411), (-23)); (51105288100640657, (-23)); (99999999999986877, (-17)); (33062817144029424, (-24)); (11075500098146172, (-23)); ((-33062873809719259), (-24)); (99999999999999334, (-17))];
  [(24515454932335261, (-10)); (83386814700377443, (-17)); (99999999999999423, (-17)); ((-7078279744199198), (-23)); (80562171469761338, (-24)); (70782794778573375, (-24)); (99999999999999689, (-17)); (33060414542221364, (-24)); ((-80562173809869717), (-24)); ((-33060408839805517), (-24)); (99999999999999623, (-17)); (99999999999960765, (-17)); ((-81244379952985204), (-23)); ((-35304340660866592), (-23)); (81244379953142181, (-23)); (99999999999967004, (-17)); (43026594534754077, (-28)); (3530434066050537, (-22)); ((-45894954503467034), (-28)); (99999999999993761, (-17)); (99999999999957279, (-17)); ((-88322658530005438), (-23)); ((-27248126199866369), (-23)); (88322659430962049, (-23)); (99999999999960942, (-17)); (33064782653900616, (-24)); (27248123279486211, (-23)); ((-33065023324653735), (-24)); (99999999999996225, (-17))];
  [(24515459737768658, (-10)); (71579613292700195, (-17)); (99999999999999423, (-17)); ((-7078279744199198), (-23)); (80562171469761338, (-24)); (70782794778573375, (-24)); (99999999999999689, (-17)); (33060414542221364, (-24)); ((-80562173809869717), (-24)); ((-33060408839805517), (-24)); (99999999999999623, (-17)); (99999999999936406, (-17)); ((-10343466054990114), (-22)); ((-44947016342794621), (-23)); (10343466055015557, (-22)); (99999999999946509, (-17)); (54280003735484468, (-28)); (44947016342209136, (-23)); ((-58928972812566371), (-28)); (99999999999989897, (-17)); (99999999999932132, (-17)); ((-1105129388081288), (-21)); ((-36890802615416198), (-23)); (11051294002796481, (-22)); (99999999999938882, (-17)); (33065925871785823, (-24)); (36890798961181009, (-23)); ((-33066333551838964), (-24)); (99999999999993139, (-17))];
  [(24515453348054807, (-10)); (95569749115289804, (-17)); (99999999999999423, (-17)); ((-7078279744199198), (-23)); (80562171469761338, (-24)); (70782794778573375, (-24)); (99999999999999689, (-17)); (33060414542221364, (-24)); ((-80562173809869717), (-24)); ((-33060408839805517), (-24)); (99999999999999623, (-17)); (99999999999962896, (-17)); ((-79003829069261761), (-23)); ((-34330720451425286), (-23)); (79003829069410183, (-23)); (99999999999968792, (-17)); (4187771184514884, (-27)); (3433072045108372, (-22)); ((-44590442449532475), (-28)); (99999999999994105, (-17)); (99999999999959488, (-17)); ((-86082107678470433), (-23)); ((-26274505916351353), (-23)); (8608210854723112, (-22)); (99999999999962885, (-17)); (33064665960595807, (-24)); (26274503070065466, (-23)); ((-33064892184292833), (-24)); (99999999999996492, (-17))];
  [(24515457678810619, (-10)); (35772724118323074, (-17)); (99999999999999423, (-17)); ((-7078279744199198), (-23)); (80562171469761338, (-24)); (70782794778573375, (-24)); (99999999999999689, (-17)); (33060414542221364, (-24)); ((-80562173809869717), (-24)); ((-33060408839805517), (-24)); (99999999999999623, (-17)); (99999999999971778, (-17)); ((-6890907482925151), (-22)); ((-29944095342048706), (-23)); (6890907482936443, (-22)); (99999999999976263, (-17)); (36678163121628483, (-28)); (29944095341788847, (-23)); ((-3874178755580715), (-27)); (99999999999995515, (-17)); (99999999999968736, (-17)); ((-75987353583484462), (-23)); ((-21887880473237313), (-23)); (75987354307190132, (-23)); (99999999999971079, (-17)); (330641378731727, (-22)); (21887877960774638, (-23)); ((-33064304213827964), (-24)); (99999999999997546, (-17))];
  [(24515454966040342, (-10)); (13666158397195682, (-17)); (99999999999999423, (-17)); ((-7078279744199198), (-23)); (80562171469761338, (-24)); (70782794778573375, (-24)); (99999999999999689, (-17)); (33060414542221364, (-24)); ((-80562173809869717), (-24)); ((-33060408839805517), (-24)); (99999999999999623, (-17)); (99999999999991063, (-17)); ((-3876814658639311), (-22)); ((-16846505174585909), (-23)); (3876814658642885, (-22)); (99999999999992484, (-17)); (20889230286511268, (-28)); (16846505174503657, (-23)); ((-21542212458314225), (-28)); (99999999999998579, (-17)); (99999999999989098, (-17)); ((-45846425773639205), (-23)); ((-87902893093014288), (-24)); (45846426064268602, (-23)); (99999999999989431, (-17)); (33062534697708252, (-24)); (87902877935014531, (-24)); ((-3306257498547851), (-23)); (99999999999999556, (-17))];
  [(24515457733387165, (-10)); (37276014206427988, (-17)); (99999999999999423, (-17)); ((-7078279744199198), (-23)); (80562171469761338, (-24)); (70782794778573375, (-24)); (99999999999999689, (-17)); (33060414542221364, (-24)); ((-80562173809869717), (-24)); ((-33060408839805517), (-24)); (99999999999999623, (-17)); (99999999999970735, (-17)); ((-7016349453296953), (-22)); ((-30489197169236852), (-23)); (7016349453308659, (-22)); (99999999999975375, (-17)); (37327261927616993, (-28)); (30489197168967442, (-23)); ((-39466208079375065), (-28)); (99999999999995359, (-17)); (99999999999967648, (-17)); ((-77241773269181115), (-23)); ((-22432982341897174), (-23)); (7724177401091171, (-22)); (99999999999970102, (-17)); (33064203793640761, (-24)); (22432979787952733, (-23)); ((-33064377041718591), (-24)); (99999999999997435, (-17))];
  [(24515455626267097, (-10)); (86216614389633373, (-17)); (99999999999999423, (-17)); ((-7078279744199198), (-23)); (80562171469761338, (-24)); (70782794778573375, (-24)); (99999999999999689, (-17)); (33060414542221364, (-24)); ((-80562173809869717), (-24)); ((-33060408839805517), (-24)); (99999999999999623, (-17)); (99999999999954781, (-17)); ((-87224976344379781), (-23)); ((-37903178983367397), (-23)); (87224976344560707, (-23)); (99999999999961964, (-17)); (46080709580046853, (-28)); (37903178982951043, (-23)); ((-49387161027425464), (-28)); (99999999999992828, (-17)); (99999999999951084, (-17)); ((-9430325483548091), (-22)); ((-2984696472008864), (-22)); (94303255822377727, (-23)); (9999999999995548, (-16)); (33065092883501807, (-24)); (29846961601929476, (-23)); ((-33065374384836296), (-24)); (99999999999995504, (-17))];
  [(24515458423646782, (-10)); (63995578580959434, (-17)); (99999999999999423, (-17)); ((-7078279744199198), (-23)); (80562171469761338, (-24)); (70782794778573375, (-24)); (99999999999999689, (-17)); (33060414542221364, (-24)); ((-80562173809869717), (-24)); ((-33060408839805517), (-24)); (99999999999999623, (-17)); (9999999999995105, (-16)); ((-90746782692065638), (-23)); ((-39433562356822361), (-23)); (90746782692261472, (-23)); (99999999999958822, (-17)); (4787156736854884, (-27)); (39433562356371708, (-23)); ((-51449955407179004), (-28)); (99999999999992228, (-17)); (9999999999994722, (-16)); ((-97825061132571393), (-23)); ((-31377348209976276), (-23)); (97825062170076808, (-23)); (99999999999952083, (-17)); (33065274806523285, (-24)); (31377344975348716, (-23)); ((-33065581747522235), (-24)); (99999999999995026, (-17))];
  [(24515453628172684, (-10)); (57403091750232316, (-17)); (99999999999999423, (-17)); ((-7078279744199198), (-23)); (80562171469761338, (-24)); (70782794778573375, (-24)); (99999999999999689, (-17)); (33060414542221364, (-24)); ((-80562173809869717), (-24)); ((-33060408839805517), (-24)); (99999999999999623, (-17)); (99999999999980449, (-17)); ((-57353291963057079), (-23)); ((-24922587504686557), (-23)); (57353291963135292, (-23)); (99999999999983558, (-17)); (30671516143934778, (-28)); (24922587504506547, (-23)); ((-32100988534011776), (-28)); (99999999999996891, (-17)); (99999999999977818, (-17)); ((-64431570883303788), (-23)); ((-16866372253835511), (-23)); (64431571440966426, (-23)); (99999999999979183, (-17)); (33063527898887737, (-24)); (16866370123496959, (-23)); ((-33063636579562522), (-24)); (99999999999998523, (-17))];
  [(24515450787274665, (-10)); (72592931051192022, (-18)); (99999999999999423, (-17)); ((-7078279744199198), (-23)); (80562171469761338, (-24)); (70782794778573375, (-24)); (99999999999999689, (-17)); (33060414542221364, (-24)); ((-80562173809869717), (-24)); ((-33060408839805517), (-24)); (99999999999999623, (-17)); (99999999999999489, (-17)); ((-92637452005333326), (-24)); ((-40255144044854853), (-24)); (92637452005353734, (-24)); (99999999999999567, (-17)); (50510449728355514, (-29)); (40255144044807889, (-24)); ((-50875970103447798), (-29)); (99999999999999911, (-17)); (99999999999998579, (-17)); ((-16342024811647313), (-23)); (40307024362273661, (-24)); (16342024678388559, (-23)); (99999999999998601, (-17)); (33060927109792795, (-24)); ((-40307029765098005), (-24)); ((-3306092044887823), (-23)); (99999999999999856, (-17))];
  [(24515459985577399, (-10)); (40740505079726841, (-17)); (99999999999999423, (-17)); ((-7078279744199198), (-23)); (80562171469761338, (-24)); (70782794778573375, (-24)); (99999999999999689, (-17)); (33060414542221364, (-24)); ((-80562173809869717), (-24)); ((-33060408839805517), (-24)); (99999999999999623, (-17)); (99999999999955957, (-17)); ((-86072211009857857), (-23)); ((-37402250559375913), (-23)); (86072211010034029, (-23)); (99999999999962963, (-17)); (45492647871478205, (-28)); (37402250558970491, (-23)); ((-48712145428453368), (-28)); (99999999999993006, (-17)); (99999999999952294, (-17)); ((-93150489517519973), (-23)); ((-29346036257986163), (-23)); (931504904878516, (-21)); (99999999999956557, (-17)); (33065033148638492, (-24)); (29346033177949384, (-23)); ((-33065306528705303), (-24)); (99999999999995637, (-17))];
  [(24515459605805287, (-10)); (25713371364632953, (-17)); (99999999999999423, (-17)); ((-7078279744199198), (-23)); (80562171469761338, (-24)); (70782794778573375, (-24)); (99999999999999689, (-17)); (33060414542221364, (-24)); ((-80562173809869717), (-24)); ((-33060408839805517), (-24)); (99999999999999623, (-17)); (9999999999996696, (-16)); ((-74547746034760652), (-23)); ((-32394351795146774), (-23)); (745477460348928, (-21)); (99999999999972211, (-17)); (39589417015769171, (-28)); (32394351794842652, (-23)); ((-42004177913668173), (-28)); (9999999999999476, (-16)); (99999999999963718, (-17)); ((-81626024707986772), (-23)); ((-24338137112752568), (-23)); (81626025512715844, (-23)); (99999999999966627, (-17)); (33064433541196739, (-24)); (24338134413826188, (-23)); ((-33064632187223564), (-24)); (99999999999996991, (-17))];
  [(24515454264449342, (-10)); (11965189567553858, (-17)); (99999999999999423, (-17)); ((-7078279744199198), (-23)); (80562171469761338, (-24)); (70782794778573375, (-24)); (99999999999999689, (-17)); (33060414542221364, (-24)); ((-80562173809869717), (-24)); ((-33060408839805517), (-24)); (99999999999999623, (-17)); (9999999999999335, (-16)); ((-33431724900852657), (-23)); ((-14527589705006929), (-23)); (33431724900879238, (-23)); (99999999999994404, (-17)); (18052227392286443, (-28)); (14527589704945763, (-23)); ((-18538504065190864), (-28)); (99999999999998945, (-17)); (99999999999991573, (-17)); ((-40510004164763222), (-23)); ((-64713736632979597), (-24)); (40510004378721447, (-23)); (99999999999991729, (-17)); (33062246698282276, (-24)); (64713723239456698, (-24)); ((-3306227297324608), (-23)); (99999999999999734, (-17))];
  [(24515454110269416, (-10)); (90366804416699198, (-18)); (99999999999999423, (-17)); ((-7078279744199198), (-23)); (80562171469761338, (-24)); (70782794778573375, (-24)); (99999999999999689, (-17)); (33060414542221364, (-24)); ((-80562173809869717), (-24)); ((-33060408839805517), (-24)); (99999999999999623, (-17)); (99999999999994404, (-17)); ((-30695028538047503), (-23)); ((-13338371926310671), (-23)); (30695028538069907, (-23)); (99999999999995293, (-17)); (16592664743252559, (-28)); (1333837192625911, (-22)); ((-17001955399109647), (-28)); (99999999999999112, (-17)); (99999999999992728, (-17)); ((-37773307841274182), (-23)); ((-52821557941253057), (-24)); (37773308015913371, (-23)); (99999999999992806, (-17)); (33062098537275659, (-24)); (52821545452601003, (-24)); ((-33062118476617922), (-24)); (99999999999999811, (-17))];
  [(24515455050192825, (-10)); (70734591542182335, (-17)); (99999999999999423, (-17)); ((-7078279744199198), (-23)); (80562171469761338, (-24)); (70782794778573375, (-24)); (99999999999999689, (-17)); (33060414542221364, (-24)); ((-80562173809869717), (-24)); ((-33060408839805517), (-24)); (99999999999999623, (-17)); (99999999999967248, (-17)); ((-74220280690517507), (-23)); ((-32252053363003579), (-23)); (7422028069064849, (-22)); (99999999999972433, (-17)); (39418949346431972, (-28)); (3225205336270212, (-22)); ((-41813774664944958), (-28)); (99999999999994793, (-17)); (99999999999964018, (-17)); ((-81298559368448079), (-23)); ((-24195838669783212), (-23)); (81298560168471704, (-23)); (99999999999966871, (-17)); (33064416230616689, (-24)); (24195835981685783, (-23)); ((-33064613046175893), (-24)); (99999999999997014, (-17))];
  [(24515454384300346, (-10)); (477473360575565, (-15)); (99999999999999423, (-17)); ((-7078279744199198), (-23)); (80562171469761338, (-24)); (70782794778573375, (-24)); (99999999999999689, (-17)); (33060414542221364, (-24)); ((-80562173809869717), (-24)); ((-33060408839805517), (-24)); (99999999999999623, (-17)); (99999999999981304, (-17)); ((-56071064250212033), (-23)); ((-24365401842498883), (-23)); (56071064250286805, (-23)); (99999999999984268, (-17)); (30001907063673629, (-28)); (2436540184232683, (-22)); ((-3136768622624686), (-27)); (99999999999997036, (-17)); (99999999999978728, (-17)); ((-63149343188879591), (-23)); ((-16309186549256793), (-23)); (63149343728118532, (-23)); (99999999999979994, (-17)); (33063459904989457, (-24)); (16309184461317751, (-23)); ((-33063562854940195), (-24)); (99999999999998623, (-17))];
  [(24515456445671101, (-10)); (32888116356901032, (-18)); (99999999999999423, (-17)); ((-7078279744199198), (-23)); (80562171469761338, (-24)); (70782794778573375, (-24)); (99999999999999689, (-17)); (33060414542221364, (-24)); ((-80562173809869717), (-24)); ((-33060408839805517), (-24)); (99999999999999623, (-17)); (99999999999989786, (-17)); ((-41473408283794015), (-23)); ((-18022063171572195), (-23)); (41473408283834916, (-23)); (99999999999991407, (-17)); (22322188921807454, (-28)); (18022063171478068, (-23)); ((-23069324228686128), (-28)); (99999999999998379, (-17)); (99999999999987732, (-17)); ((-4855168743217558), (-22)); ((-99658473957248861), (-24)); (48551687761673429, (-23)); (99999999999988165, (-17)); (33062680172989003, (-24)); (99658457904747954, (-24)); ((-33062728528748322), (-24)); (99999999999999456, (-17))];
  [(2451545389747153, (-9)); (24527780295050539, (-18)); (99999999999999423, (-17)); ((-7078279744199198), (-23)); (80562171469761338, (-24)); (70782794778573375, (-24)); (99999999999999689, (-17)); (33060414542221364, (-24)); ((-80562173809869717), (-24)); ((-33060408839805517), (-24)); (99999999999999623, (-17)); (9999999999999617, (-16)); ((-25361666340533923), (-23)); ((-11020785933390082), (-23)); (25361666340549218, (-23)); (9999999999999678, (-16)); (13738539212132555, (-28)); (11020785933354884, (-23)); ((-14018231020429539), (-28)); (99999999999999378, (-17)); (99999999999994682, (-17)); ((-3243994572038108), (-22)); ((-29645696248814177), (-24)); (32439945818395111, (-23)); (99999999999994671, (-17)); (33061808828050641, (-24)); (29645685523579766, (-24)); ((-33061818463727937), (-24)); (99999999999999889, (-17))];
  [(24515452008335474, (-10)); (1342105697688033, (-16)); (99999999999999423, (-17)); ((-7078279744199198), (-23)); (80562171469761338, (-24)); (70782794778573375, (-24)); (99999999999999689, (-17)); (33060414542221364, (-24)); ((-80562173809869717), (-24)); ((-33060408839805517), (-24)); (99999999999999623, (-17)); (99999999999997502, (-17)); ((-20511202632872018), (-23)); ((-89130410703674179), (-24)); (20511202632882023, (-23)); (99999999999997902, (-17)); (11133179663305395, (-28)); (89130410703443932, (-24)); ((-11315948178491908), (-28)); (999999999999996, (-15)); (99999999999996192, (-17)); ((-27589482082402195), (-23)); ((-85682460150031439), (-25)); (27589482110730127, (-23)); (99999999999996136, (-17)); (33061544384457232, (-24)); (85682368934939189, (-25)); ((-33061546743523042), (-24)); (99999999999999944, (-17))];
  [(2451545898871141, (-9)); (5837922107006227, (-16)); (99999999999999423, (-17)); ((-7078279744199198), (-23)); (80562171469761338, (-24)); (70782794778573375, (-24)); (99999999999999689, (-17)); (33060414542221364, (-24)); ((-80562173809869717), (-24)); ((-33060408839805517), (-24)); (99999999999999623, (-17)); (99999999999951028, (-17)); ((-90767774077833079), (-23)); ((-39442684058746472), (-23)); (90767774078029008, (-23)); (999999999999588, (-15)); (47882118275512953, (-28)); (39442684058295612, (-23)); ((-51462722971962194), (-28)); (99999999999992228, (-17)); (99999999999947198, (-17)); ((-97846052518037258), (-23)); ((-31386469912594372), (-23)); (97846053555844323, (-23)); (99999999999952061, (-17)); (33065275878525087, (-24)); (3138646667727261, (-22)); ((-33065583030735308), (-24)); (99999999999995026, (-17))];
  [(24515452954555843, (-10)); (16066754477791612, (-17)); (99999999999999423, (-17)); ((-7078279744199198), (-23)); (80562171469761338, (-24)); (70782794778573375, (-24)); (99999999999999689, (-17)); (33060414542221364, (-24)); ((-80562173809869717), (-24)); ((-33060408839805517), (-24)); (99999999999999623, (-17)); (9999999999999537, (-16)); ((-27923588137300593), (-23)); ((-12134056297384379), (-23)); (27923588137319138, (-23)); (99999999999996114, (-17)); (15111465707419068, (-28)); (12134056297341709, (-23)); ((-15449863610683678), (-28)); (99999999999999267, (-17)); (99999999999993794, (-17)); ((-35001867480342516), (-23)); ((-40778400735739718), (-24)); (35001867615163867, (-23)); (99999999999993827, (-17)); (33061948184639781, (-24)); (40778389163437937, (-24)); ((-33061962414990832), (-24)); (99999999999999867, (-17))];
  [(24515457790376013, (-10)); (60457554743525876, (-17)); (99999999999999423, (-17)); ((-7078279744199198), (-23)); (80562171469761338, (-24)); (70782794778573375, (-24)); (99999999999999689, (-17)); (33060414542221364, (-24)); ((-80562173809869717), (-24)); ((-33060408839805517), (-24)); (99999999999999623, (-17)); (99999999999957356, (-17)); ((-84703979125100723), (-23)); ((-36807692220779603), (-23)); (84703979125271337, (-23)); (99999999999964129, (-17)); (44795750611778788, (-28)); (36807692220386966, (-23)); ((-47913339962235568), (-28)); (99999999999993228, (-17)); (99999999999953748, (-17)); ((-91782257652419277), (-23)); ((-2875147787415543), (-22)); (91782258603089564, (-23)); (99999999999957823, (-17)); (33064962356635586, (-24)); (28751474839366415, (-23)); ((-3306522622731373), (-23)); (99999999999995814, (-17))];
  [(2451545425774985, (-9)); (18264522413052631, (-17)); (99999999999999423, (-17)); ((-7078279744199198), (-23)); (80562171469761338, (-24)); (70782794778573375, (-24)); (99999999999999689, (-17)); (33060414542221364, (-24)); ((-80562173809869717), (-24)); ((-33060408839805517), (-24)); (99999999999999623, (-17)); (99999999999991751, (-17)); ((-37247125331436124), (-23)); ((-16185552963082138), (-23)); (3724712533146911, (-22)); (99999999999993061, (-17)); (20082538305301796, (-28)); (16185552963006215, (-23)); ((-20685120283303604), (-28)); (9999999999999869, (-16)); (99999999999989841, (-17)); ((-44325404540533625), (-23)); ((-8129337047512012), (-23)); (44325404809309561, (-23)); (99999999999990119, (-17)); (33062452803142572, (-24)); (81293355820046163, (-24)); ((-33062488808420585), (-24)); (99999999999999611, (-17))];
  [(24515457089602328, (-10)); (4122670131970666, (-16)); (99999999999999423, (-17)); ((-7078279744199198), (-23)); (80562171469761338, (-24)); (70782794778573375, (-24)); (99999999999999689, (-17)); (33060414542221364, (-24)); ((-80562173809869717), (-24)); ((-33060408839805517), (-24)); (99999999999999623, (-17)); (99999999999972, (-14)); ((-68640869102658294), (-23)); ((-29827547880902891), (-23)); (68640869102770346, (-23)); (99999999999976452, (-17)); (36540458787894471, (-28)); (29827547880645044, (-23)); ((-38587466555384253), (-28)); (99999999999995559, (-17)); (99999999999968958, (-17)); ((-75719147860744368), (-23)); ((-21771333003224487), (-23)); (75719148580596186, (-23)); (99999999999971279, (-17)); (33064123886667042, (-24)); (21771330499630943, (-23)); ((-33064288699232385), (-24)); (9999999999999758, (-16))];
  [(24515455658536446, (-10)); (87575528958528492, (-17)); (99999999999999423, (-17)); ((-7078279744199198), (-23)); (80562171469761338, (-24)); (70782794778573375, (-24)); (99999999999999689, (-17)); (33060414542221364, (-24)); ((-80562173809869717), (-24)); ((-33060408839805517), (-24)); (99999999999999623, (-17)); (99999999999953704, (-17)); ((-88254446872824639), (-23)); ((-38350530264375423), (-23)); (88254446873009854, (-23)); (99999999999961053, (-17)); (46604914455019834, (-28)); (38350530263949185, (-23)); ((-49989457018284611), (-28)); (9999999999999265, (-16)); (99999999999949962, (-17)); ((-95332725349136076), (-23)); ((-30294316035131476), (-23)); (95332726350826376, (-23)); (99999999999954492, (-17)); (3306514613335281, (-23)); (30294312882927199, (-23)); ((-33065434931083072), (-24)); (99999999999995359, (-17))];
  [(24515459041345352, (-10)); (39997153425389198, (-17)); (99999999999999423, (-17)); ((-7078279744199198), (-23)); (80562171469761338, (-24)); (70782794778573375, (-24)); (99999999999999689, (-17)); (33060414542221364, (-24)); ((-80562173809869717), (-24)); ((-33060408839805517), (-24)); (99999999999999623, (-17)); (99999999999962108, (-17)); ((-7983660267579011), (-22)); ((-34692598067934104), (-23)); (79836602675941687, (-23)); (99999999999968125, (-17)); (42304724112287256, (-28)); (34692598067585301, (-23)); ((-45075054799781356), (-28)); (99999999999993983, (-17)); (99999999999958677, (-17)); ((-86914881273034908), (-23)); ((-26636383560392073), (-23)); (86914882153762222, (-23)); (99999999999962164, (-17)); (33064709332722802, (-24)); (26636380686566704, (-23)); ((-33064940901674923), (-24)); (99999999999996403, (-17))];
  [(24515452411569329, (-10)); (74505757009305185, (-17)); (99999999999999423, (-17)); ((-7078279744199198), (-23)); (80562171469761338, (-24)); (70782794778573375, (-24)); (99999999999999689, (-17)); (33060414542221364, (-24)); ((-80562173809869717), (-24)); ((-33060408839805517), (-24)); (99999999999999623, (-17)); (9999999999997834, (-16)); ((-60375468731627712), (-23)); ((-26235859356092995), (-23)); (60375468731714385, (-23)); (99999999999981781, (-17)); (32247831470775415, (-28)); (26235859355893513, (-23)); ((-33831826229402395), (-28)); (99999999999996558, (-17)); (99999999999975597, (-17)); ((-67453747608456952), (-23)); ((-18179644205156529), (-23)); (674537482095441, (-21)); (99999999999977196, (-17)); (33063687965151063, (-24)); (18179641974882719, (-23)); ((-33063810592902506), (-24)); (9999999999999829, (-16))];
  [(24515451398165571, (-10)); (79034348369686103, (-17)); (99999999999999423, (-17)); ((-7078279744199198), (-23)); (80562171469761338, (-24)); (70782794778573375, (-24)); (99999999999999689, (-17)); (33060414542221364, (-24)); ((-80562173809869717), (-24)); ((-33060408839805517), (-24)); (99999999999999623, (-17)); (99999999999980727, (-17)); ((-56943847671622599), (-23)); ((-24744665528487989), (-23)); (56943847671699711, (-23)); (9999999999998378, (-16)); (30457196571988841, (-28)); (24744665528310536, (-23)); ((-31866731475815868), (-28)); (99999999999996925, (-17)); (99999999999978118, (-17)); ((-64022126597751497), (-23)); ((-1668845026410052), (-22)); (64022127149531046, (-23)); (99999999999979439, (-17)); (33063506137073408, (-24)); (16688448147301112, (-23)); ((-3306361302791856), (-23)); (99999999999998546, (-17))];
  [(24515451976004653, (-10)); (17690083415905045, (-17)); (99999999999999423, (-17)); ((-7078279744199198), (-23)); (80562171469761338, (-24)); (70782794778573375, (-24)); (99999999999999689, (-17)); (33060414542221364, (-24)); ((-80562173809869717), (-24)); ((-33060408839805517), (-24)); (99999999999999623, (-17)); (99999999999996869, (-17)); ((-22926747994752946), (-23)); ((-99627042856017376), (-24)); (22926747994765445, (-23)); (99999999999997358, (-17)); (12432244923387188, (-28)); (99627042855729702, (-24)); ((-12661538484337598), (-28)); (999999999999995, (-15)); (9999999999999547, (-16)); ((-30005027409580777), (-23)); ((-19064878965936123), (-24)); (30005027472612448, (-23)); (99999999999995426, (-17)); (33061676236998864, (-24)); (19064869045770187, (-24)); ((-33061682045534579), (-24)); (99999999999999922, (-17))];
  [(24515458524466422, (-10)); (3731126386412531, (-16)); (99999999999999423, (-17)); ((-7078279744199198), (-23)); (80562171469761338, (-24)); (70782794778573375, (-24)); (99999999999999689, (-17)); (33060414542221364, (-24)); ((-80562173809869717), (-24)); ((-33060408839805517), (-24)); (99999999999999623, (-17)); (99999999999966549, (-17)); ((-75028014660030106), (-23)); ((-32603050130931397), (-23)); (75028014660163979, (-23)); (99999999999971867, (-17)); (39835957948951761, (-28)); (32603050130623341, (-23)); ((-42281178558312149), (-28)); (99999999999994693, (-17)); (99999999999963296, (-17)); ((-82106293326356539), (-23)); ((-24546835464415103), (-23)); (82106294137986801, (-23)); (99999999999966249, (-17)); (33064458582204779, (-24)); (24546832749606681, (-23)); ((-33064660035010528), (-24)); (99999999999996947, (-17))];
  [(24515450037528821, (-10)); (79005592069418629, (-17)); (99999999999999423, (-17)); ((-7078279744199198), (-23)); (80562171469761338, (-24)); (70782794778573375, (-24)); (99999999999999689, (-17)); (33060414542221364, (-24)); ((-80562173809869717), (-24)); ((-33060408839805517), (-24)); (99999999999999623, (-17)); (99999999999985967, (-17)); ((-48596505457799247), (-23)); ((-21117369564767849), (-23)); (48596505457855416, (-23)); (99999999999988198, (-17)); (26080931734919636, (-28)); (2111736956463861, (-22)); ((-27107205369247822), (-28)); (99999999999997757, (-17)); (99999999999983646, (-17)); ((-55674784503848433), (-23)); ((-1306115402441338), (-22)); (55674784935690637, (-23)); (99999999999984446, (-17)); (33063061785791002, (-24)); (13061152183632512, (-23)); ((-33063134507806627), (-24)); (99999999999999079, (-17))];
  [(24515458188819806, (-10)); (34146768197565658, (-17)); (99999999999999423, (-17)); ((-7078279744199198), (-23)); (80562171469761338, (-24)); (70782794778573375, (-24)); (99999999999999689, (-17)); (33060414542221364, (-24)); ((-80562173809869717), (-24)); ((-33060408839805517), (-24)); (99999999999999623, (-17)); (99999999999970002, (-17)); ((-71035920339656149), (-23)); ((-30868305453065761), (-23)); (71035920339776141, (-23)); (99999999999974776, (-17)); (37777579838840703, (-28)); (30868305452789618, (-23)); ((-39969694221042573), (-28)); (99999999999995226, (-17)); (99999999999966882, (-17)); ((-78114199063334208), (-23)); ((-22812090654568902), (-23)); (78114199817600848, (-23)); (99999999999969436, (-17)); (33064249528276861, (-24)); (22812088071774562, (-23)); ((-33064427658676164), (-24)); (99999999999997335, (-17))];
  [(24515455018472071, (-10)); (54683879706068172, (-17)); (99999999999999423, (-17)); ((-7078279744199198), (-23)); (80562171469761338, (-24)); (70782794778573375, (-24)); (99999999999999689, (-17)); (33060414542221364, (-24)); ((-80562173809869717), (-24)); ((-33060408839805517), (-24)); (99999999999999623, (-17)); (99999999999975508, (-17)); ((-64199937126354752), (-23)); ((-27897763032175278), (-23)); (64199937126452765, (-23)); (99999999999979405, (-17)); (34237824815272063, (-28)); (27897763031949723, (-23)); ((-36028402483623267), (-28)); (99999999999996114, (-17)); (99999999999972633, (-17)); ((-71278215948240565), (-23)); ((-19841548007677545), (-23)); (7127821660428069, (-22)); (99999999999974554, (-17)); (33063890045559515, (-24)); (19841545650937404, (-23)); ((-33064031426869696), (-24)); (99999999999997979, (-17))];
  [(24515454839568338, (-10)); (57513992654420243, (-17)); (99999999999999423, (-17)); ((-7078279744199198), (-23)); (80562171469761338, (-24)); (70782794778573375, (-24)); (99999999999999689, (-17)); (33060414542221364, (-24)); ((-80562173809869717), (-24)); ((-33060408839805517), (-24)); (99999999999999623, (-17)); (9999999999997502, (-16)); ((-6483727747340553), (-22)); ((-28174716102581012), (-23)); (64837277473505501, (-23)); (99999999999978983, (-17)); (34568197930939903, (-28)); (28174716102350963, (-23)); ((-36395331193261882), (-28)); (99999999999996037, (-17)); (99999999999972122, (-17)); ((-71915556286135118), (-23)); ((-20118501099154055), (-23)); (7191555695133313, (-22)); (99999999999974087, (-17)); (3306392359632616, (-23)); (20118498721338384, (-23)); ((-33064068315775761), (-24)); (99999999999997924, (-17))];
  [(24515458040858596, (-10)); (16043098756478802, (-17)); (99999999999999423, (-17)); ((-7078279744199198), (-23)); (80562171469761338, (-24)); (70782794778573375, (-24)); (99999999999999689, (-17)); (33060414542221364, (-24)); ((-80562173809869717), (-24)); ((-33060408839805517), (-24)); (99999999999999623, (-17)); (99999999999979272, (-17)); ((-59047151058744572), (-23)); ((-25658645532274634), (-23)); (59047151058827496, (-23)); (99999999999982569, (-17)); (31555449699419777, (-28)); (25658645532083835, (-23)); ((-3307076834602185), (-27)); (99999999999996703, (-17)); (99999999999976585, (-17)); ((-66125429954656818), (-23)); ((-17602430337423366), (-23)); (66125430536657836, (-23)); (99999999999978084, (-17)); (33063617656852628, (-24)); (1760242815107357, (-22)); ((-33063734078546118), (-24)); (9999999999999839, (-16))];
  [(24515450862727109, (-10)); (96097671065523038, (-17)); (99999999999999423, (-17)); ((-7078279744199198), (-23)); (80562171469761338, (-24)); (70782794778573375, (-24)); (99999999999999689, (-17)); (33060414542221364, (-24)); ((-80562173809869717), (-24)); ((-33060408839805517), (-24)); (99999999999999623, (-17)); (99999999999975564, (-17)); ((-64111990391168812), (-23)); ((-27859546216844676), (-23)); (64111990391266559, (-23)); (9999999999997945, (-16)); (34192294451793629, (-28)); (27859546216619742, (-23)); ((-35977887336002823), (-28)); (99999999999996114, (-17)); (99999999999972689, (-17)); ((-7119026921431809), (-22)); ((-19803331189439384), (-23)); (71190269869094527, (-23)); (99999999999974598, (-17)); (33063885421671382, (-24)); (1980332883560746, (-22)); ((-33064026348303997), (-24)); (99999999999997979, (-17))];
  [(24515457488239463, (-10)); (73868875417420488, (-18)); (99999999999999423, (-17)); ((-7078279744199198), (-23)); (80562171469761338, (-24)); (70782794778573375, (-24)); (99999999999999689, (-17)); (33060414542221364, (-24)); ((-80562173809869717), (-24)); ((-33060408839805517), (-24)); (99999999999999623, (-17)); (99999999999984923, (-17)); ((-50364768027536034), (-23)); ((-2188575925425653), (-22)); (50364768027596364, (-23)); (9999999999998731, (-16)); (27010917497728633, (-28)); (21885759254117715, (-23)); ((-28113622541070526), (-28)); (99999999999997613, (-17)); (99999999999982547, (-17)); ((-57443047048181865), (-23)); ((-13829543772361639), (-23)); (57443047505430759, (-23)); (99999999999983435, (-17)); (33063156208917718, (-24)); (13829541873110909, (-23)); ((-3306323569341148), (-23)); (99999999999999001, (-17))];
  [(24515457926146802, (-10)); (12514861597874516, (-18)); (99999999999999423, (-17)); ((-7078279744199198), (-23)); (80562171469761338, (-24)); (70782794778573375, (-24)); (99999999999999689, (-17)); (33060414542221364, (-24)); ((-80562173809869717), (-24)); ((-33060408839805517), (-24)); (99999999999999623, (-17)); (99999999999985556, (-17)); ((-4928955441063361), (-22)); ((-21418530534249984), (-23)); (49289554410691378, (-23)); (99999999999987854, (-17)); (26445707446855422, (-28)); (21418530534117034, (-23)); ((-27501334542989753), (-28)); (99999999999997702, (-17)); (99999999999983213, (-17)); ((-56367833446726262), (-23)); ((-13362315016808034), (-23)); (5636783388852627, (-22)); (99999999999984057, (-17)); (33063098821697372, (-24)); (13362313153110658, (-23)); ((-33063174133894136), (-24)); (99999999999999045, (-17))];
  [(24515453961526891, (-10)); (7136606026346427, (-16)); (99999999999999423, (-17)); ((-7078279744199198), (-23)); (80562171469761338, (-24)); (70782794778573375, (-24)); (99999999999999689, (-17)); (33060414542221364, (-24)); ((-80562173809869717), (-24)); ((-33060408839805517), (-24)); (99999999999999623, (-17)); (99999999999972566, (-17)); ((-67942113566394288), (-23)); ((-29523907146733058), (-23)); (67942113566504074, (-23)); (9999999999997693, (-16)); (36178431194777136, (-28)); (29523907146480441, (-23)); ((-38183900485933009), (-28)); (99999999999995637, (-17)); (99999999999969558, (-17)); ((-75020392334518887), (-23)); ((-21467692245953464), (-23)); (75020393044330242, (-23)); (99999999999971811, (-17)); (33064087120975239, (-24)); (21467689765466627, (-23)); ((-33064248127700061), (-24)); (99999999999997635, (-17))];
  [(24515456523277536, (-10)); (35608210675720986, (-17)); (99999999999999423, (-17)); ((-7078279744199198), (-23)); (80562171469761338, (-24)); (70782794778573375, (-24)); (99999999999999689, (-17)); (33060414542221364, (-24)); ((-80562173809869717), (-24)); ((-33060408839805517), (-24)); (99999999999999623, (-17)); (99999999999977351, (-17)); ((-61734255397209269), (-23)); ((-26826313328451374), (-23)); (61734255397299891, (-23)); (99999999999980949, (-17)); (32956873835275461, (-28)); (26826313328242813, (-23)); ((-3461231301571388), (-27)); (99999999999996403, (-17)); (99999999999974565, (-17)); ((-68812534254517788), (-23)); ((-18770098222437038), (-23)); (68812534875128971, (-23)); (99999999999976263, (-17)); (33063759964055284, (-24)); (18770095947231479, (-23)); ((-33063889059520924), (-24)); (9999999999999819, (-16))];
  [(24515454436797206, (-10)); (54213898128757143, (-17)); (99999999999999423, (-17)); ((-7078279744199198), (-23)); (80562171469761338, (-24)); (70782794778573375, (-24)); (99999999999999689, (-17)); (33060414542221364, (-24)); ((-80562173809869717), (-24)); ((-33060408839805517), (-24)); (99999999999999623, (-17)); (99999999999978351, (-17)); ((-60351238023692913), (-23)); ((-26225330022739845), (-23)); (60351238023779522, (-23)); (99999999999981792, (-17)); (32234505886072446, (-28)); (26225330022540528, (-23)); ((-33817948441594581), (-28)); (99999999999996547, (-17)); (99999999999975608, (-17)); ((-67429516900870262), (-23)); ((-18169114871002303), (-23)); (67429517501609248, (-23)); (99999999999977207, (-17)); (3306368661307181, (-23)); (18169112641529741, (-23)); ((-33063809197670768), (-24)); (99999999999998279, (-17))];
  [(24515455357948472, (-10)); (45335354612807444, (-17)); (99999999999999423, (-17)); ((-7078279744199198), (-23)); (80562171469761338, (-24)); (70782794778573375, (-24)); (99999999999999689, (-17)); (33060414542221364, (-24)); ((-80562173809869717), (-24)); ((-33060408839805517), (-24)); (99999999999999623, (-17)); (99999999999978206, (-17)); ((-6055507976348009), (-22)); ((-26313908434695097), (-23)); (60555079763567281, (-23)); (99999999999981659, (-17)); (32341666911436291, (-28)); (26313908434494429, (-23)); ((-33935076970692535), (-28)); (99999999999996536, (-17)); (99999999999975464, (-17)); ((-67633358637728992), (-23)); ((-18257693289696657), (-23)); (67633359241396912, (-23)); (99999999999977063, (-17)); (33063697493393645, (-24)); (18257691053483566, (-23)); ((-3306382097322195), (-23)); (99999999999998279, (-17))];
  [(24515450201006243, (-10)); (60461008006437178, (-17)); (99999999999999423, (-17)); ((-7078279744199198), (-23)); (80562171469761338, (-24)); (70782794778573375, (-24)); (99999999999999689, (-17)); (33060414542221364, (-24)); ((-80562173809869717), (-24)); ((-33060408839805517), (-24)); (99999999999999623, (-17)); (99999999999991307, (-17)); ((-38244419819701077), (-23)); ((-16618922316383845), (-23)); (38244419819735863, (-23)); (99999999999992684, (-17)); (20612189541015017, (-28)); (16618922316303801, (-23)); ((-21247448245276246), (-28)); (99999999999998623, (-17)); (99999999999989364, (-17)); ((-4532269901447118), (-22)); ((-85627064337847214), (-24)); (45322699297575854, (-23)); (99999999999989664, (-17)); (33062506571708121, (-24)); (85627049353018049, (-24)); ((-33062545347967706), (-24)); (99999999999999589, (-17))];
  [(24515454385756296, (-10)); (46338710549189599, (-17)); (99999999999999423, (-17)); ((-7078279744199198), (-23)); (80562171469761338, (-24)); (70782794778573375, (-24)); (99999999999999689, (-17)); (33060414542221364, (-24)); ((-80562173809869717), (-24)); ((-33060408839805517), (-24)); (99999999999999623, (-17)); (9999999999998187, (-16)); ((-55217625280388511), (-23)); ((-2399454419139025), (-22)); (55217625280461006, (-23)); (99999999999984746, (-17)); (29554947866345896, (-28)); (23994544191223395, (-23)); ((-30880298318436417), (-28)); (99999999999997113, (-17)); (99999999999979317, (-17)); ((-62295904231316818), (-23)); ((-15938328869933068), (-23)); (62295904758293135, (-23)); (99999999999980527, (-17)); (33063414521520915, (-24)); (1593832681021466, (-22)); ((-33063513853646022), (-24)); (99999999999998668, (-17))];
  [(24515457300488031, (-10)); (73439819019112984, (-17)); (99999999999999423, (-17)); ((-7078279744199198), (-23)); (80562171469761338, (-24)); (70782794778573375, (-24)); (99999999999999689, (-17)); (33060414542221364, (-24)); ((-80562173809869717), (-24)); ((-33060408839805517), (-24)); (99999999999999623, (-17)); (99999999999952227, (-17)); ((-89652579370711865), (-23)); ((-38958081764216291), (-23)); (89652579370902998, (-23)); (9999999999995981, (-16)); (4731570449147628, (-27)); (38958081763776432, (-23)); ((-50808801610457976), (-28)); (99999999999992406, (-17)); (99999999999948441, (-17)); ((-96730857826937281), (-23)); ((-30901867581195298), (-23)); (96730858848718864, (-23)); (99999999999953149, (-17)); (33065218338721946, (-24)); (30901864382753891, (-23)); ((-33065517295584159), (-24)); (99999999999995171, (-17))];
  [(24515451001296421, (-10)); (45550495370280475, (-17)); (99999999999999423, (-17)); ((-7078279744199198), (-23)); (80562171469761338, (-24)); (70782794778573375, (-24)); (99999999999999689, (-17)); (33060414542221364, (-24)); ((-80562173809869717), (-24)); ((-33060408839805517), (-24)); (99999999999999623, (-17)); (99999999999993117, (-17)); ((-34015621288363554), (-23)); ((-14781318972838806), (-23)); (34015621288391066, (-23)); (99999999999994194, (-17)); (18363684105781978, (-28)); (14781318972775485, (-23)); ((-18866574968967598), (-28)); (99999999999998901, (-17)); (99999999999991318, (-17)); ((-41093900543885713), (-23)); ((-67251029504337125), (-24)); (41093900766233, (-20)); (99999999999991473, (-17)); (33062278314353175, (-24)); (67251015917751635, (-24)); ((-33062305959933118), (-24)); (99999999999999711, (-17))];
  [(24515456237156279, (-10)); (35169203240037838, (-17)); (99999999999999423, (-17)); ((-7078279744199198), (-23)); (80562171469761338, (-24)); (70782794778573375, (-24)); (99999999999999689, (-17)); (33060414542221364, (-24)); ((-80562173809869717), (-24)); ((-33060408839805517), (-24)); (99999999999999623, (-17)); (99999999999978806, (-17)); ((-59713880209128305), (-23)); ((-25948369361339981), (-23)); (59713880209213093, (-23)); (99999999999982181, (-17)); (31904138453534593, (-28)); (25948369361144846, (-23)); ((-33452685066492904), (-28)); (99999999999996647, (-17)); (99999999999976086, (-17)); ((-66792159095462113), (-23)); ((-17892154188531089), (-23)); (66792159687043115, (-23)); (9999999999997764, (-16)); (33063653062859396, (-24)); (17892151980134316, (-23)); ((-33063772475292776), (-24)); (99999999999998357, (-17))];
  [(24515452772675883, (-10)); (26412938172838407, (-19)); (99999999999999423, (-17)); ((-7078279744199198), (-23)); (80562171469761338, (-24)); (70782794778573375, (-24)); (99999999999999689, (-17)); (33060414542221364, (-24)); ((-80562173809869717), (-24)); ((-33060408839805517), (-24)); (99999999999999623, (-17)); (99999999999998257, (-17)); ((-17135856154946494), (-23)); ((-74463010549689978), (-24)); (17135856154953477, (-23)); (99999999999998523, (-17)); (93133977867969944, (-29)); (74463010549529294, (-24)); ((-94418917129246438), (-29)); (99999999999999711, (-17)); (99999999999997069, (-17)); ((-24214135652967757), (-23)); (60991552548851579, (-25)); (2421413563280311, (-22)); (99999999999997002, (-17)); (33061359687017372, (-24)); ((-60991632604074447), (-25)); ((-33061358299676911), (-24)); (99999999999999933, (-17))];
  [(24515455397879896, (-10)); (57770645041490543, (-19)); (99999999999999423, (-17)); ((-7078279744199198), (-23)); (80562171469761338, (-24)); (70782794778573375, (-24)); (99999999999999689, (-17)); (33060414542221364, (-24)); ((-80562173809869717), (-24)); ((-33060408839805517), (-24)); (99999999999999623, (-17)); (99999999999993361, (-17)); ((-33399169900087283), (-23)); ((-14513443091521524), (-23)); (33399169900113805, (-23)); (99999999999994416, (-17)); (18035016772275064, (-28)); (14513443091460479, (-23)); ((-18519630273772236), (-28)); (99999999999998934, (-17)); (99999999999991585, (-17)); ((-40477449164465542), (-23)); ((-64572270487362711), (-24)); (40477449377956025, (-23)); (9999999999999174, (-16)); (33062244950993272, (-24)); (64572257104604013, (-24)); ((-33062271075853566), (-24)); (99999999999999722, (-17))];
  [(24515450457087653, (-10)); (40131286830728863, (-17)); (99999999999999423, (-17)); ((-7078279744199198), (-23)); (80562171469761338, (-24)); (70782794778573375, (-24)); (99999999999999689, (-17)); (33060414542221364, (-24)); ((-80562173809869717), (-24)); ((-33060408839805517), (-24)); (99999999999999623, (-17)); (99999999999995548, (-17)); ((-27366399964981936), (-23)); ((-11891932950798785), (-23)); (2736639996499975, (-22)); (99999999999996247, (-17)); (1481278508454664, (-27)); (11891932950757802, (-23)); ((-15139001163788635), (-28)); (99999999999999301, (-17)); (99999999999993994, (-17)); ((-34444679316028569), (-23)); ((-38357167085674922), (-24)); (34444679442844732, (-23)); (99999999999994005, (-17)); (33061917867694647, (-24)); (3835715569760102, (-23)); ((-33061931157364477), (-24)); (99999999999999878, (-17))];
  [(24515453867490334, (-10)); (24483621533192457, (-17)); (99999999999999423, (-17)); ((-7078279744199198), (-23)); (80562171469761338, (-24)); (70782794778573375, (-24)); (99999999999999689, (-17)); (33060414542221364, (-24)); ((-80562173809869717), (-24)); ((-33060408839805517), (-24)); (99999999999999623, (-17)); (99999999999991107, (-17)); ((-38665275358893244), (-23)); ((-1680180299499945), (-22)); (38665275358928799, (-23)); (99999999999992517, (-17)); (20834821438588847, (-28)); (16801802994917637, (-23)); ((-21485035972546029), (-28)); (99999999999998579, (-17)); (99999999999989142, (-17)); ((-45743554547617216), (-23)); ((-87455871263140004), (-24)); (45743554836768599, (-23)); (99999999999989464, (-17)); (33062529173948183, (-24)); (87455856139154761, (-24)); ((-33062569236188481), (-24)); (99999999999999556, (-17))];
  [(24515455545849507, (-10)); (32131387034127035, (-17)); (99999999999999423, (-17)); ((-7078279744199198), (-23)); (80562171469761338, (-24)); (70782794778573375, (-24)); (99999999999999689, (-17)); (33060414542221364, (-24)); ((-80562173809869717), (-24)); ((-33060408839805517), (-24)); (99999999999999623, (-17)); (99999999999982914, (-17)); ((-53622007860921896), (-23)); ((-2330117659334398), (-22)); (53622007860990283, (-23)); (99999999999985612, (-17)); (28719887487737676, (-28)); (23301176593186628, (-23)); ((-29968805215219163), (-28)); (9999999999999728, (-16)); (99999999999980416, (-17)); ((-60700286834773286), (-23)); ((-15244961219134944), (-23)); (60700287338823164, (-23)); (99999999999981504, (-17)); (33063329730019295, (-24)); (15244959212178528, (-23)); ((-33063422213550769), (-24)); (99999999999998779, (-17))];
  [(24515458405090179, (-10)); (93545195694357197, (-17)); (99999999999999423, (-17)); ((-7078279744199198), (-23)); (80562171469761338, (-24)); (70782794778573375, (-24)); (99999999999999689, (-17)); (33060414542221364, (-24)); ((-80562173809869717), (-24)); ((-33060408839805517), (-24)); (99999999999999623, (-17)); (99999999999929734, (-17)); ((-10872328148070288), (-22)); ((-47245160158258075), (-23)); (10872328148098399, (-22)); (99999999999940892, (-17)); (56929556299092639, (-28)); (47245160157611185, (-23)); ((-62066463080157064), (-28)); (99999999999988842, (-17)); (99999999999925271, (-17)); ((-11580155966295244), (-22)); ((-39188946605724176), (-23)); (11580156095879065, (-22)); (99999999999932887, (-17)); (33066195087668187, (-24)); (39188942776580904, (-23)); ((-33066648927555864), (-24)); (99999999999992273, (-17))];
  [(24515459699199726, (-10)); (35181643519771943, (-17)); (99999999999999423, (-17)); ((-7078279744199198), (-23)); (80562171469761338, (-24)); (70782794778573375, (-24)); (99999999999999689, (-17)); (33060414542221364, (-24)); ((-80562173809869717), (-24)); ((-33060408839805517), (-24)); (99999999999999623, (-17)); (99999999999961087, (-17)); ((-80915921576526831), (-23)); ((-35161610711967732), (-23)); (80915921576682527, (-23)); (9999999999996726, (-16)); (4285778767972566, (-27)); (35161610711609426, (-23)); ((-45703441031719194), (-28)); (99999999999993816, (-17)); (99999999999957612, (-17)); ((-87994200158265791), (-23)); ((-27105396240108514), (-23)); (87994201054502554, (-23)); (9999999999996122, (-16)); (33064765508601998, (-24)); (271053933305904, (-21)); ((-33065004072278334), (-24)); (9999999999999627, (-16))];
  [(24515459244028442, (-10)); (81311118540389971, (-18)); (99999999999999423, (-17)); ((-7078279744199198), (-23)); (80562171469761338, (-24)); (70782794778573375, (-24)); (99999999999999689, (-17)); (33060414542221364, (-24)); ((-80562173809869717), (-24)); ((-33060408839805517), (-24)); (99999999999999623, (-17)); (99999999999977474, (-17)); ((-61569214135154044), (-23)); ((-26754595470729387), (-23)); (6156921413524419, (-22)); (99999999999981048, (-17)); (32869701095156347, (-28)); (26754595470521938, (-23)); ((-34516833835596117), (-28)); (99999999999996425, (-17)); (99999999999974687, (-17)); ((-68647492994833599), (-23)); ((-18698380359258708), (-23)); (68647493613073344, (-23)); (99999999999976374, (-17)); (33063751113820477, (-24)); (1869837808951067, (-22)); ((-3306387946083901), (-23)); (99999999999998201, (-17))];
  [(2451545221945995, (-9)); (8289019196129912, (-16)); (99999999999999423, (-17)); ((-7078279744199198), (-23)); (80562171469761338, (-24)); (70782794778573375, (-24)); (99999999999999689, (-17)); (33060414542221364, (-24)); ((-80562173809869717), (-24)); ((-33060408839805517), (-24)); (99999999999999623, (-17)); (99999999999975409, (-17)); ((-64332288008288729), (-23)); ((-27955275448102511), (-23)); (64332288008387144, (-23)); (99999999999979317, (-17)); (34306675555945009, (-28)); (27955275447876025, (-23)); ((-36104452760810091), (-28)); (99999999999996092, (-17)); (99999999999972533, (-17)); ((-71410566828273154), (-23)); ((-19899060427980363), (-23)); (71410567486215017, (-23)); (99999999999974454, (-17)); (330638970372583, (-22)); (19899058066863656, (-23)); ((-33064039072606301), (-24)); (99999999999997968, (-17))];
  [(24515459386830316, (-10)); (97889744984150939, (-17)); (99999999999999423, (-17)); ((-7078279744199198), (-23)); (80562171469761338, (-24)); (70782794778573375, (-24)); (99999999999999689, (-17)); (33060414542221364, (-24)); ((-80562173809869717), (-24)); ((-33060408839805517), (-24)); (99999999999999623, (-17)); (99999999999918077, (-17)); ((-11739314412836494), (-22)); ((-51012605664601399), (-23)); (11739314412869266, (-22)); (99999999999931077, (-17)); (61248607596787396, (-28)); (51012605663847222, (-23)); ((-6723732681734873), (-27)); (99999999999986988, (-17)); (99999999999913303, (-17)); ((-12447142218606038), (-22)); ((-42956392398697685), (-23)); (1244714236064951, (-21)); (99999999999922462, (-17)); (33066633977424325, (-24)); (4295638828281341, (-22)); ((-33067168680632287), (-24)); (99999999999990719, (-17))];
  [(24515451834930088, (-10)); (23920145638317991, (-17)); (99999999999999423, (-17)); ((-7078279744199198), (-23)); (80562171469761338, (-24)); (70782794778573375, (-24)); (99999999999999689, (-17)); (33060414542221364, (-24)); ((-80562173809869717), (-24)); ((-33060408839805517), (-24)); (99999999999999623, (-17)); (99999999999996014, (-17)); ((-25877105103728828), (-23)); ((-11244767282279729), (-23)); (25877105103744757, (-23)); (99999999999996647, (-17)); (14016121226423464, (-28)); (11244767282243084, (-23)); ((-14306333895319767), (-28)); (99999999999999367, (-17)); (99999999999994515, (-17)); ((-32955384476171058), (-23)); ((-31885509908116957), (-24)); (32955384581590418, (-23)); (99999999999994504, (-17)); (33061837001500677, (-24)); (3188549901245973, (-23)); ((-33061847432555688), (-24)); (999999999999999, (-15))];
  [(24515459511998002, (-10)); (10229448331036417, (-17)); (99999999999999423, (-17)); ((-7078279744199198), (-23)); (80562171469761338, (-24)); (70782794778573375, (-24)); (99999999999999689, (-17)); (33060414542221364, (-24)); ((-80562173809869717), (-24)); ((-33060408839805517), (-24)); (99999999999999623, (-17)); (99999999999975275, (-17)); ((-64494297151509416), (-23)); ((-28025675713609907), (-23)); (64494297151608339, (-23)); (99999999999979206, (-17)); (34389963033386577, (-28)); (28025675713382283, (-23)); ((-36198266606390916), (-28)); (9999999999999607, (-16)); (99999999999972389, (-17)); ((-71572575969166364), (-23)); ((-19969460698843858), (-23)); (71572576629436127, (-23)); (99999999999974332, (-17)); (33063905496524087, (-24)); (19969458332369842, (-23)); ((-33064048503822132), (-24)); (99999999999997946, (-17))];
  [(24515453902787543, (-10)); (30668013646600389, (-17)); (99999999999999423, (-17)); ((-7078279744199198), (-23)); (80562171469761338, (-24)); (70782794778573375, (-24)); (99999999999999689, (-17)); (33060414542221364, (-24)); ((-80562173809869717), (-24)); ((-33060408839805517), (-24)); (99999999999999623, (-17)); (99999999999989186, (-17)); ((-42667411083047634), (-23)); ((-18540911140762354), (-23)); (42667411083090917, (-23)); (99999999999990896, (-17)); (22954005707545198, (-28)); (18540911140662729, (-23)); ((-23744894939170536), (-28)); (99999999999998268, (-17)); (99999999999987088, (-17)); ((-49745690214275834), (-23)); ((-1048469540438932), (-22)); (49745690560928864, (-23)); (99999999999987566, (-17)); (33062744316581986, (-24)); (10484693759658982, (-23)); ((-33062796453074434), (-24)); (99999999999999389, (-17))];
  [(24515450490594413, (-10)); (19413242158385025, (-18)); (99999999999999423, (-17)); ((-7078279744199198), (-23)); (80562171469761338, (-24)); (70782794778573375, (-24)); (99999999999999689, (-17)); (33060414542221364, (-24)); ((-80562173809869717), (-24)); ((-33060408839805517), (-24)); (99999999999999623, (-17)); (999999999999999, (-15)); ((-41918571628341638), (-24)); ((-18215506844144258), (-24)); (41918571628345814, (-24)); (99999999999999911, (-17)); (2289852458677099, (-28)); (18215506844134646, (-24)); ((-22976065494617615), (-29)); (99999999999999989, (-17)); (99999999999999167, (-17)); ((-11270136846812132), (-23)); (62346663239771725, (-24)); (11270136640690043, (-23)); (99999999999999301, (-17)); (33060646904518361, (-24)); ((-62346666965751419), (-24)); ((-33060639889804989), (-24)); (99999999999999756, (-17))];
  [(24515455030206335, (-10)); (43730647613221207, (-17)); (99999999999999423, (-17)); ((-7078279744199198), (-23)); (80562171469761338, (-24)); (70782794778573375, (-24)); (99999999999999689, (-17)); (33060414542221364, (-24)); ((-80562173809869717), (-24)); ((-33060408839805517), (-24)); (99999999999999623, (-17)); (99999999999980305, (-17)); ((-57566269619827532), (-23)); ((-25015135883955788), (-23)); (57566269619906338, (-23)); (99999999999983435, (-17)); (30783117891936905, (-28)); (25015135883774444, (-23)); ((-32223113066720543), (-28)); (99999999999996869, (-17)); (99999999999977673, (-17)); ((-64644548537014535), (-23)); ((-16958920640145884), (-23)); (64644549097737376, (-23)); (9999999999997905, (-16)); (33063539230641923, (-24)); (16958918502764777, (-23)); ((-33063648857524116), (-24)); (99999999999998512, (-17))];
  [(24515450330338352, (-10)); (79047098946208638, (-17)); (99999999999999423, (-17)); ((-7078279744199198), (-23)); (80562171469761338, (-24)); (70782794778573375, (-24)); (99999999999999689, (-17)); (33060414542221364, (-24)); ((-80562173809869717), (-24)); ((-33060408839805517), (-24)); (99999999999999623, (-17)); (9999999999998489, (-16)); ((-50414478367588486), (-23)); ((-21907360634840492), (-23)); (50414478367648922, (-23)); (99999999999987288, (-17)); (27037012719666841, (-28)); (21907360634701404, (-23)); ((-28141378116686155), (-28)); (99999999999997591, (-17)); (99999999999982514, (-17)); ((-57492757387520152), (-23)); ((-13851145154589046), (-23)); (57492757845483295, (-23)); (99999999999983413, (-17)); (33063158858487639, (-24)); (13851143253694583, (-23)); ((-33063238484259092), (-24)); (99999999999998979, (-17))];
  [(2451545555500811, (-9)); (66829343398422136, (-17)); (99999999999999423, (-17)); ((-7078279744199198), (-23)); (80562171469761338, (-24)); (70782794778573375, (-24)); (99999999999999689, (-17)); (33060414542221364, (-24)); ((-80562173809869717), (-24)); ((-33060408839805517), (-24)); (99999999999999623, (-17)); (99999999999966638, (-17)); ((-74919960202751089), (-23)); ((-32556095605443387), (-23)); (74919960202884581, (-23)); (99999999999971945, (-17)); (39780430688737558, (-28)); (32556095605136221, (-23)); ((-42219561180445453), (-28)); (99999999999994704, (-17)); (99999999999963374, (-17)); ((-81998238870629858), (-23)); ((-24499880935354764), (-23)); (81998239680707446, (-23)); (99999999999966327, (-17)); (33064452942427766, (-24)); (24499878224119603, (-23)); ((-33064653840037015), (-24)); (99999999999996947, (-17))];
  [(24515455116406106, (-10)); (63394221668030715, (-17)); (99999999999999423, (-17)); ((-7078279744199198), (-23)); (80562171469761338, (-24)); (70782794778573375, (-24)); (99999999999999689, (-17)); (33060414542221364, (-24)); ((-80562173809869717), (-24)); ((-33060408839805517), (-24)); (99999999999999623, (-17)); (99999999999970757, (-17)); ((-7013190340633483), (-22)); ((-30475469402688219), (-23)); (70131903406451794, (-23)); (99999999999975397, (-17)); (37311159287260795, (-28)); (30475469402419053, (-23)); ((-39448999622493375), (-28)); (99999999999995359, (-17)); (9999999999996767, (-16)); ((-77210182143000255), (-23)); ((-22419254574304125), (-23)); (77210182884276925, (-23)); (99999999999970124, (-17)); (33064202157926238, (-24)); (22419252021404354, (-23)); ((-33064375311156006), (-24)); (99999999999997435, (-17))];
  [(24515451703900211, (-10)); (75136336827552141, (-17)); (99999999999999423, (-17)); ((-7078279744199198), (-23)); (80562171469761338, (-24)); (70782794778573375, (-24)); (99999999999999689, (-17)); (33060414542221364, (-24)); ((-80562173809869717), (-24)); ((-33060408839805517), (-24)); (99999999999999623, (-17)); (99999999999981082, (-17)); ((-56429197438629207), (-23)); ((-24521026834677045), (-23)); (56429197438704942, (-23)); (99999999999984091, (-17)); (30189019700853059, (-28)); (24521026834502789, (-23)); ((-31572522374290202), (-28)); (99999999999997002, (-17)); (99999999999978484, (-17)); ((-63507476372151717), (-23)); ((-16464811553275005), (-23)); (63507476916536499, (-23)); (99999999999979783, (-17)); (33063478904772989, (-24)); (16464809453493569, (-23)); ((-33063583448710708), (-24)); (99999999999998601, (-17))];
  [(24515454731741329, (-10)); (45989486769903476, (-17)); (99999999999999423, (-17)); ((-7078279744199198), (-23)); (80562171469761338, (-24)); (70782794778573375, (-24)); (99999999999999689, (-17)); (33060414542221364, (-24)); ((-80562173809869717), (-24)); ((-33060408839805517), (-24)); (99999999999999623, (-17)); (99999999999980604, (-17)); ((-57121932472888385), (-23)); ((-24822051391318854), (-23)); (57121932472965974, (-23)); (9999999999998368, (-16)); (30550475502191433, (-28)); (24822051391140289, (-23)); ((-3196831688256907), (-27)); (99999999999996914, (-17)); (99999999999977984, (-17)); ((-64200211396458862), (-23)); ((-16765836132818955), (-23)); (64200211950797213, (-23)); (99999999999979328, (-17)); (33063515608435371, (-24)); (16765834010130797, (-23)); ((-33063623241235109), (-24)); (99999999999998535, (-17))];
  [(24515452772797323, (-10)); (68937527635661888, (-17)); (99999999999999423, (-17)); ((-7078279744199198), (-23)); (80562171469761338, (-24)); (70782794778573375, (-24)); (99999999999999689, (-17)); (33060414542221364, (-24)); ((-80562173809869717), (-24)); ((-33060408839805517), (-24)); (99999999999999623, (-17)); (99999999999979183, (-17)); ((-59178048043245078), (-23)); ((-25715526164455562), (-23)); (59178048043328363, (-23)); (99999999999982492, (-17)); (31624854024453345, (-28)); (25715526164263915, (-23)); ((-33146818623208674), (-28)); (99999999999996692, (-17)); (99999999999976497, (-17)); ((-66256326937276816), (-23)); ((-17659310973931809), (-23)); (66256327521158649, (-23)); (99999999999977995, (-17)); (33063624702738552, (-24)); (17659308783253597, (-23)); ((-33063741723835543), (-24)); (9999999999999839, (-16))];
  [(24515451190304402, (-10)); (95361451978254697, (-17)); (99999999999999423, (-17)); ((-7078279744199198), (-23)); (80562171469761338, (-24)); (70782794778573375, (-24)); (99999999999999689, (-17)); (33060414542221364, (-24)); ((-80562173809869717), (-24)); ((-33060408839805517), (-24)); (99999999999999623, (-17)); (99999999999974365, (-17)); ((-65666690251608172), (-23)); ((-28535133290261378), (-23)); (65666690251710716, (-23)); (99999999999978439, (-17)); (34999072081253703, (-28)); (28535133290025394, (-23)); ((-36873837316875324), (-28)); (99999999999995925, (-17)); (99999999999971434, (-17)); ((-72744969052422176), (-23)); ((-20478918314255204), (-23)); (72744969729537953, (-23)); (99999999999973477, (-17)); (33063967351933961, (-24)); (20478915909012488, (-23)); ((-3306411642150145), (-23)); (99999999999997846, (-17))];
  [(24515453848856315, (-10)); (10439482933615629, (-18)); (99999999999999423, (-17)); ((-7078279744199198), (-23)); (80562171469761338, (-24)); (70782794778573375, (-24)); (99999999999999689, (-17)); (33060414542221364, (-24)); ((-80562173809869717), (-24)); ((-33060408839805517), (-24)); (99999999999999623, (-17)); (99999999999996514, (-17)); ((-24201569634306221), (-23)); ((-10516671684021009), (-23)); (24201569634320144, (-23)); (99999999999997069, (-17)); (13116202040279464, (-28)); (10516671683988957, (-23)); ((-13371526108585385), (-28)); (99999999999999445, (-17)); (99999999999995071, (-17)); ((-3127984903081963), (-22)); ((-2460455337159041), (-23)); (31279849112166572, (-23)); (99999999999995048, (-17)); (33061745659734451, (-24)); (2460454302992505, (-23)); ((-33061753436410604), (-24)); (99999999999999911, (-17))];
  [(24515455140543282, (-10)); (49767205957174576, (-17)); (99999999999999423, (-17)); ((-7078279744199198), (-23)); (80562171469761338, (-24)); (70782794778573375, (-24)); (99999999999999689, (-17)); (33060414542221364, (-24)); ((-80562173809869717), (-24)); ((-33060408839805517), (-24)); (99999999999999623, (-17)); (99999999999977196, (-17)); ((-61937291246213117), (-23)); ((-2691454154452751), (-22)); (61937291246304342, (-23)); (99999999999980826, (-17)); (33061814875909673, (-28)); (26914541544317573, (-23)); ((-34728886433299522), (-28)); (99999999999996392, (-17)); (99999999999974398, (-17)); ((-69015570100604761), (-23)); ((-18858326445225635), (-23)); (69015570724133326, (-23)); (9999999999997613, (-16)); (33063770621729393, (-24)); (18858324163306159, (-23)); ((-33063900779313079), (-24)); (99999999999998179, (-17))];
  [(24515450348106166, (-10)); (63573654000481239, (-17)); (99999999999999423, (-17)); ((-7078279744199198), (-23)); (80562171469761338, (-24)); (70782794778573375, (-24)); (99999999999999689, (-17)); (33060414542221364, (-24)); ((-80562173809869717), (-24)); ((-33060408839805517), (-24)); (99999999999999623, (-17)); (99999999999989975, (-17)); ((-41050500332385153), (-23)); ((-17838290627687166), (-23)); (41050500332425223, (-23)); (99999999999991562, (-17)); (22097889172173878, (-28)); (17838290627594948, (-23)); ((-22830071166879407), (-28)); (99999999999998412, (-17)); (99999999999987921, (-17)); ((-48128779486842332), (-23)); ((-9782074837858332), (-23)); (48128779810263927, (-23)); (99999999999988343, (-17)); (33062657402310252, (-24)); (9782073246591842, (-23)); ((-33062704473362802), (-24)); (99999999999999467, (-17))];
  [(24515454623772306, (-10)); (82298821699734659, (-17)); (99999999999999423, (-17)); ((-7078279744199198), (-23)); (80562171469761338, (-24)); (70782794778573375, (-24)); (99999999999999689, (-17)); (33060414542221364, (-24)); ((-80562173809869717), (-24)); ((-33060408839805517), (-24)); (99999999999999623, (-17)); (99999999999963196, (-17)); ((-78689312872049628), (-23)); ((-34194049006823272), (-23)); (78689312872196884, (-23)); (99999999999969058, (-17)); (41717235307477961, (-28)); (34194049006484422, (-23)); ((-44407810761981636), (-28)); (9999999999999416, (-16)); (99999999999959799, (-17)); ((-85767591485776733), (-23)); ((-2613783446135128), (-22)); (8576759235001797, (-22)); (99999999999963174, (-17)); (33064649659561047, (-24)); (2613783162546629, (-22)); ((-33064873824384227), (-24)); (99999999999996536, (-17))];
  [(24515456124365018, (-10)); (12702602815296837, (-17)); (99999999999999423, (-17)); ((-7078279744199198), (-23)); (80562171469761338, (-24)); (70782794778573375, (-24)); (99999999999999689, (-17)); (33060414542221364, (-24)); ((-80562173809869717), (-24)); ((-33060408839805517), (-24)); (99999999999999623, (-17)); (99999999999987821, (-17)); ((-45269458750757833), (-23)); ((-19671617993199764), (-23)); (45269458750806564, (-23)); (99999999999989764, (-17)); (24328134196184053, (-28)); (19671617993087617, (-23)); ((-25218160892848118), (-28)); (99999999999998068, (-17)); (99999999999985623, (-17)); ((-52347737844604283), (-23)); ((-1161540234285161), (-22)); (52347738228643325, (-23)); (99999999999986244, (-17)); (3306288382569658, (-23)); (11615400612082837, (-23)); ((-33062944580015676), (-24)); (99999999999999278, (-17))];
  [(2451545140809705, (-9)); (76382336420110275, (-17)); (99999999999999423, (-17)); ((-7078279744199198), (-23)); (80562171469761338, (-24)); (70782794778573375, (-24)); (99999999999999689, (-17)); (33060414542221364, (-24)); ((-80562173809869717), (-24)); ((-33060408839805517), (-24)); (99999999999999623, (-17)); (9999999999998177, (-16)); ((-55381101557004739), (-23)); ((-2406558199269907), (-22)); (55381101557077668, (-23)); (99999999999984657, (-17)); (2964100812666884, (-27)); (24065581992531225, (-23)); ((-3097355705250493), (-27)); (99999999999997102, (-17)); (99999999999979217, (-17)); ((-62459380505584488), (-23)); ((-1600936667664649), (-22)); (62459381034909723, (-23)); (99999999999980427, (-17)); (33063423259246956, (-24)); (16009364611522426, (-23)); ((-33063523229801965), (-24)); (99999999999998668, (-17))];
  [(24515455399892763, (-10)); (95851724615577094, (-17)); (99999999999999423, (-17)); ((-7078279744199198), (-23)); (80562171469761338, (-24)); (70782794778573375, (-24)); (99999999999999689, (-17)); (33060414542221364, (-24)); ((-80562173809869717), (-24)); ((-33060408839805517), (-24)); (99999999999999623, (-17)); (99999999999949973, (-17)); ((-91737683639751408), (-23)); ((-39864153418280721), (-23)); (9173768363995152, (-22)); (99999999999957911, (-17)); (48374678178094247, (-28)); (39864153417820174, (-23)); ((-52031157160570274), (-28)); (99999999999992051, (-17)); (9999999999994611, (-16)); ((-98815962066021578), (-23)); ((-31807939304194319), (-23)); (9881596311776638, (-22)); (99999999999951106, (-17)); (3306532591589525, (-23)); (31807936036796785, (-23)); ((-33065640172481912), (-24)); (99999999999994882, (-17))];
  [(24515458792335377, (-10)); (21028328900594939, (-17)); (99999999999999423, (-17)); ((-7078279744199198), (-23)); (80562171469761338, (-24)); (70782794778573375, (-24)); (99999999999999689, (-17)); (33060414542221364, (-24)); ((-80562173809869717), (-24)); ((-33060408839805517), (-24)); (99999999999999623, (-17)); (99999999999973554, (-17)); ((-6669957596512578), (-22)); ((-28983968627363461), (-23)); (66699575965231564, (-23)); (99999999999977751, (-17)); (35534335509023641, (-28)); (28983968627119997, (-23)); ((-37467806635049783), (-28)); (99999999999995803, (-17)); (9999999999997059, (-16)); ((-73777854751101048), (-23)); ((-20927753685504978), (-23)); (73777855443058314, (-23)); (99999999999972722, (-17)); (33064021710391664, (-24)); (20927751246106672, (-23)); ((-33064176136131437), (-24)); (99999999999997757, (-17))];
  [(24515452108021015, (-10)); (21363927386659343, (-17)); (99999999999999423, (-17)); ((-7078279744199198), (-23)); (80562171469761338, (-24)); (70782794778573375, (-24)); (99999999999999689, (-17)); (33060414542221364, (-24)); ((-80562173809869717), (-24)); ((-33060408839805517), (-24)); (99999999999999623, (-17)); (99999999999995981, (-17)); ((-25984049911672144), (-23)); ((-11291239616234542), (-23)); (25984049911688201, (-23)); (99999999999996625, (-17)); (14072748114973833, (-28)); (11291239616197595, (-23)); ((-14366285938649526), (-28)); (99999999999999356, (-17)); (99999999999994471, (-17)); ((-33062329282577979), (-23)); ((-32350233283021521), (-24)); (33062329389533814, (-23)); (99999999999994471, (-17)); (33061842750346589, (-24)); (32350222352004413, (-24)); ((-33061853460654439), (-24)); (99999999999999889, (-17))];
  [(24515453717998271, (-10)); (80021867553319681, (-17)); (99999999999999423, (-17)); ((-7078279744199198), (-23)); (80562171469761338, (-24)); (70782794778573375, (-24)); (99999999999999689, (-17)); (33060414542221364, (-24)); ((-80562173809869717), (-24)); ((-33060408839805517), (-24)); (99999999999999623, (-17)); (99999999999969402, (-17)); ((-7175027983493545), (-22)); ((-31178726809377613), (-23)); (71750279835057868, (-23)); (99999999999974254, (-17)); (38146275294730697, (-28)); (31178726809095885, (-23)); ((-40383252297715444), (-28)); (99999999999995137, (-17)); (9999999999996626, (-16)); ((-78828558548350806), (-23)); ((-23122512034497822), (-23)); (78828559312882236, (-23)); (99999999999968869, (-17)); (33064286973325801, (-24)); (23122509428080543, (-23)); ((-33064469234208724), (-24)); (99999999999997269, (-17))];
  [(2451545747522335, (-9)); (88651555808666849, (-17)); (99999999999999423, (-17)); ((-7078279744199198), (-23)); (80562171469761338, (-24)); (70782794778573375, (-24)); (99999999999999689, (-17)); (33060414542221364, (-24)); ((-80562173809869717), (-24)); ((-33060408839805517), (-24)); (99999999999999623, (-17)); (99999999999940525, (-17)); ((-100034834159327), (-20)); ((-43469638759671308), (-23)); (10003483415956498, (-22)); (99999999999949962, (-17)); (52570127625592755, (-28)); (4346963875912368, (-22)); ((-569178038034579), (-26)); (99999999999990541, (-17)); (99999999999936362, (-17)); ((-10711311246639765), (-22)); ((-35413424919892888), (-23)); (10711311363737585, (-22)); (99999999999942568, (-17)); (33065752145202008, (-24)); (35413421378096935, (-23)); ((-33066131389209083), (-24)); (99999999999993661, (-17))];
  [(24515451849835548, (-10)); (23690011407642775, (-17)); (99999999999999423, (-17)); ((-7078279744199198), (-23)); (80562171469761338, (-24)); (70782794778573375, (-24)); (99999999999999689, (-17)); (33060414542221364, (-24)); ((-80562173809869717), (-24)); ((-33060408839805517), (-24)); (99999999999999623, (-17)); (99999999999996025, (-17)); ((-25827468628699133), (-23)); ((-11223197999129249), (-23)); (25827468628714999, (-23)); (99999999999996658, (-17)); (13988918210688588, (-28)); (11223197999092743, (-23)); ((-14278578319704138), (-28)); (99999999999999367, (-17)); (99999999999994515, (-17)); ((-3290574800185446), (-22)); ((-31669817060202128), (-24)); (32905748106560681, (-23)); (99999999999994515, (-17)); (33061834241210891, (-24)); (31669806180956522, (-24)); ((-33061844641730781), (-24)); (99999999999999889, (-17))];
  [(24515459113933151, (-10)); (84201641514991044, (-17)); (99999999999999423, (-17)); ((-7078279744199198), (-23)); (80562171469761338, (-24)); (70782794778573375, (-24)); (99999999999999689, (-17)); (33060414542221364, (-24)); ((-80562173809869717), (-24)); ((-33060408839805517), (-24)); (99999999999999623, (-17)); (9999999999993151, (-16)); ((-10734270758805532), (-22)); ((-46645238667980686), (-23)); (10734270758832932, (-22)); (99999999999942391, (-17)); (56239256118264445, (-28)); (46645238667350128, (-23)); ((-61246563376471386), (-28)); (9999999999998912, (-16)); (99999999999927092, (-17)); ((-11442098579013867), (-22)); ((-38589025069804306), (-23)); (11442098706613665, (-22)); (99999999999934486, (-17)); (33066124945430289, (-24)); (38589021286320413, (-23)); ((-33066566512944367), (-24)); (99999999999992495, (-17))];
  [(24515455095743006, (-10)); (11359052598276265, (-17)); (99999999999999423, (-17)); ((-7078279744199198), (-23)); (80562171469761338, (-24)); (70782794778573375, (-24)); (99999999999999689, (-17)); (33060414542221364, (-24)); ((-80562173809869717), (-24)); ((-33060408839805517), (-24)); (99999999999999623, (-17)); (99999999999991351, (-17)); ((-38149782096322326), (-23)); ((-16577797964998518), (-23)); (38149782096356944, (-23)); (99999999999992739, (-17)); (205611120938182, (-26)); (16577797964918873, (-23)); ((-21192492205557301), (-28)); (99999999999998623, (-17)); (99999999999989408, (-17)); ((-45228061292452018), (-23)); ((-85215820792706275), (-24)); (45228061574196982, (-23)); (9999999999998973, (-16)); (33062501387721211, (-24)); (85215805839169167, (-24)); ((-33062539823254772), (-24)); (99999999999999578, (-17))];
  [(24515450198871144, (-10)); (2365298885621252, (-16)); (99999999999999423, (-17)); ((-7078279744199198), (-23)); (80562171469761338, (-24)); (70782794778573375, (-24)); (99999999999999689, (-17)); (33060414542221364, (-24)); ((-80562173809869717), (-24)); ((-33060408839805517), (-24)); (99999999999999623, (-17)); (99999999999998546, (-17)); ((-15697697209429271), (-23)); ((-68213562411460975), (-24)); (15697697209435131, (-23)); (99999999999998779, (-17)); (85373049449764346, (-29)); (68213562411326112, (-24)); ((-86436413582191562), (-29)); (99999999999999778, (-17)); (99999999999997402, (-17)); ((-22775976728111491), (-23)); (12348603868575671, (-24)); (22775976687285416, (-23)); (99999999999997358, (-17)); (33061280919121199, (-24)); ((-12348611398605002), (-24)); ((-33061278032288039), (-24)); (99999999999999944, (-17))];
  [(24515450472987941, (-10)); (66797304768884136, (-17)); (99999999999999423, (-17)); ((-7078279744199198), (-23)); (80562171469761338, (-24)); (70782794778573375, (-24)); (99999999999999689, (-17)); (33060414542221364, (-24)); ((-80562173809869717), (-24)); ((-33060408839805517), (-24)); (99999999999999623, (-17)); (99999999999988598, (-17)); ((-43788519123765027), (-23)); ((-19028083055453032), (-23)); (43788519123810624, (-23)); (99999999999990408, (-17)); (23545850946856937, (-28)); (190280830553481, (-21)); ((-24379942509256125), (-28)); (99999999999998179, (-17)); (99999999999986455, (-17)); ((-50866798238887071), (-23)); ((-1097186735614434), (-22)); (50866798601648052, (-23)); (99999999999986999, (-17)); (33062804404294742, (-24)); (10971865674343908, (-23)); ((-33062860302665325), (-24)); (99999999999999334, (-17))];
  [(24515458501836085, (-10)); (66199990599724279, (-17)); (99999999999999423, (-17)); ((-7078279744199198), (-23)); (80562171469761338, (-24)); (70782794778573375, (-24)); (99999999999999689, (-17)); (33060414542221364, (-24)); ((-80562173809869717), (-24)); ((-33060408839805517), (-24)); (99999999999999623, (-17)); (99999999999949063, (-17)); ((-92574981016574914), (-23)); ((-40227996814467547), (-23)); (92574981016778731, (-23)); (99999999999957156, (-17)); (48798936806440636, (-28)); (4022799681399855, (-22)); ((-52522985960479218), (-28)); (99999999999991918, (-17)); (99999999999945177, (-17)); ((-996532594308162), (-21)); ((-32171782728062615), (-23)); (99653260494593189, (-23)); (99999999999950295, (-17)); (33065369016302791, (-24)); (32171779432974817, (-23)); ((-33065689612900391), (-24)); (99999999999994782, (-17))];
  [(24515458960555433, (-10)); (77517473783879998, (-17)); (99999999999999423, (-17)); ((-7078279744199198), (-23)); (80562171469761338, (-24)); (70782794778573375, (-24)); (99999999999999689, (-17)); (33060414542221364, (-24)); ((-80562173809869717), (-24)); ((-33060408839805517), (-24)); (99999999999999623, (-17)); (99999999999937783, (-17)); ((-10231173020779936), (-22)); ((-44459052569538873), (-23)); (10231173020804828, (-22)); (99999999999947664, (-17)); (53715780735252789, (-28)); (44459052568966025, (-23)); ((-58264504332328215), (-28)); (99999999999990119, (-17)); (99999999999933553, (-17)); ((-10939000848215937), (-22)); ((-36402838805035795), (-23)); (10939000968585803, (-22)); (99999999999940115, (-17)); (33065868544829105, (-24)); (36402835187938353, (-23)); ((-33066266759596607), (-24)); (99999999999993328, (-17))];
  [(24515451575526735, (-10)); (17116410590740805, (-17)); (99999999999999423, (-17)); ((-7078279744199198), (-23)); (80562171469761338, (-24)); (70782794778573375, (-24)); (99999999999999689, (-17)); (33060414542221364, (-24)); ((-80562173809869717), (-24)); ((-33060408839805517), (-24)); (99999999999999623, (-17)); (99999999999997591, (-17)); ((-20123846756648432), (-23)); ((-87447175020519891), (-24)); (20123846756658065, (-23)); (99999999999997979, (-17)); (10924997196727451, (-28)); (87447175020298259, (-24)); ((-1110112002322694), (-27)); (99999999999999623, (-17)); (99999999999996292, (-17)); ((-27202126211743465), (-23)); ((-68850102037873209), (-25)); (27202126234506338, (-23)); (99999999999996247, (-17)); (33061523254148297, (-24)); (68850012103497687, (-25)); ((-33061525141563392), (-24)); (99999999999999944, (-17))];
  [(24515459965073634, (-10)); (70550229685035781, (-17)); (99999999999999423, (-17)); ((-7078279744199198), (-23)); (80562171469761338, (-24)); (70782794778573375, (-24)); (99999999999999689, (-17)); (33060414542221364, (-24)); ((-80562173809869717), (-24)); ((-33060408839805517), (-24)); (99999999999999623, (-17)); (99999999999935463, (-17)); ((-1041960256324892), (-21)); ((-45277863737716756), (-23)); (10419602563274737, (-22)); (9999999999994571, (-16)); (5466152251363605, (-27)); (45277863737122626, (-23)); ((-59379723360564185), (-28)); (99999999999989753, (-17)); (99999999999931166, (-17)); ((-11127430387977882), (-22)); ((-37221650035509452), (-23)); (11127430511055623, (-22)); (99999999999938027, (-17)); (33065964637035614, (-24)); (37221646356094192, (-23)); ((-33066378861076761), (-24)); (99999999999993028, (-17))];
  [(2451545746218747, (-9)); (79974857500212937, (-17)); (99999999999999423, (-17)); ((-7078279744199198), (-23)); (80562171469761338, (-24)); (70782794778573375, (-24)); (99999999999999689, (-17)); (33060414542221364, (-24)); ((-80562173809869717), (-24)); ((-33060408839805517), (-24)); (99999999999999623, (-17)); (99999999999946765, (-17)); ((-9464320577250694), (-22)); ((-41126733559143077), (-23)); (94643205772719947, (-23)); (99999999999955214, (-17)); (49846817202373718, (-28)); (41126733558652894, (-23)); ((-53739235283956077), (-28)); (9999999999999154, (-16)); (99999999999942801, (-17)); ((-10172148415703544), (-22)); ((-33070519541114695), (-23)); (10172148525053342, (-22)); (99999999999948208, (-17)); (33065475470548515, (-24)); (3307051617762833, (-22)); ((-33065811873983626), (-24)); (99999999999994471, (-17))];
  [(24515450613225019, (-10)); (17526275740025354, (-17)); (99999999999999423, (-17)); ((-7078279744199198), (-23)); (80562171469761338, (-24)); (70782794778573375, (-24)); (99999999999999689, (-17)); (33060414542221364, (-24)); ((-80562173809869717), (-24)); ((-33060408839805517), (-24)); (99999999999999623, (-17)); (99999999999998745, (-17)); ((-14483609590792256), (-23)); ((-62937805071683616), (-24)); (14483609590797246, (-23)); (99999999999998945, (-17)); (78800164829153217, (-29)); (62937805071568829, (-24)); ((-7971401316808624), (-28)); (999999999999998, (-15)); (99999999999997657, (-17)); ((-21561889126916364), (-23)); (17624361609735581, (-24)); (21561889068648078, (-23)); (99999999999997613, (-17)); (33061214212179698, (-24)); ((-17624368738357506), (-24)); ((-3306121043485104), (-23)); (99999999999999933, (-17))];
  [(24515456831851667, (-10)); (42176123013671951, (-17)); (99999999999999423, (-17)); ((-7078279744199198), (-23)); (80562171469761338, (-24)); (70782794778573375, (-24)); (99999999999999689, (-17)); (33060414542221364, (-24)); ((-80562173809869717), (-24)); ((-33060408839805517), (-24)); (99999999999999623, (-17)); (999999999999728, (-15)); ((-67644165132876482), (-23)); ((-29394435140539595), (-23)); (67644165132985294, (-23)); (99999999999977107, (-17)); (36024070029873932, (-28)); (29394435140289186, (-23)); ((-3801181591711611), (-27)); (9999999999999567, (-16)); (99999999999969802, (-17)); ((-74722443905281499), (-23)); ((-21338220229909683), (-23)); (747224446108116, (-21)); (99999999999972011, (-17)); (33064071444825087, (-24)); (21338217759275491, (-23)); ((-33064230827599283), (-24)); (99999999999997657, (-17))];
  [(24515457496696962, (-10)); (36797362337051376, (-17)); (99999999999999423, (-17)); ((-7078279744199198), (-23)); (80562171469761338, (-24)); (70782794778573375, (-24)); (99999999999999689, (-17)); (33060414542221364, (-24)); ((-80562173809869717), (-24)); ((-33060408839805517), (-24)); (99999999999999623, (-17)); (99999999999972178, (-17)); ((-68421463244541109), (-23)); ((-29732206159263447), (-23)); (68421463244652441, (-23)); (99999999999976596, (-17)); (36426075917707171, (-28)); (29732206159007256, (-23)); ((-38460346019064673), (-28)); (99999999999995581, (-17)); (99999999999969158, (-17)); ((-75499742005779235), (-23)); ((-2167599127433138), (-22)); (75499742722478376, (-23)); (99999999999971445, (-17)); (3306411227162194, (-23)); (21675988777993248, (-23)); ((-33064275919693223), (-24)); (99999999999997602, (-17))];
  [(24515458352027452, (-10)); (33449644049585381, (-17)); (99999999999999423, (-17)); ((-7078279744199198), (-23)); (80562171469761338, (-24)); (70782794778573375, (-24)); (99999999999999689, (-17)); (33060414542221364, (-24)); ((-80562173809869717), (-24)); ((-33060408839805517), (-24)); (99999999999999623, (-17)); (99999999999969524, (-17)); ((-71608292620256477), (-23)); ((-31117026973307623), (-23)); (71608292620378418, (-23)); (99999999999974354, (-17)); (38072425226042156, (-28)); (31117026973027011, (-23)); ((-40301650905405495), (-28)); (99999999999995148, (-17)); (99999999999966382, (-17)); ((-78686571335711668), (-23)); ((-23060812193733665), (-23)); (7868657209820285, (-22)); (99999999999968969, (-17)); (33064279473930978, (-24)); (23060809592011722, (-23)); ((-33064461030396627), (-24)); (9999999999999728, (-16))];
  [(24515451238863287, (-10)); (64536483820227597, (-17)); (99999999999999423, (-17)); ((-7078279744199198), (-23)); (80562171469761338, (-24)); (70782794778573375, (-24)); (99999999999999689, (-17)); (33060414542221364, (-24)); ((-80562173809869717), (-24)); ((-33060408839805517), (-24)); (99999999999999623, (-17)); (99999999999986822, (-17)); ((-47093101497743427), (-23)); ((-20464072863991717), (-23)); (47093101497796166, (-23)); (99999999999988909, (-17)); (25289754799893356, (-28)); (2046407286387035, (-22)); ((-26253443863311077), (-28)); (99999999999997902, (-17)); (99999999999984557, (-17)); ((-54171380565390926), (-23)); ((-12407857273934027), (-23)); (54171380975632075, (-23)); (99999999999985267, (-17)); (33062981456922864, (-24)); (12407855482864847, (-23)); ((-33063048669234397), (-24)); (99999999999999167, (-17))];
  [(2451545978853655, (-9)); (97549543860396937, (-17)); (99999999999999423, (-17)); ((-7078279744199198), (-23)); (80562171469761338, (-24)); (70782794778573375, (-24)); (99999999999999689, (-17)); (33060414542221364, (-24)); ((-80562173809869717), (-24)); ((-33060408839805517), (-24)); (99999999999999623, (-17)); (99999999999914913, (-17)); ((-11964409688116448), (-22)); ((-51990745937037452), (-23)); (11964409688150488, (-22)); (99999999999928435, (-17)); (62363801988510286, (-28)); (51990745936254084, (-23)); ((-68584582457731358), (-28)); (99999999999986477, (-17)); (9999999999991005, (-16)); ((-12672237490652196), (-22)); ((-43934532745551411), (-23)); (1267223763593062, (-21)); (99999999999919653, (-17)); (33066747310279044, (-24)); (43934528555219361, (-23)); ((-33067304098551203), (-24)); (99999999999990286, (-17))];
  [(24515455037847725, (-10)); (15581158897315017, (-17)); (99999999999999423, (-17)); ((-7078279744199198), (-23)); (80562171469761338, (-24)); (70782794778573375, (-24)); (99999999999999689, (-17)); (33060414542221364, (-24)); ((-80562173809869717), (-24)); ((-33060408839805517), (-24)); (99999999999999623, (-17)); (99999999999990308, (-17)); ((-40380099123937209), (-23)); ((-17546971121584925), (-23)); (40380099123975987, (-23)); (9999999999999184, (-16)); (21744228862621185, (-28)); (17546971121495696, (-23)); ((-22452040226994541), (-28)); (99999999999998457, (-17)); (99999999999988287, (-17)); ((-47458378288025555), (-23)); ((-94907553095923224), (-24)); (47458378601814998, (-23)); (99999999999988676, (-17)); (33062621496189622, (-24)); (94907537404928554, (-24)); ((-33062666464064731), (-24)); (99999999999999489, (-17))];
  [(24515454792986452, (-10)); (49943713016150182, (-17)); (99999999999999423, (-17)); ((-7078279744199198), (-23)); (80562171469761338, (-24)); (70782794778573375, (-24)); (99999999999999689, (-17)); (33060414542221364, (-24)); ((-80562173809869717), (-24)); ((-33060408839805517), (-24)); (99999999999999623, (-17)); (9999999999997865, (-16)); ((-59917625442403545), (-23)); ((-26036905836897551), (-23)); (59917625442488916, (-23)); (99999999999982037, (-17)); (3201018898603769, (-27)); (26036905836701082, (-23)); ((-33570368707103171), (-28)); (99999999999996614, (-17)); (9999999999997593, (-16)); ((-66995904325810292), (-23)); ((-17980690670824572), (-23)); (66995904920318842, (-23)); (99999999999977485, (-17)); (33063663832054181, (-24)); (1798068845569047, (-22)); ((-3306378430632543), (-23)); (99999999999998335, (-17))];
  [(2451545634604617, (-9)); (11034440912418486, (-17)); (99999999999999423, (-17)); ((-7078279744199198), (-23)); (80562171469761338, (-24)); (70782794778573375, (-24)); (99999999999999689, (-17)); (33060414542221364, (-24)); ((-80562173809869717), (-24)); ((-33060408839805517), (-24)); (99999999999999623, (-17)); (99999999999987632, (-17)); ((-45605338806501371), (-23)); ((-19817572998206711), (-23)); (45605338806550822, (-23)); (99999999999989586, (-17)); (24505245115520035, (-28)); (19817572998092893, (-23)); ((-25409119253083645), (-28)); (99999999999998035, (-17)); (99999999999985423, (-17)); ((-52683617895522492), (-23)); ((-11761357358962905), (-23)); (52683618284387409, (-23)); (99999999999986044, (-17)); (33062901807380729, (-24)); (11761355617087981, (-23)); ((-33062963779162733), (-24)); (99999999999999256, (-17))];
  [(24515454863910759, (-10)); (88003155587216508, (-17)); (99999999999999423, (-17)); ((-7078279744199198), (-23)); (80562171469761338, (-24)); (70782794778573375, (-24)); (99999999999999689, (-17)); (33060414542221364, (-24)); ((-80562173809869717), (-24)); ((-33060408839805517), (-24)); (99999999999999623, (-17)); (999999999999584, (-15)); ((-83651585824164144), (-23)); ((-36350379962620162), (-23)); (83651585824330554, (-23)); (99999999999965006, (-17)); (44258226514969369, (-28)); (36350379962237218, (-23)); ((-47299386629617857), (-28)); (99999999999993394, (-17)); (99999999999954836, (-17)); ((-90729864366601706), (-23)); ((-28294165581203348), (-23)); (90729865302149268, (-23)); (99999999999958777, (-17)); (33064907756395305, (-24)); (28294162581217085, (-23)); ((-33065164508282116), (-24)); (99999999999995948, (-17))];
  [(24515459149095076, (-10)); (74338971424631661, (-17)); (99999999999999423, (-17)); ((-7078279744199198), (-23)); (80562171469761338, (-24)); (70782794778573375, (-24)); (99999999999999689, (-17)); (33060414542221364, (-24)); ((-80562173809869717), (-24)); ((-33060408839805517), (-24)); (99999999999999623, (-17)); (99999999999938738, (-17)); ((-10152009838760109), (-22)); ((-44115052914617434), (-23)); (10152009838784618, (-22)); (99999999999948463, (-17)); (5331705024210413, (-27)); (44115052914053422, (-23)); ((-57795990215936399), (-28)); (99999999999990263, (-17)); (9999999999993453, (-16)); ((-10859837667333394), (-22)); ((-36058839123942611), (-23)); (10859837786565633, (-22)); (99999999999940969, (-17)); (33065828034024272, (-24)); (36058835533026068, (-23)); ((-33066219664692443), (-24)); (99999999999993439, (-17))];
  [(2451545472486191, (-9)); (4545937615537905, (-16)); (99999999999999423, (-17)); ((-7078279744199198), (-23)); (80562171469761338, (-24)); (70782794778573375, (-24)); (99999999999999689, (-17)); (33060414542221364, (-24)); ((-80562173809869717), (-24)); ((-33060408839805517), (-24)); (99999999999999623, (-17)); (9999999999998086, (-16)); ((-56755286489641855), (-23)); ((-24662727206623886), (-23)); (56755286489718448, (-23)); (99999999999983902, (-17)); (30359475630324228, (-28)); (24662727206447608, (-23)); ((-31758484730914915), (-28)); (99999999999996947, (-17)); (99999999999978251, (-17)); ((-6383356541847967), (-22)); ((-16606511936002498), (-23)); (63833565967549857, (-23)); (99999999999979572, (-17)); (33063496213070293, (-24)); (16606509825438261, (-23)); ((-33063602145245838), (-24)); (99999999999998557, (-17))];
  [(24515454393971693, (-10)); (57478277248214282, (-17)); (99999999999999423, (-17)); ((-7078279744199198), (-23)); (80562171469761338, (-24)); (70782794778573375, (-24)); (99999999999999689, (-17)); (33060414542221364, (-24)); ((-80562173809869717), (-24)); ((-33060408839805517), (-24)); (99999999999999623, (-17)); (99999999999977085, (-17)); ((-62087496371655936), (-23)); ((-26979812433029475), (-23)); (62087496371747606, (-23)); (99999999999980727, (-17)); (33140104120764049, (-28)); (26979812432818521, (-23)); ((-34814928717707971), (-28)); (99999999999996358, (-17)); (99999999999974287, (-17)); ((-69165775223889689), (-23)); ((-18923597338693455), (-23)); (69165775849576516, (-23)); (99999999999976019, (-17)); (33063778571662357, (-24)); (18923595051807046, (-23)); ((-33063909429742065), (-24)); (99999999999998157, (-17))];
  [(24515451694396888, (-10)); (55633664166707719, (-17)); (99999999999999423, (-17)); ((-7078279744199198), (-23)); (80562171469761338, (-24)); (70782794778573375, (-24)); (99999999999999689, (-17)); (33060414542221364, (-24)); ((-80562173809869717), (-24)); ((-33060408839805517), (-24)); (99999999999999623, (-17)); (99999999999988265, (-17)); ((-44431597708412939), (-23)); ((-19307529651029628), (-23)); (44431597708459881, (-23)); (9999999999999013, (-16)); (23885080486001846, (-28)); (19307529650921597, (-23)); ((-24742985438308551), (-28)); (99999999999998135, (-17)); (999999999999861, (-15)); ((-51509876814296342), (-23)); ((-11251313972981404), (-23)); (51509877186297023, (-23)); (99999999999986677, (-17)); (33062838845326637, (-24)); (1125131226991715, (-22)); ((-33062896804758336), (-24)); (99999999999999312, (-17))];
  [(24515451051766146, (-10)); (83834473513811658, (-17)); (99999999999999423, (-17)); ((-7078279744199198), (-23)); (80562171469761338, (-24)); (70782794778573375, (-24)); (99999999999999689, (-17)); (33060414542221364, (-24)); ((-80562173809869717), (-24)); ((-33060408839805517), (-24)); (99999999999999623, (-17)); (99999999999980171, (-17)); ((-57761819113042561), (-23)); ((-25100110941605958), (-23)); (57761819113121907, (-23)); (99999999999983324, (-17)); (30885280832378667, (-28)); (25100110941423374, (-23)); ((-32334690480695372), (-28)); (99999999999996847, (-17)); (99999999999977529, (-17)); ((-64840098027420253), (-23)); ((-17043895704261011), (-23)); (6484009859095285, (-22)); (99999999999978928, (-17)); (33063549604474848, (-24)); (17043893560413628, (-23)); ((-33063660075413224), (-24)); (9999999999999849, (-16))];
  [(24515457325535906, (-10)); (36690247694762745, (-17)); (99999999999999423, (-17)); ((-7078279744199198), (-23)); (80562171469761338, (-24)); (70782794778573375, (-24)); (99999999999999689, (-17)); (33060414542221364, (-24)); ((-80562173809869717), (-24)); ((-33060408839805517), (-24)); (99999999999999623, (-17)); (99999999999973066, (-17)); ((-67308050415291059), (-23)); ((-29248378165882947), (-23)); (67308050415398791, (-23)); (9999999999997734, (-16)); (35849719917465584, (-28)); (2924837816563502, (-22)); ((-3781808199931902), (-27)); (99999999999995715, (-17)); (99999999999970079, (-17)); ((-74386329192524799), (-23)); ((-2119216324414092), (-22)); (74386329893225245, (-23)); (99999999999972267, (-17)); (33064053739032605, (-24)); (21192160784621457, (-23)); ((-33064211350824307), (-24)); (99999999999997691, (-17))];
  [(24515454783376418, (-10)); (25352389106803563, (-17)); (99999999999999423, (-17)); ((-7078279744199198), (-23)); (80562171469761338, (-24)); (70782794778573375, (-24)); (99999999999999689, (-17)); (33060414542221364, (-24)); ((-80562173809869717), (-24)); ((-33060408839805517), (-24)); (99999999999999623, (-17)); (99999999999988065, (-17)); ((-44804130203626846), (-23)); ((-19469411791082227), (-23)); (44804130203674587, (-23)); (99999999999989964, (-17)); (24082733235777878, (-28)); (19469411790972372, (-23)); ((-24955593147524269), (-28)); (99999999999998113, (-17)); (99999999999985878, (-17)); ((-51882409304158355), (-23)); ((-11413196125350097), (-23)); (51882409681511555, (-23)); (99999999999986477, (-17)); (33062858910721822, (-24)); (11413194409967778, (-23)); ((-33062918180113956), (-24)); (99999999999999301, (-17))];
  [(24515455521190846, (-10)); (34396543030214, (-14)); (99999999999999423, (-17)); ((-7078279744199198), (-23)); (80562171469761338, (-24)); (70782794778573375, (-24)); (99999999999999689, (-17)); (33060414542221364, (-24)); ((-80562173809869717), (-24)); ((-33060408839805517), (-24)); (99999999999999623, (-17)); (99999999999982114, (-17)); ((-54857764115126222), (-23)); ((-23838168315398406), (-23)); (54857764115197785, (-23)); (99999999999984956, (-17)); (29367280791951861, (-28)); (23838168315233719, (-23)); ((-30674907058880763), (-28)); (99999999999997158, (-17)); (99999999999979572, (-17)); ((-61936043071224394), (-23)); ((-15781952982044046), (-23)); (61936043593030073, (-23)); (9999999999998076, (-16)); (33063395464901577, (-24)); (15781950934225127, (-23)); ((-33063493203832859), (-24)); (99999999999998701, (-17))];
  [(24515450751234614, (-10)); (31315331043796468, (-18)); (99999999999999423, (-17)); ((-7078279744199198), (-23)); (80562171469761338, (-24)); (70782794778573375, (-24)); (99999999999999689, (-17)); (33060414542221364, (-24)); ((-80562173809869717), (-24)); ((-33060408839805517), (-24)); (99999999999999623, (-17)); (99999999999999745, (-17)); ((-65161198911762332), (-24)); ((-28315474931667581), (-24)); (6516119891177243, (-23)); (99999999999999789, (-17)); (3557196785979561, (-28)); (28315474931644344, (-24)); ((-35754732508053166), (-29)); (99999999999999956, (-17)); (99999999999998934, (-17)); ((-13594399541763274), (-23)); (52246694383837407, (-24)); (13594399369031662, (-23)); (99999999999999012, (-17)); (33060775511427567, (-24)); ((-52246698878250804), (-24)); ((-3306076839137911), (-23)); (99999999999999811, (-17))];
  [(24515457472368944, (-10)); (73125571704518633, (-17)); (99999999999999423, (-17)); ((-7078279744199198), (-23)); (80562171469761338, (-24)); (70782794778573375, (-24)); (99999999999999689, (-17)); (33060414542221364, (-24)); ((-80562173809869717), (-24)); ((-33060408839805517), (-24)); (99999999999999623, (-17)); (99999999999951306, (-17)); ((-90512443822777293), (-23)); ((-39331731570675686), (-23)); (90512443822972121, (-23)); (99999999999959033, (-17)); (47752176162704534, (-28)); (39331731570227357, (-23)); ((-51312287752125485), (-28)); (99999999999992251, (-17)); (99999999999947486, (-17)); ((-97590722266649633), (-23)); ((-31275517416082241), (-23)); (97590723300787564, (-23)); (99999999999952316, (-17)); (33065262678614279, (-24)); (3127551418920446, (-22)); ((-33065567908678057), (-24)); (99999999999995037, (-17))];
  [(24515453036660082, (-10)); (25934105156640774, (-17)); (99999999999999423, (-17)); ((-7078279744199198), (-23)); (80562171469761338, (-24)); (70782794778573375, (-24)); (99999999999999689, (-17)); (33060414542221364, (-24)); ((-80562173809869717), (-24)); ((-33060408839805517), (-24)); (99999999999999623, (-17)); (99999999999992939, (-17)); ((-34466959174193509), (-23)); ((-14977445603759168), (-23)); (34466959174221762, (-23)); (9999999999999406, (-16)); (18604078121099008, (-28)); (14977445603694156, (-23)); ((-19119705818582133), (-28)); (99999999999998879, (-17)); (99999999999991129, (-17)); ((-41545238423231625), (-23)); ((-69212295962755061), (-24)); (41545238652063489, (-23)); (99999999999991307, (-17)); (3306230271736226, (-23)); (69212282226936526, (-24)); ((-33062331411841989), (-24)); (99999999999999711, (-17))];
  [(2451545432836947, (-9)); (17785694718366785, (-17)); (99999999999999423, (-17)); ((-7078279744199198), (-23)); (80562171469761338, (-24)); (70782794778573375, (-24)); (99999999999999689, (-17)); (33060414542221364, (-24)); ((-80562173809869717), (-24)); ((-33060408839805517), (-24)); (99999999999999623, (-17)); (99999999999991696, (-17)); ((-37386318988588128), (-23)); ((-16246038873618502), (-23)); (37386318988621369, (-23)); (99999999999993017, (-17)); (2015582335349819, (-27)); (16246038873542012, (-23)); ((-20762835895027365), (-28)); (99999999999998679, (-17)); (99999999999989786, (-17)); ((-44464598195685938), (-23)); ((-81898229626501812), (-24)); (44464598466461756, (-23)); (99999999999990064, (-17)); (33062460243784814, (-24)); (81898214925403577, (-24)); ((-33062496622795369), (-24)); (99999999999999611, (-17))];
  [(24515455029248446, (-10)); (32052422789100266, (-17)); (99999999999999423, (-17)); ((-7078279744199198), (-23)); (80562171469761338, (-24)); (70782794778573375, (-24)); (99999999999999689, (-17)); (33060414542221364, (-24)); ((-80562173809869717), (-24)); ((-33060408839805517), (-24)); (99999999999999623, (-17)); (9999999999998489, (-16)); ((-50411065251803324), (-23)); ((-21905877482382197), (-23)); (5041106525186376, (-22)); (99999999999987288, (-17)); (27035347042986599, (-28)); (21905877482243128, (-23)); ((-28139712782149218), (-28)); (99999999999997602, (-17)); (99999999999982514, (-17)); ((-57489344271784023), (-23)); ((-13849662002017913), (-23)); (57489344729698134, (-23)); (99999999999983413, (-17)); (33063158689170286, (-24)); (13849660101236304, (-23)); ((-33063238316675827), (-24)); (9999999999999899, (-16))];
  [(24515454103515637, (-10)); (27063012351172644, (-17)); (99999999999999423, (-17)); ((-7078279744199198), (-23)); (80562171469761338, (-24)); (70782794778573375, (-24)); (99999999999999689, (-17)); (33060414542221364, (-24)); ((-80562173809869717), (-24)); ((-33060408839805517), (-24)); (99999999999999623, (-17)); (99999999999989675, (-17)); ((-41689296126739461), (-23)); ((-18115876158426474), (-23)); (41689296126780791, (-23)); (99999999999991318, (-17)); (2243655974357417, (-27)); (18115876158331365, (-23)); ((-23192003872907208), (-28)); (99999999999998357, (-17)); (99999999999987599, (-17)); ((-4876757527201952), (-22)); ((-10059660389716515), (-23)); (48767575604619204, (-23)); (99999999999988054, (-17)); (33062691783995082, (-24)); (10059658777328004, (-23)); ((-3306274086311619), (-23)); (99999999999999434, (-17))];
  [(24515454383522198, (-10)); (81845224152184548, (-17)); (99999999999999423, (-17)); ((-7078279744199198), (-23)); (80562171469761338, (-24)); (70782794778573375, (-24)); (99999999999999689, (-17)); (33060414542221364, (-24)); ((-80562173809869717), (-24)); ((-33060408839805517), (-24)); (99999999999999623, (-17)); (99999999999964806, (-17)); ((-76940826152939178), (-23)); ((-33434252824622917), (-23)); (76940826153079965, (-23)); (99999999999970401, (-17)); (4081990455784932, (-27)); (33434252824298953, (-23)); ((-43391956694449618), (-28)); (99999999999994416, (-17)); (99999999999961475, (-17)); ((-84019104791785575), (-23)); ((-25378038221345098), (-23)); (84019105630901877, (-23)); (99999999999964639, (-17)); (33064558517867656, (-24)); (25378035443281525, (-23)); ((-33064771701172565), (-24)); (99999999999996736, (-17))];
  [(24515452098403461, (-10)); (19859078505851424, (-17)); (99999999999999423, (-17)); ((-7078279744199198), (-23)); (80562171469761338, (-24)); (70782794778573375, (-24)); (99999999999999689, (-17)); (33060414542221364, (-24)); ((-80562173809869717), (-24)); ((-33060408839805517), (-24)); (99999999999999623, (-17)); (99999999999996281, (-17)); ((-25003912229094584), (-23)); ((-10865325664995725), (-23)); (25003912229109454, (-23)); (99999999999996869, (-17)); (13547562937319297, (-28)); (10865325664961511, (-23)); ((-13818945987509323), (-28)); (999999999999994, (-15)); (99999999999994815, (-17)); ((-3208219161408133), (-22)); ((-2809109344659553), (-23)); (32082191706955512, (-23)); (99999999999994793, (-17)); (33061789442208708, (-24)); (28091082839647432, (-24)); ((-33061798425185529), (-24)); (999999999999999, (-15))];
  [(24515452888060892, (-10)); (51633094673815805, (-17)); (99999999999999423, (-17)); ((-7078279744199198), (-23)); (80562171469761338, (-24)); (70782794778573375, (-24)); (99999999999999689, (-17)); (33060414542221364, (-24)); ((-80562173809869717), (-24)); ((-33060408839805517), (-24)); (99999999999999623, (-17)); (99999999999985556, (-17)); ((-49290013194463086), (-23)); ((-21418729896477255), (-23)); (49290013194520864, (-23)); (99999999999987854, (-17)); (26446262603333451, (-28)); (21418729896344302, (-23)); ((-27501889654502065), (-28)); (99999999999997702, (-17)); (99999999999983213, (-17)); ((-56368292230549153), (-23)); ((-13362514379050469), (-23)); (56368292672355757, (-23)); (99999999999984057, (-17)); (33063098877582628, (-24)); (13362512515337925, (-23)); ((-33063174189546405), (-24)); (99999999999999045, (-17))];
  [(24515455535558476, (-10)); (57371603758707113, (-17)); (99999999999999423, (-17)); ((-7078279744199198), (-23)); (80562171469761338, (-24)); (70782794778573375, (-24)); (99999999999999689, (-17)); (33060414542221364, (-24)); ((-80562173809869717), (-24)); ((-33060408839805517), (-24)); (99999999999999623, (-17)); (99999999999971689, (-17)); ((-69010918344859842), (-23)); ((-29988350933933604), (-23)); (6901091834497309, (-22)); (99999999999976175, (-17)); (36730912680455642, (-28)); (29988350933672978, (-23)); ((-38801184487624596), (-28)); (99999999999995492, (-17)); (99999999999968647, (-17)); ((-76089197097629682), (-23)); ((-21932136068489209), (-23)); (7608919782279875, (-22)); (99999999999970979, (-17)); (3306414323017591, (-23)); (21932133552658729, (-23)); ((-33064310184846488), (-24)); (99999999999997535, (-17))];
  [(24515457182870097, (-10)); (3087417464326887, (-16)); (99999999999999423, (-17)); ((-7078279744199198), (-23)); (80562171469761338, (-24)); (70782794778573375, (-24)); (99999999999999689, (-17)); (33060414542221364, (-24)); ((-80562173809869717), (-24)); ((-33060408839805517), (-24)); (99999999999999623, (-17)); (99999999999976497, (-17)); ((-62874093199874951), (-23)); ((-27321624163542864), (-23)); (62874093199968951, (-23)); (99999999999980216, (-17)); (33548208809273167, (-28)); (27321624163326531, (-23)); ((-3526678948873041), (-27)); (99999999999996259, (-17)); (99999999999973666, (-17)); ((-69952372040808226), (-23)); ((-19265409095212108), (-23)); (69952372677797501, (-23)); (99999999999975453, (-17)); (33063820015830529, (-24)); (19265406782314742, (-23)); ((-33063954857763044), (-24)); (99999999999998079, (-17))];
  [(24515456717674425, (-10)); (74234280220562288, (-17)); (99999999999999423, (-17)); ((-7078279744199198), (-23)); (80562171469761338, (-24)); (70782794778573375, (-24)); (99999999999999689, (-17)); (33060414542221364, (-24)); ((-80562173809869717), (-24)); ((-33060408839805517), (-24)); (99999999999999623, (-17)); (99999999999955447, (-17)); ((-86570993334061043), (-23)); ((-3761899392954259), (-22)); (8657099333423927, (-22)); (99999999999962519, (-17)); (45747529669597436, (-28)); (37618993929132451, (-23)); ((-49004689195442097), (-28)); (99999999999992928, (-17)); (99999999999951772, (-17)); ((-93649271834557494), (-23)); ((-2956277964464283), (-22)); (93649272812056597, (-23)); (9999999999995608, (-16)); (33065059038648023, (-24)); (29562776548111143, (-23)); ((-33065335936498999), (-24)); (99999999999995581, (-17))];
  [(24515451994412458, (-10)); (48442710609296502, (-17)); (99999999999999423, (-17)); ((-7078279744199198), (-23)); (80562171469761338, (-24)); (70782794778573375, (-24)); (99999999999999689, (-17)); (33060414542221364, (-24)); ((-80562173809869717), (-24)); ((-33060408839805517), (-24)); (99999999999999623, (-17)); (99999999999989586, (-17)); ((-41866016028929708), (-23)); ((-18192668911706948), (-23)); (41866016028971387, (-23)); (9999999999999124, (-16)); (22529833158335414, (-28)); (18192668911611032, (-23)); ((-23291368833611159), (-28)); (99999999999998335, (-17)); (9999999999998751, (-16)); ((-48944295171670971), (-23)); ((-10136453148839429), (-23)); (4894429550680971, (-22)); (99999999999987965, (-17)); (33062701253705919, (-24)); (10136451530607603, (-23)); ((-33062750853968317), (-24)); (99999999999999423, (-17))];
  [(24515457195157153, (-10)); (82668237005574619, (-17)); (99999999999999423, (-17)); ((-7078279744199198), (-23)); (80562171469761338, (-24)); (70782794778573375, (-24)); (99999999999999689, (-17)); (33060414542221364, (-24)); ((-80562173809869717), (-24)); ((-33060408839805517), (-24)); (99999999999999623, (-17)); (99999999999946743, (-17)); ((-9465733296675438), (-22)); ((-41132872460888079), (-23)); (94657332966967451, (-23)); (99999999999955203, (-17)); (49854591422380558, (-28)); (41132872460397742, (-23)); ((-53748672179665391), (-28)); (9999999999999154, (-16)); (99999999999942779, (-17)); ((-10173561135107993), (-22)); ((-3307665844332675), (-22)); (1017356124447809, (-21)); (99999999999948197, (-17)); (33065476259351686, (-24)); (33076655079373173, (-23)); ((-33065812822018482), (-24)); (99999999999994471, (-17))];
  [(24515453224255536, (-10)); (29788381133831043, (-17)); (99999999999999423, (-17)); ((-7078279744199198), (-23)); (80562171469761338, (-24)); (70782794778573375, (-24)); (99999999999999689, (-17)); (33060414542221364, (-24)); ((-80562173809869717), (-24)); ((-33060408839805517), (-24)); (99999999999999623, (-17)); (99999999999991429, (-17)); ((-37974972420385711), (-23)); ((-16501835290891829), (-23)); (37974972420420006, (-23)); (99999999999992795, (-17)); (20467840129177143, (-28)); (16501835290812912, (-23)); ((-21094792579390287), (-28)); (99999999999998646, (-17)); (99999999999989497, (-17)); ((-45053251619026765), (-23)); ((-84456193993846532), (-24)); (45053251898260123, (-23)); (99999999999989797, (-17)); (33062491919694295, (-24)); (84456179098110224, (-24)); ((-33062529999523655), (-24)); (999999999999996, (-15))];
  [(24515451590421945, (-10)); (47182763337725531, (-17)); (99999999999999423, (-17)); ((-7078279744199198), (-23)); (80562171469761338, (-24)); (70782794778573375, (-24)); (99999999999999689, (-17)); (33060414542221364, (-24)); ((-80562173809869717), (-24)); ((-33060408839805517), (-24)); (99999999999999623, (-17)); (99999999999991129, (-17)); ((-38621477719246148), (-23)); ((-16782770948813007), (-23)); (38621477719281618, (-23)); (99999999999992539, (-17)); (20810948278110549, (-28)); (16782770948731379, (-23)); ((-21459500842979651), (-28)); (9999999999999859, (-16)); (99999999999989175, (-17)); ((-45699756908599327), (-23)); ((-87265550786795872), (-24)); (45699757197121439, (-23)); (99999999999989497, (-17)); (33062526751347815, (-24)); (87265535677292352, (-24)); ((-33062566669204114), (-24)); (99999999999999567, (-17))];
  [(24515450075149261, (-10)); (45204225433673306, (-17)); (99999999999999423, (-17)); ((-7078279744199198), (-23)); (80562171469761338, (-24)); (70782794778573375, (-24)); (99999999999999689, (-17)); (33060414542221364, (-24)); ((-80562173809869717), (-24)); ((-33060408839805517), (-24)); (99999999999999623, (-17)); (99999999999995304, (-17)); ((-28133818733082819), (-23)); ((-12225410956232654), (-23)); (28133818733101639, (-23)); (99999999999996048, (-17)); (15224165061429921, (-28)); (12225410956189342, (-23)); ((-15567547251293945), (-28)); (99999999999999245, (-17)); (99999999999993727, (-17)); ((-35212098073104509), (-23)); ((-41691947393725643), (-24)); (35212098210946267, (-23)); (99999999999993749, (-17)); (33061959623941488, (-24)); (416919357519134, (-22)); ((-33061974248018268), (-24)); (99999999999999856, (-17))];
  [(24515458242897242, (-10)); (98249413780917549, (-17)); (99999999999999423, (-17)); ((-7078279744199198), (-23)); (80562171469761338, (-24)); (70782794778573375, (-24)); (99999999999999689, (-17)); (33060414542221364, (-24)); ((-80562173809869717), (-24)); ((-33060408839805517), (-24)); (99999999999999623, (-17)); (99999999999927269, (-17)); ((-11061024044833017), (-22)); ((-48065128753294489), (-23)); (1106102404486211, (-21)); (99999999999938816, (-17)); (57872547128211738, (-28)); (48065128752624952, (-23)); ((-63188898558053097), (-28)); (99999999999988443, (-17)); (9999999999992274, (-16)); ((-11768851860347107), (-22)); ((-40008915263144435), (-23)); (11768851992642685, (-22)); (99999999999930678, (-17)); (33066290906925528, (-24)); (40008911371593913, (-23)); ((-33066761751500231), (-24)); (9999999999999194, (-16))];
  [(2451545790183818, (-9)); (63593305571296554, (-17)); (99999999999999423, (-17)); ((-7078279744199198), (-23)); (80562171469761338, (-24)); (70782794778573375, (-24)); (99999999999999689, (-17)); (33060414542221364, (-24)); ((-80562173809869717), (-24)); ((-33060408839805517), (-24)); (99999999999999623, (-17)); (99999999999954692, (-17)); ((-87306032072567187), (-23)); ((-3793840134558537), (-22)); (87306032072748463, (-23)); (99999999999961886, (-17)); (46121801896977191, (-28)); (37938401345168238, (-23)); ((-4943379039445972), (-27)); (99999999999992806, (-17)); (99999999999950984, (-17)); ((-94384310562503837), (-23)); ((-29882187084986355), (-23)); (94384311550565441, (-23)); (99999999999955391, (-17)); (33065097058033721, (-24)); (29882183964146633, (-23)); ((-33065379072704362), (-24)); (99999999999995481, (-17))];
  [(24515457014002427, (-10)); (37580195500801938, (-18)); (99999999999999423, (-17)); ((-7078279744199198), (-23)); (80562171469761338, (-24)); (70782794778573375, (-24)); (99999999999999689, (-17)); (33060414542221364, (-24)); ((-80562173809869717), (-24)); ((-33060408839805517), (-24)); (99999999999999623, (-17)); (99999999999987832, (-17)); ((-45239945382969982), (-23)); ((-19658793106249944), (-23)); (4523994538301865, (-22)); (99999999999989764, (-17)); (2431314352952776, (-27)); (19658793106137942, (-23)); ((-25202062658991053), (-28)); (99999999999998068, (-17)); (99999999999985645, (-17)); ((-52318224477240447), (-23)); ((-11602577454926066), (-23)); (52318224860855411, (-23)); (99999999999986255, (-17)); (33062882302853313, (-24)); (11602575725133175, (-23)); ((-33062942961114479), (-24)); (99999999999999278, (-17))];
  [(24515450975810215, (-10)); (31436702537101502, (-17)); (99999999999999423, (-17)); ((-7078279744199198), (-23)); (80562171469761338, (-24)); (70782794778573375, (-24)); (99999999999999689, (-17)); (33060414542221364, (-24)); ((-80562173809869717), (-24)); ((-33060408839805517), (-24)); (99999999999999623, (-17)); (99999999999996214, (-17)); ((-25219215726740197), (-23)); ((-10958884728221211), (-23)); (25219215726755322, (-23)); (99999999999996825, (-17)); (1366248177122196, (-27)); (10958884728186407, (-23)); ((-13939405185681153), (-28)); (99999999999999412, (-17)); (99999999999994738, (-17)); ((-32297495108633839), (-23)); ((-29026684150030675), (-24)); (32297495204601279, (-23)); (99999999999994726, (-17)); (33061801107545253, (-24)); (29026673471895532, (-24)); ((-33061810537329069), (-24)); (99999999999999922, (-17))];
  [(24515450992729268, (-10)); (97389877026670113, (-17)); (99999999999999423, (-17)); ((-7078279744199198), (-23)); (80562171469761338, (-24)); (70782794778573375, (-24)); (99999999999999689, (-17)); (33060414542221364, (-24)); ((-80562173809869717), (-24)); ((-33060408839805517), (-24)); (99999999999999623, (-17)); (99999999999974343, (-17)); ((-65698936783375675), (-23)); ((-28549145859871131), (-23)); (65698936783478325, (-23)); (99999999999978406, (-17)); (35015174526740648, (-28)); (2854914585963492, (-22)); ((-36891045773757014), (-28)); (99999999999995925, (-17)); (99999999999971412, (-17)); ((-72777215583726427), (-23)); ((-20492930884931043), (-23)); (72777216261305541, (-23)); (99999999999973443, (-17)); (33063968988157001, (-24)); (20492928478621997, (-23)); ((-33064118152265629), (-24)); (99999999999997846, (-17))];
  [(24515459956464637, (-10)); (8655183937187434, (-16)); (99999999999999423, (-17)); ((-7078279744199198), (-23)); (80562171469761338, (-24)); (70782794778573375, (-24)); (99999999999999689, (-17)); (33060414542221364, (-24)); ((-80562173809869717), (-24)); ((-33060408839805517), (-24)); (99999999999999623, (-17)); (99999999999922839, (-17)); ((-11393941290477875), (-22)); ((-49511804015076566), (-23)); (11393941290508747, (-22)); (99999999999935107, (-17)); (59532518681896994, (-28)); (49511804014366127, (-23)); ((-65173422214570564), (-28)); (99999999999987743, (-17)); (99999999999918188, (-17)); ((-12101769101209165), (-22)); ((-41455590634990682), (-23)); (12101769238289161, (-22)); (99999999999926736, (-17)); (3306645958613329, (-23)); (41455586633333723, (-23)); ((-33066961227862873), (-24)); (99999999999991351, (-17))];
  [(24515456306939297, (-10)); (82603532841892191, (-17)); (99999999999999423, (-17)); ((-7078279744199198), (-23)); (80562171469761338, (-24)); (70782794778573375, (-24)); (99999999999999689, (-17)); (33060414542221364, (-24)); ((-80562173809869717), (-24)); ((-33060408839805517), (-24)); (99999999999999623, (-17)); (99999999999952716, (-17)); ((-89180104178635865), (-23)); ((-38752770027341662), (-23)); (89180104178824997, (-23)); (99999999999960232, (-17)); (47075257200746328, (-28)); (3875277002690643, (-22)); ((-50531245854301687), (-28)); (99999999999992495, (-17)); (99999999999948941, (-17)); ((-96258382641649022), (-23)); ((-30696555828700402), (-23)); (96258383656641085, (-23)); (99999999999953604, (-17)); (33065193913356736, (-24)); (30696552645884074, (-23)); ((-3306548939468318), (-23)); (99999999999995237, (-17))];
  [(24515453723566891, (-10)); (32285861512645153, (-17)); (99999999999999423, (-17)); ((-7078279744199198), (-23)); (80562171469761338, (-24)); (70782794778573375, (-24)); (99999999999999689, (-17)); (33060414542221364, (-24)); ((-80562173809869717), (-24)); ((-33060408839805517), (-24)); (99999999999999623, (-17)); (99999999999989231, (-17)); ((-42560669744435353), (-23)); ((-1849452722374947), (-22)); (42560669744478425, (-23)); (99999999999990941, (-17)); (22897375288419523, (-28)); (18494527223650343, (-23)); ((-23684942895840777), (-28)); (9999999999999829, (-16)); (99999999999987133, (-17)); ((-49638948877197027), (-23)); ((-10438311483847521), (-23)); (4963894922231643, (-22)); (99999999999987621, (-17)); (33062738567546947, (-24)); (10438309842646637, (-23)); ((-33062790425038283), (-24)); (999999999999994, (-15))];
  [(24515453820855073, (-10)); (32366170346088641, (-17)); (99999999999999423, (-17)); ((-7078279744199198), (-23)); (80562171469761338, (-24)); (70782794778573375, (-24)); (99999999999999689, (-17)); (33060414542221364, (-24)); ((-80562173809869717), (-24)); ((-33060408839805517), (-24)); (99999999999999623, (-17)); (99999999999988909, (-17)); ((-43205426837282799), (-23)); ((-1877470320686155), (-22)); (43205426837327189, (-23)); (99999999999990674, (-17)); (23238268736217988, (-28)); (18774703206759397, (-23)); ((-24049096047917828), (-28)); (99999999999998246, (-17)); (99999999999986788, (-17)); ((-50283705960781723), (-23)); ((-10718487488275559), (-23)); (50283706315164892, (-23)); (9999999999998731, (-16)); (33062773176321952, (-24)); (10718485825755436, (-23)); ((-33062827038669871), (-24)); (99999999999999378, (-17))];
  [(24515457210631394, (-10)); (19542936051013227, (-17)); (99999999999999423, (-17)); ((-7078279744199198), (-23)); (80562171469761338, (-24)); (70782794778573375, (-24)); (99999999999999689, (-17)); (33060414542221364, (-24)); ((-80562173809869717), (-24)); ((-33060408839805517), (-24)); (99999999999999623, (-17)); (99999999999981293, (-17)); ((-56107128895650417), (-23)); ((-24381073554437889), (-23)); (56107128895725284, (-23)); (99999999999984268, (-17)); (30020229765895918, (-28)); (24381073554265619, (-23)); ((-31388225352202426), (-28)); (99999999999997025, (-17)); (99999999999978706, (-17)); ((-63185407833799855), (-23)); ((-16324858262388114), (-23)); (63185408373557, (-20)); (99999999999979983, (-17)); (33063461766314136, (-24)); (16324856173256524, (-23)); ((-3306356491994566), (-23)); (99999999999998612, (-17))];
  [(2451545063704574, (-9)); (59220288740536531, (-17)); (99999999999999423, (-17)); ((-7078279744199198), (-23)); (80562171469761338, (-24)); (70782794778573375, (-24)); (99999999999999689, (-17)); (33060414542221364, (-24)); ((-80562173809869717), (-24)); ((-33060408839805517), (-24)); (99999999999999623, (-17)); (99999999999990408, (-17)); ((-40154266844880731), (-23)); ((-17448836829490519), (-23)); (4015426684491907, (-22)); (9999999999999194, (-16)); (21623751582119752, (-28)); (1744883682940228, (-22)); ((-2232491969067496), (-27)); (99999999999998479, (-17)); (99999999999988398, (-17)); ((-47232546012213447), (-23)); ((-93926210100318001), (-24)); (47232546322758182, (-23)); (99999999999988787, (-17)); (33062609266526217, (-24)); (9392619448399528, (-23)); ((-33062653682548911), (-24)); (99999999999999512, (-17))];
  [(24515456757318662, (-10)); (83609954315197599, (-17)); (99999999999999423, (-17)); ((-7078279744199198), (-23)); (80562171469761338, (-24)); (70782794778573375, (-24)); (99999999999999689, (-17)); (33060414542221364, (-24)); ((-80562173809869717), (-24)); ((-33060408839805517), (-24)); (99999999999999623, (-17)); (99999999999949085, (-17)); ((-92553425346113683), (-23)); ((-40218629905453717), (-23)); (92553425346317384, (-23)); (99999999999957168, (-17)); (48787275497169895, (-28)); (40218629904984942, (-23)); ((-52510218395696029), (-28)); (99999999999991906, (-17)); (99999999999945199, (-17)); ((-99631703760664644), (-23)); ((-32162415818336139), (-23)); (99631704824131852, (-23)); (99999999999950306, (-17)); (33065367832806149, (-24)); (3216241252396122, (-22)); ((-33065688329513749), (-24)); (99999999999994771, (-17))];
  [(24515458228962161, (-10)); (63822836518304227, (-18)); (99999999999999423, (-17)); ((-7078279744199198), (-23)); (80562171469761338, (-24)); (70782794778573375, (-24)); (99999999999999689, (-17)); (33060414542221364, (-24)); ((-80562173809869717), (-24)); ((-33060408839805517), (-24)); (99999999999999623, (-17)); (99999999999982481, (-17)); ((-54284416043817291), (-23)); ((-23589022768245204), (-23)); (54284416043887383, (-23)); (99999999999985256, (-17)); (29066903248496844, (-28)); (2358902276808394, (-22)); ((-30347391266616341), (-28)); (99999999999997213, (-17)); (9999999999997996, (-16)); ((-6136269500815234), (-22)); ((-15532807415935689), (-23)); (61362695521719935, (-23)); (99999999999981104, (-17)); (33063364965245673, (-24)); (15532805387075578, (-23)); ((-33063460275901465), (-24)); (99999999999998734, (-17))];
  [(24515459689714396, (-10)); (50874732183755467, (-17)); (99999999999999423, (-17)); ((-7078279744199198), (-23)); (80562171469761338, (-24)); (70782794778573375, (-24)); (99999999999999689, (-17)); (33060414542221364, (-24)); ((-80562173809869717), (-24)); ((-33060408839805517), (-24)); (99999999999999623, (-17)); (9999999999995135, (-16)); ((-90465069181717266), (-23)); ((-39311145156831821), (-23)); (90465069181911883, (-23)); (99999999999959066, (-17)); (47728852954973183, (-28)); (39311145156383958, (-23)); ((-51285642399534481), (-28)); (99999999999992273, (-17)); (99999999999947531, (-17)); ((-97543347626270208), (-23)); ((-31254931000672149), (-23)); (97543348659727357, (-23)); (99999999999952349, (-17)); (3306526030812748, (-23)); (31254927775361083, (-23)); ((-33065565229571164), (-24)); (9999999999999506, (-16))];
  [(24515459920354378, (-10)); (11471574243620974, (-17)); (99999999999999423, (-17)); ((-7078279744199198), (-23)); (80562171469761338, (-24)); (70782794778573375, (-24)); (99999999999999689, (-17)); (33060414542221364, (-24)); ((-80562173809869717), (-24)); ((-33060408839805517), (-24)); (99999999999999623, (-17)); (99999999999972711, (-17)); ((-6775465291033434), (-22)); ((-29442447053336206), (-23)); (67754652910443502, (-23)); (99999999999977052, (-17)); (36081261389184711, (-28)); (29442447053084982, (-23)); ((-38075653741032056), (-28)); (99999999999995659, (-17)); (99999999999969713, (-17)); ((-7483293168115206), (-22)); ((-21386232146359073), (-23)); (74832932388269765, (-23)); (99999999999971945, (-17)); (33064077252972358, (-24)); (21386229672071238, (-23)); ((-33064237245365841), (-24)); (99999999999997657, (-17))];
  [(2451545985719637, (-9)); (23356037901999671, (-17)); (99999999999999423, (-17)); ((-7078279744199198), (-23)); (80562171469761338, (-24)); (70782794778573375, (-24)); (99999999999999689, (-17)); (33060414542221364, (-24)); ((-80562173809869717), (-24)); ((-33060408839805517), (-24)); (99999999999999623, (-17)); (99999999999966882, (-17)); ((-74643601774397589), (-23)); ((-32436005428731904), (-23)); (74643601774530075, (-23)); (99999999999972133, (-17)); (39637725935605735, (-28)); (32436005428426999, (-23)); ((-42059133953387118), (-28)); (99999999999994738, (-17)); (99999999999963629, (-17)); ((-81721880446246613), (-23)); ((-24379790749506734), (-23)); (81721881252353078, (-23)); (99999999999966538, (-17)); (33064438449312172, (-24)); (24379788047410492, (-23)); ((-33064637712311138), (-24)); (99999999999996969, (-17))];
  [(24515456028806944, (-10)); (82281179609547994, (-17)); (99999999999999423, (-17)); ((-7078279744199198), (-23)); (80562171469761338, (-24)); (70782794778573375, (-24)); (99999999999999689, (-17)); (33060414542221364, (-24)); ((-80562173809869717), (-24)); ((-33060408839805517), (-24)); (99999999999999623, (-17)); (99999999999954725, (-17)); ((-87280051586810988), (-23)); ((-37927111655142068), (-23)); (87280051586992147, (-23)); (99999999999961919, (-17)); (46109029822564033, (-28)); (37927111654725185, (-23)); ((-49418802383627281), (-28)); (99999999999992817, (-17)); (99999999999951028, (-17)); ((-94358330077120893), (-23)); ((-29870897393684124), (-23)); (94358331064809135, (-23)); (99999999999955436, (-17)); (33065095759895848, (-24)); (2987089427370359, (-22)); ((-33065377565912125), (-24)); (99999999999995492, (-17))];
  [(245154584929517, (-8)); (32827876347656215, (-17)); (99999999999999423, (-17)); ((-7078279744199198), (-23)); (80562171469761338, (-24)); (70782794778573375, (-24)); (99999999999999689, (-17)); (33060414542221364, (-24)); ((-80562173809869717), (-24)); ((-33060408839805517), (-24)); (99999999999999623, (-17)); (99999999999969114, (-17)); ((-72090380033719013), (-23)); ((-31326515654714332), (-23)); (72090380033842606, (-23)); (99999999999974021, (-17)); (38321739170383616, (-28)); (31326515654429925, (-23)); ((-40580316884586409), (-28)); (99999999999995093, (-17)); (99999999999965949, (-17)); ((-79168658742248386), (-23)); ((-23270300891078419), (-23)); (79168659511666815, (-23)); (99999999999968603, (-17)); (33064304793705389, (-24)); (23270298273414445, (-23)); ((-33064489045276476), (-24)); (99999999999997236, (-17))];
  [(2451545110151791, (-9)); (52758805155784061, (-17)); (99999999999999423, (-17)); ((-7078279744199198), (-23)); (80562171469761338, (-24)); (70782794778573375, (-24)); (99999999999999689, (-17)); (33060414542221364, (-24)); ((-80562173809869717), (-24)); ((-33060408839805517), (-24)); (99999999999999623, (-17)); (99999999999990941, (-17)); ((-39042055958507428), (-23)); ((-16965531128092881), (-23)); (39042055958543676, (-23)); (99999999999992384, (-17)); (21034690692722101, (-28)); (16965531128009464, (-23)); ((-21697088570249434), (-28)); (99999999999998557, (-17)); (99999999999988964, (-17)); ((-46120335141818467), (-23)); ((-89093152718639678), (-24)); (46120335436383301, (-23)); (99999999999989309, (-17)); (33062549464416182, (-24)); (89093137470071532, (-24)); ((-33062590557339597), (-24)); (99999999999999545, (-17))];
  [(24515458436757992, (-10)); (55749863645170983, (-18)); (99999999999999423, (-17)); ((-7078279744199198), (-23)); (80562171469761338, (-24)); (70782794778573375, (-24)); (99999999999999689, (-17)); (33060414542221364, (-24)); ((-80562173809869717), (-24)); ((-33060408839805517), (-24)); (99999999999999623, (-17)); (9999999999998197, (-16)); ((-55062307216032906), (-23)); ((-23927051500557338), (-23)); (55062307216104999, (-23)); (99999999999984834, (-17)); (29473329444429952, (-28)); (23927051500391421, (-23)); ((-30790925364954091), (-28)); (99999999999997136, (-17)); (99999999999979428, (-17)); ((-62140586169192552), (-23)); ((-15870836173965268), (-23)); (62140586693937192, (-23)); (99999999999980627, (-17)); (33063406234551146, (-24)); (15870834119382746, (-23)); ((-3306350486857746), (-23)); (9999999999999869, (-16))];
  [(24515450359560074, (-10)); (7185482803806974, (-16)); (99999999999999423, (-17)); ((-7078279744199198), (-23)); (80562171469761338, (-24)); (70782794778573375, (-24)); (99999999999999689, (-17)); (33060414542221364, (-24)); ((-80562173809869717), (-24)); ((-33060408839805517), (-24)); (99999999999999623, (-17)); (9999999999998731, (-16)); ((-4619030627804243), (-22)); ((-20071767698843348), (-23)); (46190306278093168, (-23)); (9999999999998932, (-16)); (24813385392471415, (-28)); (2007176769872659, (-22)); ((-25740520825934254), (-28)); (99999999999997979, (-17)); (9999999999998509, (-16)); ((-53268585358659735), (-23)); ((-12015552078938832), (-23)); (53268585755929495, (-23)); (99999999999985745, (-17)); (33062933092670829, (-24)); (12015550317721446, (-23)); ((-33062997099246115), (-24)); (99999999999999223, (-17))];
  [(24515457812740062, (-10)); (26543088528008352, (-18)); (99999999999999423, (-17)); ((-7078279744199198), (-23)); (80562171469761338, (-24)); (70782794778573375, (-24)); (99999999999999689, (-17)); (33060414542221364, (-24)); ((-80562173809869717), (-24)); ((-33060408839805517), (-24)); (99999999999999623, (-17)); (99999999999985467, (-17)); ((-49454084811951014), (-23)); ((-21490026400389871), (-23)); (49454084812009173, (-23)); (99999999999987765, (-17)); (26532876106864963, (-28)); (21490026400256027, (-23)); ((-27595148388570578), (-28)); (99999999999997691, (-17)); (99999999999983125, (-17)); ((-56532363845679968), (-23)); ((-13433810888387371), (-23)); (56532364289843981, (-23)); (99999999999983957, (-17)); (33063107671112616, (-24)); (13433809019249584, (-23)); ((-33063183565885472), (-24)); (99999999999999045, (-17))];
  [(24515453938503079, (-10)); (72027290261493493, (-17)); (99999999999999423, (-17)); ((-7078279744199198), (-23)); (80562171469761338, (-24)); (70782794778573375, (-24)); (99999999999999689, (-17)); (33060414542221364, (-24)); ((-80562173809869717), (-24)); ((-33060408839805517), (-24)); (99999999999999623, (-17)); (99999999999972355, (-17)); ((-68205964247793424), (-23)); ((-29638562144742273), (-23)); (68205964247904047, (-23)); (99999999999976741, (-17)); (36314469230652735, (-28)); (29638562144487692, (-23)); ((-38336001040306655), (-28)); (99999999999995604, (-17)); (99999999999969336, (-17)); ((-75284243012127477), (-23)); ((-21582347252685707), (-23)); (75284243725730088, (-23)); (999999999999716, (-15)); (3306410093734261, (-23)); (21582344763473768, (-23)); ((-33064263418911498), (-24)); (99999999999997613, (-17))];
  [(24515459817874995, (-10)); (89647149248356917, (-17)); (99999999999999423, (-17)); ((-7078279744199198), (-23)); (80562171469761338, (-24)); (70782794778573375, (-24)); (99999999999999689, (-17)); (33060414542221364, (-24)); ((-80562173809869717), (-24)); ((-33060408839805517), (-24)); (99999999999999623, (-17)); (99999999999921407, (-17)); ((-1149859057390197), (-21)); ((-49966552248520698), (-23)); (11498590573933412, (-22)); (99999999999933875, (-17)); (60052896352784473, (-28)); (49966552247797141, (-23)); ((-65798477777434528), (-28)); (9999999999998751, (-16)); (99999999999916722, (-17)); ((-12206418383129831), (-22)); ((-41910338903032415), (-23)); (12206418521713772, (-22)); (99999999999925426, (-17)); (33066512466977328, (-24)); (41910334866764313, (-23)); ((-33067024055302598), (-24)); (99999999999991163, (-17))];
  [(24515456671535587, (-10)); (32921422580990367, (-17)); (99999999999999423, (-17)); ((-7078279744199198), (-23)); (80562171469761338, (-24)); (70782794778573375, (-24)); (99999999999999689, (-17)); (33060414542221364, (-24)); ((-80562173809869717), (-24)); ((-33060408839805517), (-24)); (99999999999999623, (-17)); (99999999999977884, (-17)); ((-60997046627414592), (-23)); ((-26505962932361788), (-23)); (60997046627503075, (-23)); (99999999999981393, (-17)); (32572091600947279, (-28)); (26505962932158172, (-23)); ((-34189318043331696), (-28)); (99999999999996492, (-17)); (9999999999997512, (-16)); ((-68075325495314061), (-23)); ((-18449747801974984), (-23)); (68075326105332504, (-23)); (99999999999976763, (-17)); (33063720891920599, (-24)); (18449745551147131, (-23)); ((-33063846533270743), (-24)); (99999999999998246, (-17))];
  [(24515450280586453, (-10)); (37298073746658589, (-17)); (99999999999999423, (-17)); ((-7078279744199198), (-23)); (80562171469761338, (-24)); (70782794778573375, (-24)); (99999999999999689, (-17)); (33060414542221364, (-24)); ((-80562173809869717), (-24)); ((-33060408839805517), (-24)); (99999999999999623, (-17)); (99999999999996414, (-17)); ((-2455139376313914), (-22)); ((-10668686018002009), (-23)); (24551393763153476, (-23)); (99999999999996991, (-17)); (13304401799560183, (-28)); (10668686017969022, (-23)); ((-135663702494071), (-26)); (99999999999999423, (-17)); (99999999999994948, (-17)); ((-31629673154626891), (-23)); ((-26124696827053796), (-24)); (3162967324099974, (-22)); (99999999999994937, (-17)); (33061764761536267, (-24)); (26124686369724313, (-24)); ((-33061773028424678), (-24)); (999999999999999, (-15))];
  [(24515451283915821, (-10)); (68300945422389936, (-17)); (99999999999999423, (-17)); ((-7078279744199198), (-23)); (80562171469761338, (-24)); (70782794778573375, (-24)); (99999999999999689, (-17)); (33060414542221364, (-24)); ((-80562173809869717), (-24)); ((-33060408839805517), (-24)); (99999999999999623, (-17)); (99999999999985334, (-17)); ((-49673491593351339), (-23)); ((-21585368524071503), (-23)); (49673491593410017, (-23)); (99999999999987654, (-17)); (26647805813665149, (-28)); (2158536852393647, (-22)); ((-27720048478840909), (-28)); (99999999999997669, (-17)); (9999999999998298, (-16)); ((-56751770623928229), (-23)); ((-13529153019322694), (-23)); (56751771071244719, (-23)); (99999999999983824, (-17)); (33063119340842125, (-24)); (1352915114292994, (-22)); ((-33063196123380314), (-24)); (99999999999999034, (-17))];
  [(24515458429346043, (-10)); (69906537012682668, (-17)); (99999999999999423, (-17)); ((-7078279744199198), (-23)); (80562171469761338, (-24)); (70782794778573375, (-24)); (99999999999999689, (-17)); (33060414542221364, (-24)); ((-80562173809869717), (-24)); ((-33060408839805517), (-24)); (99999999999999623, (-17)); (9999999999994702, (-16)); ((-94400327094038105), (-23)); ((-41021191841725657), (-23)); (94400327094250022, (-23)); (99999999999955436, (-17)); (4972353679727359, (-27)); (41021191841237983, (-23)); ((-53597126736804057), (-28)); (99999999999991585, (-17)); (99999999999943068, (-17)); ((-10147860548205587), (-22)); ((-32964977815667582), (-23)); (10147860657206359, (-22)); (99999999999948441, (-17)); (33065462946839746, (-24)); (32964974460213514, (-23)); ((-33065797588423549), (-24)); (99999999999994515, (-17))];
  [(24515453977987571, (-10)); (28501084745741956, (-17)); (99999999999999423, (-17)); ((-7078279744199198), (-23)); (80562171469761338, (-24)); (70782794778573375, (-24)); (99999999999999689, (-17)); (33060414542221364, (-24)); ((-80562173809869717), (-24)); ((-33060408839805517), (-24)); (99999999999999623, (-17)); (99999999999989619, (-17)); ((-41801200143593321), (-23)); ((-18164503491573309), (-23)); (41801200143634873, (-23)); (99999999999991263, (-17)); (22495965964408261, (-28)); (18164503491477687, (-23)); ((-23254731473798529), (-28)); (99999999999998357, (-17)); (99999999999987543, (-17)); ((-48879479287265733), (-23)); ((-10108287726562948), (-23)); (48879479621473223, (-23)); (99999999999987987, (-17)); (33062697814769445, (-24)); (1010828611047428, (-22)); ((-33062747170296065), (-24)); (99999999999999445, (-17))];
  [(24515457532986477, (-10)); (62095348329366629, (-17)); (99999999999999423, (-17)); ((-7078279744199198), (-23)); (80562171469761338, (-24)); (70782794778573375, (-24)); (99999999999999689, (-17)); (33060414542221364, (-24)); ((-80562173809869717), (-24)); ((-33060408839805517), (-24)); (99999999999999623, (-17)); (99999999999957934, (-17)); ((-84130903144865306), (-23)); ((-36558664912874668), (-23)); (84130903145033622, (-23)); (99999999999964617, (-17)); (44502555536927947, (-28)); (3655866491248733, (-22)); ((-47578052608798771), (-28)); (99999999999993316, (-17)); (99999999999954348, (-17)); ((-91209181680416851), (-23)); ((-28502450547304321), (-23)); (91209182622852114, (-23)); (99999999999958356, (-17)); (33064932575445812, (-24)); (28502447531467012, (-23)); ((-33065192522309917), (-24)); (99999999999995881, (-17))];
  [(24515451300101439, (-10)); (79599528065716862, (-17)); (99999999999999423, (-17)); ((-7078279744199198), (-23)); (80562171469761338, (-24)); (70782794778573375, (-24)); (99999999999999689, (-17)); (33060414542221364, (-24)); ((-80562173809869717), (-24)); ((-33060408839805517), (-24)); (99999999999999623, (-17)); (99999999999980904, (-17)); ((-56689504519975837), (-23)); ((-24634141979553047), (-23)); (56689504520052271, (-23)); (99999999999983946, (-17)); (30325051297012535, (-28)); (24634141979377176, (-23)); ((-31721292259589973), (-28)); (99999999999996958, (-17)); (99999999999978306, (-17)); ((-63767783449758697), (-23)); ((-16577926706756875), (-23)); (63767783997883712, (-23)); (99999999999979627, (-17)); (33063492717641592, (-24)); (16577924598367853, (-23)); ((-33063598405765292), (-24)); (99999999999998568, (-17))];
  [(24515455867188452, (-10)); (72267407406172346, (-17)); (99999999999999423, (-17)); ((-7078279744199198), (-23)); (80562171469761338, (-24)); (70782794778573375, (-24)); (99999999999999689, (-17)); (33060414542221364, (-24)); ((-80562173809869717), (-24)); ((-33060408839805517), (-24)); (99999999999999623, (-17)); (99999999999961797, (-17)); ((-80160260496283718), (-23)); ((-34833241959257333), (-23)); (80160260496436522, (-23)); (99999999999967859, (-17)); (42470753939629417, (-28)); (34833241958905692, (-23)); ((-45263792713967632), (-28)); (99999999999993938, (-17)); (99999999999958356, (-17)); ((-87238539088878738), (-23)); ((-26777027462415588), (-23)); (87238539974256899, (-23)); (99999999999961875, (-17)); (33064726196451211, (-24)); (26777024577886968, (-23)); ((-33064959875018005), (-24)); (9999999999999637, (-16))];
  [(24515457670457698, (-10)); (83996934032855308, (-17)); (99999999999999423, (-17)); ((-7078279744199198), (-23)); (80562171469761338, (-24)); (70782794778573375, (-24)); (99999999999999689, (-17)); (33060414542221364, (-24)); ((-80562173809869717), (-24)); ((-33060408839805517), (-24)); (99999999999999623, (-17)); (99999999999942468, (-17)); ((-98380515334488192), (-23)); ((-42750762773303128), (-23)); (98380515334718352, (-23)); (99999999999951605, (-17)); (51735468677025792, (-28)); (42750762772773467, (-23)); ((-55940807541787763), (-28)); (99999999999990863, (-17)); (99999999999938372, (-17)); ((-10545879366532533), (-22)); ((-34694548878832092), (-23)); (10545879481253003, (-22)); (99999999999944333, (-17)); (33065667346552522, (-24)); (34694545391747384, (-23)); ((-33066033180742498), (-24)); (99999999999993927, (-17))];
  [(24515457260589832, (-10)); (89405280626800565, (-17)); (99999999999999423, (-17)); ((-7078279744199198), (-23)); (80562171469761338, (-24)); (70782794778573375, (-24)); (99999999999999689, (-17)); (33060414542221364, (-24)); ((-80562173809869717), (-24)); ((-33060408839805517), (-24)); (99999999999999623, (-17)); (99999999999941525, (-17)); ((-99182286314788264), (-23)); ((-43099168350126614), (-23)); (99182286315022193, (-23)); (99999999999950806, (-17)); (52139192231322848, (-28)); (43099168349588283, (-23)); ((-56414317661790392), (-28)); (99999999999990707, (-17)); (99999999999937406, (-17)); ((-10626056463410688), (-22)); ((-35042954482162528), (-23)); (10626056579283346, (-22)); (99999999999943479, (-17)); (330657083648318, (-22)); (35042950968561882, (-23)); ((-33066080778365659), (-24)); (99999999999993805, (-17))];
  [(24515457000825643, (-10)); (96699505594562563, (-17)); (99999999999999423, (-17)); ((-7078279744199198), (-23)); (80562171469761338, (-24)); (70782794778573375, (-24)); (99999999999999689, (-17)); (33060414542221364, (-24)); ((-80562173809869717), (-24)); ((-33060408839805517), (-24)); (99999999999999623, (-17)); (99999999999938094, (-17)); ((-10205750675419119), (-22)); ((-44348581037101732), (-23)); (10205750675443888, (-22)); (99999999999947931, (-17)); (53588053432205909, (-28)); (44348581036531732, (-23)); ((-58114069112491507), (-28)); (99999999999990175, (-17)); (99999999999933864, (-17)); ((-10913578503220346), (-22)); ((-36292367264193896), (-23)); (10913578623224875, (-22)); (99999999999940392, (-17)); (33065855567290963, (-24)); (36292363655504166, (-23)); ((-33066251637879797), (-24)); (99999999999993372, (-17))];
  [(2451545579444488, (-9)); (54321467989122996, (-17)); (99999999999999423, (-17)); ((-7078279744199198), (-23)); (80562171469761338, (-24)); (70782794778573375, (-24)); (99999999999999689, (-17)); (33060414542221364, (-24)); ((-80562173809869717), (-24)); ((-33060408839805517), (-24)); (99999999999999623, (-17)); (99999999999971922, (-17)); ((-68728530518570247), (-23)); ((-29865640712085815), (-23)); (68728530518682585, (-23)); (99999999999976386, (-17)); (3658543479286094, (-27)); (29865640711827321, (-23)); ((-38637981703004698), (-28)); (99999999999995537, (-17)); (99999999999968892, (-17)); ((-75806809275396962), (-23)); ((-21809425837305542), (-23)); (75806809996508382, (-23)); (99999999999971212, (-17)); (33064128454889441, (-24)); (21809423330813186, (-23)); ((-3306429377771031), (-23)); (99999999999997569, (-17))];
  [(245154585178104, (-8)); (10539349559293243, (-17)); (99999999999999423, (-17)); ((-7078279744199198), (-23)); (80562171469761338, (-24)); (70782794778573375, (-24)); (99999999999999689, (-17)); (33060414542221364, (-24)); ((-80562173809869717), (-24)); ((-33060408839805517), (-24)); (99999999999999623, (-17)); (99999999999979594, (-17)); ((-58597659082359076), (-23)); ((-25463321034326507), (-23)); (5859765908244073, (-22)); (99999999999982825, (-17)); (31321695177574971, (-28)); (25463321034138593, (-23)); ((-32813751715821127), (-28)); (99999999999996758, (-17)); (99999999999976918, (-17)); ((-65675937984728847), (-23)); ((-17407105824614822), (-23)); (65675938560271281, (-23)); (99999999999978362, (-17)); (3306359391928003, (-23)); (17407103653128508, (-23)); ((-33063708238626979), (-24)); (99999999999998435, (-17))];
  [(24515452416917728, (-10)); (12438101402596125, (-17)); (99999999999999423, (-17)); ((-7078279744199198), (-23)); (80562171469761338, (-24)); (70782794778573375, (-24)); (99999999999999689, (-17)); (33060414542221364, (-24)); ((-80562173809869717), (-24)); ((-33060408839805517), (-24)); (99999999999999623, (-17)); (99999999999997014, (-17)); ((-22410759439682328), (-23)); ((-97384840270839986), (-24)); (22410759439694271, (-23)); (99999999999997491, (-17)); (12155221020013625, (-28)); (97384840270565137, (-24)); ((-1237343560944737), (-27)); (99999999999999523, (-17)); (99999999999995637, (-17)); ((-29489038861922984), (-23)); ((-16822676210170653), (-24)); (29489038917541507, (-23)); (99999999999995592, (-17)); (33061648118916989, (-24)); (1682266646060766, (-23)); ((-33061653076537725), (-24)); (99999999999999933, (-17))];
  [(24515453639338291, (-10)); (43520470454181048, (-17)); (99999999999999423, (-17)); ((-7078279744199198), (-23)); (80562171469761338, (-24)); (70782794778573375, (-24)); (99999999999999689, (-17)); (33060414542221364, (-24)); ((-80562173809869717), (-24)); ((-33060408839805517), (-24)); (99999999999999623, (-17)); (99999999999985778, (-17)); ((-4892278843039664), (-22)); ((-21259154204885094), (-23)); (4892278843045356, (-22)); (99999999999988043, (-17)); (26253047939004547, (-28)); (21259154204754114, (-23)); ((-27293167725872536), (-28)); (99999999999997735, (-17)); (99999999999983447, (-17)); ((-56001067471758345), (-23)); ((-13202938675317693), (-23)); (56001067908288612, (-23)); (99999999999984268, (-17)); (33063079260272014, (-24)); (13202936823747885, (-23)); ((-33063153204401414), (-24)); (99999999999999067, (-17))];
  [(24515459799512918, (-10)); (34932201483437553, (-17)); (99999999999999423, (-17)); ((-7078279744199198), (-23)); (80562171469761338, (-24)); (70782794778573375, (-24)); (99999999999999689, (-17)); (33060414542221364, (-24)); ((-80562173809869717), (-24)); ((-33060408839805517), (-24)); (99999999999999623, (-17)); (99999999999960643, (-17)); ((-81377326074590371), (-23)); ((-35362111734771262), (-23)); (81377326074747855, (-23)); (99999999999966904, (-17)); (43094894745825357, (-28)); (35362111734408865, (-23)); ((-45972670115190795), (-28)); (99999999999993749, (-17)); (99999999999957156, (-17)); ((-88455604649700651), (-23)); ((-27305897278166304), (-23)); (8845560555256767, (-22)); (99999999999960831, (-17)); (33064789591025981, (-24)); (27305894353389648, (-23)); ((-33065031137106892), (-24)); (99999999999996225, (-17))];
  [(24515453006726503, (-10)); (17423409096858988, (-17)); (99999999999999423, (-17)); ((-7078279744199198), (-23)); (80562171469761338, (-24)); (70782794778573375, (-24)); (99999999999999689, (-17)); (33060414542221364, (-24)); ((-80562173809869717), (-24)); ((-33060408839805517), (-24)); (99999999999999623, (-17)); (99999999999994982, (-17)); ((-29073509770596816), (-23)); ((-12633749018600299), (-23)); (29073509770616912, (-23)); (9999999999999577, (-16)); (15726594427233794, (-28)); (12633749018554043, (-23)); ((-16093792964966269), (-28)); (99999999999999201, (-17)); (99999999999993372, (-17)); ((-36151789097118664), (-23)); ((-4577532832806806), (-23)); (36151789248461111, (-23)); (99999999999993405, (-17)); (33062010623913482, (-24)); (45775316375556693, (-24)); ((-33062027161622728), (-24)); (99999999999999845, (-17))];
  [(24515458498219154, (-10)); (6862069700302158, (-16)); (99999999999999423, (-17)); ((-7078279744199198), (-23)); (80562171469761338, (-24)); (70782794778573375, (-24)); (99999999999999689, (-17)); (33060414542221364, (-24)); ((-80562173809869717), (-24)); ((-33060408839805517), (-24)); (99999999999999623, (-17)); (99999999999947431, (-17)); ((-94034780550959186), (-23)); ((-40862345416007345), (-23)); (94034780551169473, (-23)); (99999999999955769, (-17)); (49539171291352349, (-28)); (40862345415523435, (-23)); ((-53382298581539089), (-28)); (99999999999991651, (-17)); (9999999999994349, (-16)); ((-10111305894422853), (-22)); ((-32806131377864122), (-23)); (10111306002898322, (-22)); (99999999999948797, (-17)); (33065444215797023, (-24)); (32806128034499114, (-23)); ((-33065775993172095), (-24)); (99999999999994571, (-17))];
  [(24515456922677979, (-10)); (99079587770688193, (-17)); (99999999999999423, (-17)); ((-7078279744199198), (-23)); (80562171469761338, (-24)); (70782794778573375, (-24)); (99999999999999689, (-17)); (33060414542221364, (-24)); ((-80562173809869717), (-24)); ((-33060408839805517), (-24)); (99999999999999623, (-17)); (99999999999936895, (-17)); ((-10303616363177065), (-22)); ((-4477385149678529), (-22)); (10303616363202311, (-22)); (99999999999946931, (-17)); (54080081788542847, (-28)); (44773851496204305, (-23)); ((-58693050419833526), (-28)); (99999999999989986, (-17)); (99999999999932632, (-17)); ((-11011444189572323), (-22)); ((-36717637756232354), (-23)); (11011444310983253, (-22)); (99999999999939326, (-17)); (33065905558553496, (-24)); (36717634115176331, (-23)); ((-33066309837028802), (-24)); (99999999999993217, (-17))];
  [(24515450192678026, (-10)); (38031778402983163, (-17)); (99999999999999423, (-17)); ((-7078279744199198), (-23)); (80562171469761338, (-24)); (70782794778573375, (-24)); (99999999999999689, (-17)); (33060414542221364, (-24)); ((-80562173809869717), (-24)); ((-33060408839805517), (-24)); (99999999999999623, (-17)); (99999999999996436, (-17)); ((-24462393221988822), (-23)); ((-1063001127583589), (-22)); (24462393222003052, (-23)); (99999999999997002, (-17)); (13256657872404995, (-28)); (10630011275803143, (-23)); ((-13516410213298968), (-28)); (99999999999999434, (-17)); (99999999999994982, (-17)); ((-31540672614755174), (-23)); ((-25737949375968639), (-24)); (31540672699849358, (-23)); (9999999999999496, (-16)); (33061759915442783, (-24)); (25737938948065875, (-24)); ((-33061768005046008), (-24)); (99999999999999911, (-17))];
  [(24515458159742323, (-10)); (57646599745324201, (-17)); (99999999999999423, (-17)); ((-7078279744199198), (-23)); (80562171469761338, (-24)); (70782794778573375, (-24)); (99999999999999689, (-17)); (33060414542221364, (-24)); ((-80562173809869717), (-24)); ((-33060408839805517), (-24)); (99999999999999623, (-17)); (99999999999956801, (-17)); ((-85244367811236033), (-23)); ((-37042515428063087), (-23)); (85244367811408838, (-23)); (99999999999963662, (-17)); (45070622118065141, (-28)); (37042515427665426, (-23)); ((-48229198412741425), (-28)); (9999999999999315, (-16)); (99999999999953182, (-17)); ((-92322646330791212), (-23)); ((-28986301099304432), (-23)); (92322647289226811, (-23)); (99999999999957323, (-17)); (33064990279134925, (-24)); (28986298046644658, (-23)); ((-33065257979373187), (-24)); (99999999999995759, (-17))];
  [(24515459873288404, (-10)); (93699028907811677, (-18)); (99999999999999423, (-17)); ((-7078279744199198), (-23)); (80562171469761338, (-24)); (70782794778573375, (-24)); (99999999999999689, (-17)); (33060414542221364, (-24)); ((-80562173809869717), (-24)); ((-33060408839805517), (-24)); (99999999999999623, (-17)); (99999999999973965, (-17)); ((-66179887008313468), (-23)); ((-2875814038224513), (-22)); (66179887008417622, (-23)); (99999999999978095, (-17)); (35265037768247981, (-28)); (28758140382005446, (-23)); ((-37168601529913303), (-28)); (99999999999995859, (-17)); (99999999999971023, (-17)); ((-73258165801754739), (-23)); ((-20701925423205482), (-23)); (73258166486244615, (-23)); (99999999999973099, (-17)); (33063994361944996, (-24)); (20701923000992333, (-23)); ((-33064146055773392), (-24)); (99999999999997802, (-17))];
  [(24515459719936289, (-10)); (99643262574551905, (-17)); (99999999999999423, (-17)); ((-7078279744199198), (-23)); (80562171469761338, (-24)); (70782794778573375, (-24)); (99999999999999689, (-17)); (33060414542221364, (-24)); ((-80562173809869717), (-24)); ((-33060408839805517), (-24)); (99999999999999623, (-17)); (9999999999991368, (-16)); ((-1205058923738097), (-21)); ((-52365234862363246), (-23)); (12050589237415501, (-22)); (99999999999927391, (-17)); (62791443616636339, (-28)); (52365234861568549, (-23)); ((-69101946387206681), (-28)); (99999999999986278, (-17)); (99999999999908795, (-17)); ((-12758417038678633), (-22)); ((-44309021699368624), (-23)); (12758417185195593, (-22)); (99999999999918554, (-17)); (33066790768722674, (-24)); (4430901748053346, (-22)); ((-33067356100017818), (-24)); (99999999999990119, (-17))];
  [(24515453720407472, (-10)); (84749384760858315, (-17)); (99999999999999423, (-17)); ((-7078279744199198), (-23)); (80562171469761338, (-24)); (70782794778573375, (-24)); (99999999999999689, (-17)); (33060414542221364, (-24)); ((-80562173809869717), (-24)); ((-33060408839805517), (-24)); (99999999999999623, (-17)); (99999999999966871, (-17)); ((-74659186936588067), (-23)); ((-32442777883231648), (-23)); (74659186936720627, (-23)); (99999999999972133, (-17)); (39646610033273938, (-28)); (3244277788292661, (-22)); ((-42068570849096432), (-28)); (99999999999994738, (-17)); (99999999999963618, (-17)); ((-81737465608213188), (-23)); ((-24386563204521733), (-23)); (81737466414543619, (-23)); (99999999999966538, (-17)); (33064439350277679, (-24)); (24386560501910098, (-23)); ((-33064638660794439), (-24)); (99999999999996969, (-17))];
  [(24515456704790448, (-10)); (10407397843491184, (-17)); (99999999999999423, (-17)); ((-7078279744199198), (-23)); (80562171469761338, (-24)); (70782794778573375, (-24)); (99999999999999689, (-17)); (33060414542221364, (-24)); ((-80562173809869717), (-24)); ((-33060408839805517), (-24)); (99999999999999623, (-17)); (99999999999986644, (-17)); ((-47417678010670328), (-23)); ((-2060511597065903), (-22)); (47417678010723791, (-23)); (99999999999988776, (-17)); (25460204533137808, (-28)); (20605115970535985, (-23)); ((-2643718577388654), (-27)); (99999999999997868, (-17)); (99999999999984379, (-17)); ((-54495957073654878), (-23)); ((-12548900391331987), (-23)); (54495957488559547, (-23)); (99999999999985112, (-17)); (33062998763382034, (-24)); (12548898589530352, (-23)); ((-33063067143259703), (-24)); (99999999999999156, (-17))];
  [(24515451919813994, (-10)); (4716636777227321, (-16)); (99999999999999423, (-17)); ((-7078279744199198), (-23)); (80562171469761338, (-24)); (70782794778573375, (-24)); (99999999999999689, (-17)); (33060414542221364, (-24)); ((-80562173809869717), (-24)); ((-33060408839805517), (-24)); (99999999999999623, (-17)); (99999999999990186, (-17)); ((-40627959106241453), (-23)); ((-17654677442403745), (-23)); (40627959106280708, (-23)); (99999999999991729, (-17)); (21875255142340063, (-28)); (17654677442313414, (-23)); ((-22593038551121936), (-28)); (99999999999998435, (-17)); (99999999999988154, (-17)); ((-47706238266768968), (-23)); ((-95984616386055057), (-24)); (47706238584119613, (-23)); (99999999999988542, (-17)); (33062634798498944, (-24)); (95984600613104722, (-24)); ((-33062680640134688), (-24)); (99999999999999478, (-17))];
  [(24515453893282292, (-10)); (30807386110068657, (-17)); (99999999999999423, (-17)); ((-7078279744199198), (-23)); (80562171469761338, (-24)); (70782794778573375, (-24)); (99999999999999689, (-17)); (33060414542221364, (-24)); ((-80562173809869717), (-24)); ((-33060408839805517), (-24)); (99999999999999623, (-17)); (99999999999989164, (-17)); ((-42694543499706885), (-23)); ((-18552701397274072), (-23)); (42694543499750232, (-23)); (99999999999990885, (-17)); (22968440909578198, (-28)); (18552701397174321, (-23)); ((-23760438061515288), (-28)); (99999999999998279, (-17)); (99999999999987066, (-17)); ((-49772822630545291), (-23)); ((-1049648566179805), (-22)); (49772822977588168, (-23)); (99999999999987554, (-17)); (33062745781960658, (-24)); (10496484016170563, (-23)); ((-33062798015732146), (-24)); (999999999999994, (-15))];
  [(24515456627666834, (-10)); (33703809955713171, (-17)); (99999999999999423, (-17)); ((-7078279744199198), (-23)); (80562171469761338, (-24)); (70782794778573375, (-24)); (99999999999999689, (-17)); (33060414542221364, (-24)); ((-80562173809869717), (-24)); ((-33060408839805517), (-24)); (99999999999999623, (-17)); (99999999999977729, (-17)); ((-61207457641061249), (-23)); ((-26597395989500112), (-23)); (61207457641150356, (-23)); (99999999999981271, (-17)); (32682029245127973, (-28)); (26597395989295087, (-23)); ((-34310332353015838), (-28)); (99999999999996458, (-17)); (99999999999974964, (-17)); ((-68285736505937901), (-23)); ((-18541180866069595), (-23)); (6828573711897969, (-22)); (9999999999997663, (-16)); (33063732055196662, (-24)); (18541178608283965, (-23)); ((-33063858699420574), (-24)); (99999999999998224, (-17))];
  [(24515452008998166, (-10)); (89878548690379156, (-17)); (99999999999999423, (-17)); ((-7078279744199198), (-23)); (80562171469761338, (-24)); (70782794778573375, (-24)); (99999999999999689, (-17)); (33060414542221364, (-24)); ((-80562173809869717), (-24)); ((-33060408839805517), (-24)); (99999999999999623, (-17)); (99999999999973055, (-17)); ((-67322084106904353), (-23)); ((-29254476436601879), (-23)); (67322084107012127, (-23)); (99999999999977329, (-17)); (35856938245575234, (-28)); (29254476436353851, (-23)); ((-37826408672003708), (-28)); (99999999999995726, (-17)); (99999999999970068, (-17)); ((-74400362883936478), (-23)); ((-21198261515323814), (-23)); (74400363584838581, (-23)); (99999999999972256, (-17)); (33064054472171265, (-24)); (21198259055340278, (-23)); ((-33064212187808101), (-24)); (99999999999997702, (-17))];
  [(24515450448068255, (-10)); (55797535401559917, (-17)); (99999999999999423, (-17)); ((-7078279744199198), (-23)); (80562171469761338, (-24)); (70782794778573375, (-24)); (99999999999999689, (-17)); (33060414542221364, (-24)); ((-80562173809869717), (-24)); ((-33060408839805517), (-24)); (99999999999999623, (-17)); (99999999999991906, (-17)); ((-36901968489636819), (-23)); ((-16035566776329254), (-23)); (36901968489669202, (-23)); (99999999999993183, (-17)); (19898770949303913, (-28)); (16035566776254731, (-23)); ((-20490831253994202), (-28)); (99999999999998712, (-17)); (99999999999990008, (-17)); ((-43980247703692931), (-23)); ((-79793508493480874), (-24)); (43980247967509818, (-23)); (99999999999990263, (-17)); (33062434148341166, (-24)); (79793493952532668, (-24)); ((-33062469273353244), (-24)); (99999999999999623, (-17))];
  [(24515454325957466, (-10)); (85166568734925086, (-17)); (99999999999999423, (-17)); ((-7078279744199198), (-23)); (80562171469761338, (-24)); (70782794778573375, (-24)); (99999999999999689, (-17)); (33060414542221364, (-24)); ((-80562173809869717), (-24)); ((-33060408839805517), (-24)); (99999999999999623, (-17)); (99999999999963263, (-17)); ((-78621725805660998), (-23)); ((-34164679384265072), (-23)); (78621725805807979, (-23)); (99999999999969091, (-17)); (41682252711413785, (-28)); (34164679383926804, (-23)); ((-44367842733095131), (-28)); (9999999999999416, (-16)); (99999999999959877, (-17)); ((-85700004420359089), (-23)); ((-26108464836558618), (-23)); (85700005283629086, (-23)); (99999999999963218, (-17)); (33064646106851848, (-24)); (26108462002908704, (-23)); ((-33064869806792701), (-24)); (99999999999996536, (-17))];
  [(24515456389446766, (-10)); (42026842861086589, (-17)); (99999999999999423, (-17)); ((-7078279744199198), (-23)); (80562171469761338, (-24)); (70782794778573375, (-24)); (99999999999999689, (-17)); (33060414542221364, (-24)); ((-80562173809869717), (-24)); ((-33060408839805517), (-24)); (99999999999999623, (-17)); (99999999999975009, (-17)); ((-64844400035939127), (-23)); ((-28177811176620605), (-23)); (64844400036039119, (-23)); (99999999999978972, (-17)); (34572084629859511, (-28)); (28177811176390503, (-23)); ((-36399772085360382), (-28)); (99999999999996025, (-17)); (99999999999972111, (-17)); ((-71922678848566393), (-23)); ((-20121596173429123), (-23)); (71922679513866738, (-23)); (99999999999974076, (-17)); (33063923990734141, (-24)); (20121593795377922, (-23)); ((-33064068762055743), (-24)); (99999999999997913, (-17))];
  [(24515451326892008, (-10)); (14698602130204652, (-17)); (99999999999999423, (-17)); ((-7078279744199198), (-23)); (80562171469761338, (-24)); (70782794778573375, (-24)); (99999999999999689, (-17)); (33060414542221364, (-24)); ((-80562173809869717), (-24)); ((-33060408839805517), (-24)); (99999999999999623, (-17)); (99999999999998257, (-17)); ((-17121551627323846), (-23)); ((-74400850936686915), (-24)); (17121551627330816, (-23)); (99999999999998535, (-17)); (93056257384140885, (-29)); (74400850936526495, (-24)); ((-94335650402399551), (-29)); (99999999999999722, (-17)); (99999999999997069, (-17)); ((-24199831125550615), (-23)); (61613148726173513, (-25)); (24199831105180457, (-23)); (99999999999997014, (-17)); (33061358898288501, (-24)); ((-61613228734101899), (-25)); ((-33061357462609809), (-24)); (99999999999999944, (-17))];
  [(24515455877538612, (-10)); (5493354818408821, (-16)); (99999999999999423, (-17)); ((-7078279744199198), (-23)); (80562171469761338, (-24)); (70782794778573375, (-24)); (99999999999999689, (-17)); (33060414542221364, (-24)); ((-80562173809869717), (-24)); ((-33060408839805517), (-24)); (99999999999999623, (-17)); (99999999999971201, (-17)); ((-69611937316044569), (-23)); ((-30249520730956465), (-23)); (69611937316159808, (-23)); (99999999999975775, (-17)); (3704185796127294, (-27)); (3024952073069128, (-22)); ((-39147574071307645), (-28)); (99999999999995415, (-17)); (99999999999968137, (-17)); ((-76690216060179999), (-23)); ((-22193305885382039), (-23)); (76690216793985192, (-23)); (99999999999970535, (-17)); (3306417480889779, (-23)); (22193303349676796, (-23)); ((-33064345008668117), (-24)); (9999999999999748, (-16))];
  [(24515455542366942, (-10)); (91800932629610166, (-17)); (99999999999999423, (-17)); ((-7078279744199198), (-23)); (80562171469761338, (-24)); (70782794778573375, (-24)); (99999999999999689, (-17)); (33060414542221364, (-24)); ((-80562173809869717), (-24)); ((-33060408839805517), (-24)); (99999999999999623, (-17)); (99999999999951716, (-17)); ((-901300312119317), (-21)); ((-39165556079095438), (-23)); (90130031212124877, (-23)); (99999999999959377, (-17)); (47558373564019887, (-28)); (39165556078650888, (-23)); ((-51088022701151203), (-28)); (99999999999992328, (-17)); (99999999999947908, (-17)); ((-97208309661297896), (-23)); ((-31109341911859237), (-23)); (9720831068994051, (-22)); (99999999999952682, (-17)); (33065242990274619, (-24)); (31109338697628146, (-23)); ((-33065545364549326), (-24)); (99999999999995104, (-17))];
  [(24515451725446149, (-10)); (8439452911223625, (-16)); (99999999999999423, (-17)); ((-7078279744199198), (-23)); (80562171469761338, (-24)); (70782794778573375, (-24)); (99999999999999689, (-17)); (33060414542221364, (-24)); ((-80562173809869717), (-24)); ((-33060408839805517), (-24)); (99999999999999623, (-17)); (99999999999976985, (-17)); ((-62228911017830927), (-23)); ((-27041263462581237), (-23)); (62228911017923021, (-23)); (99999999999980638, (-17)); (33213396319064757, (-28)); (27041263462369315, (-23)); ((-34895974998505608), (-28)); (99999999999996347, (-17)); (99999999999974176, (-17)); ((-69307189868033083), (-23)); ((-1898504837292045), (-22)); (69307190495751868, (-23)); (99999999999975919, (-17)); (33063786014808871, (-24)); (18985046081357782, (-23)); ((-33063917577866908), (-24)); (99999999999998146, (-17))];
  [(24515452037087996, (-10)); (27130865971219631, (-17)); (99999999999999423, (-17)); ((-7078279744199198), (-23)); (80562171469761338, (-24)); (70782794778573375, (-24)); (99999999999999689, (-17)); (33060414542221364, (-24)); ((-80562173809869717), (-24)); ((-33060408839805517), (-24)); (99999999999999623, (-17)); (99999999999994971, (-17)); ((-29080287858779126), (-23)); ((-126366944030765), (-21)); (29080287858799237, (-23)); (99999999999995781, (-17)); (15729925488205766, (-28)); (12636694403030222, (-23)); ((-16097678745552457), (-28)); (99999999999999201, (-17)); (99999999999993361, (-17)); ((-36158567185203596), (-23)); ((-45804782175070946), (-24)); (36158567336643431, (-23)); (99999999999993416, (-17)); (33062010962480155, (-24)); (45804770220318463, (-24)); ((-33062027552285612), (-24)); (99999999999999845, (-17))];
  [(24515454189822208, (-10)); (16909660879153432, (-17)); (99999999999999423, (-17)); ((-7078279744199198), (-23)); (80562171469761338, (-24)); (70782794778573375, (-24)); (99999999999999689, (-17)); (33060414542221364, (-24)); ((-80562173809869717), (-24)); ((-33060408839805517), (-24)); (99999999999999623, (-17)); (99999999999992295, (-17)); ((-36001838102858775), (-23)); ((-15644419599213423), (-23)); (36001838102889607, (-23)); (99999999999993527, (-17)); (19419644469814512, (-28)); (15644419599142492, (-23)); ((-19984014443252818), (-28)); (99999999999998779, (-17)); (9999999999999043, (-16)); ((-43080117329846412), (-23)); ((-75882036424735436), (-24)); (43080117580730635, (-23)); (99999999999990663, (-17)); (33062385510528749, (-24)); (75882022181413829, (-24)); ((-33062418314807275), (-24)); (99999999999999667, (-17))];
  [(24515458723617848, (-10)); (45807444070596104, (-17)); (99999999999999423, (-17)); ((-7078279744199198), (-23)); (80562171469761338, (-24)); (70782794778573375, (-24)); (99999999999999689, (-17)); (33060414542221364, (-24)); ((-80562173809869717), (-24)); ((-33060408839805517), (-24)); (99999999999999623, (-17)); (99999999999960576, (-17)); ((-81448519280668989), (-23)); ((-35393048387304093), (-23)); (81448519280826749, (-23)); (99999999999966849, (-17)); (4313154363078035, (-27)); (3539304838694106, (-22)); ((-46013748367101925), (-28)); (99999999999993738, (-17)); (9999999999995709, (-16)); ((-88526797854756499), (-23)); ((-27336833933052817), (-23)); (88526798758646522, (-23)); (99999999999960776, (-17)); (33064793313269248, (-24)); (27336831005921817, (-23)); ((-33065035266829904), (-24)); (99999999999996214, (-17))];
  [(24515458021123339, (-10)); (17201956385454531, (-17)); (99999999999999423, (-17)); ((-7078279744199198), (-23)); (80562171469761338, (-24)); (70782794778573375, (-24)); (99999999999999689, (-17)); (33060414542221364, (-24)); ((-80562173809869717), (-24)); ((-33060408839805517), (-24)); (99999999999999623, (-17)); (99999999999978861, (-17)); ((-59635778780024072), (-23)); ((-25914430774614839), (-23)); (59635778780108649, (-23)); (99999999999982225, (-17)); (31863050934050731, (-28)); (25914430774420212, (-23)); ((-33407721033995585), (-28)); (99999999999996647, (-17)); (99999999999976152, (-17)); ((-66714057667479902), (-23)); ((-17858215599223884), (-23)); (66714058257938713, (-23)); (99999999999977696, (-17)); (33063648891187251, (-24)); (17858213393409714, (-23)); ((-33063767954866845), (-24)); (99999999999998357, (-17))];
  [(24515456995352097, (-10)); (45832484044916122, (-17)); (99999999999999423, (-17)); ((-7078279744199198), (-23)); (80562171469761338, (-24)); (70782794778573375, (-24)); (99999999999999689, (-17)); (33060414542221364, (-24)); ((-80562173809869717), (-24)); ((-33060408839805517), (-24)); (99999999999999623, (-17)); (99999999999970135, (-17)); ((-70883507735869026), (-23)); ((-30802075316126693), (-23)); (70883507735988521, (-23)); (99999999999974887, (-17)); (37700397833214126, (-28)); (30802075315851725, (-23)); ((-39883096825121811), (-28)); (99999999999995259, (-17)); (99999999999967026, (-17)); ((-77961786461736687), (-23)); ((-22745860512590999), (-23)); (77961787213813291, (-23)); (99999999999969558, (-17)); (33064241687289427, (-24)); (22745857934836721, (-23)); ((-33064418952057037), (-24)); (99999999999997369, (-17))];
  [(24515455639208965, (-10)); (29934681200820901, (-17)); (99999999999999423, (-17)); ((-7078279744199198), (-23)); (80562171469761338, (-24)); (70782794778573375, (-24)); (99999999999999689, (-17)); (33060414542221364, (-24)); ((-80562173809869717), (-24)); ((-33060408839805517), (-24)); (99999999999999623, (-17)); (99999999999983402, (-17)); ((-52848738617099423), (-23)); ((-22965156296759106), (-23)); (52848738617165841, (-23)); (99999999999986044, (-17)); (28314574228356055, (-28)); (22965156296606262, (-23)); ((-29528046674442976), (-28)); (99999999999997369, (-17)); (99999999999980937, (-17)); ((-5992701760205982), (-22)); ((-1490894089698543), (-22)); (59927018094999082, (-23)); (99999999999981992, (-17)); (33063288575731016, (-24)); (14908938915598469, (-23)); ((-33063377899852156), (-24)); (99999999999998845, (-17))];
  [(24515456726850178, (-10)); (96717342218704538, (-18)); (99999999999999423, (-17)); ((-7078279744199198), (-23)); (80562171469761338, (-24)); (70782794778573375, (-24)); (99999999999999689, (-17)); (33060414542221364, (-24)); ((-80562173809869717), (-24)); ((-33060408839805517), (-24)); (99999999999999623, (-17)); (99999999999986822, (-17)); ((-4710235745422159), (-22)); ((-2046809499376685), (-22)); (47102357454274349, (-23)); (99999999999988909, (-17)); (25294751670342167, (-28)); (20468094993645438, (-23)); ((-2625843986692189), (-27)); (99999999999997913, (-17)); (99999999999984568, (-17)); ((-5418063652173612), (-22)); ((-12411879404015163), (-23)); (54180636932110253, (-23)); (99999999999985267, (-17)); (33062981964066716, (-24)); (12411877612639927, (-23)); ((-33063049171681742), (-24)); (9999999999999919, (-16))];
  [(24515451958911782, (-10)); (94635752913911009, (-17)); (99999999999999423, (-17)); ((-7078279744199198), (-23)); (80562171469761338, (-24)); (70782794778573375, (-24)); (99999999999999689, (-17)); (33060414542221364, (-24)); ((-80562173809869717), (-24)); ((-33060408839805517), (-24)); (99999999999999623, (-17)); (99999999999970934, (-17)); ((-69927790551184806), (-23)); ((-30386773179295228), (-23)); (69927790551301093, (-23)); (99999999999975553, (-17)); (37204549453977121, (-28)); (30386773179027635, (-23)); ((-39330205758858483), (-28)); (99999999999995381, (-17)); (99999999999967848, (-17)); ((-77006069290782574), (-23)); ((-22330558344163061), (-23)); (77006070029126318, (-23)); (9999999999997029, (-16)); (33064191332505214, (-24)); (22330555798013018, (-23)); ((-33064363368987984), (-24)); (99999999999997446, (-17))];
  [(2451545017699359, (-9)); (88956289836757041, (-17)); (99999999999999423, (-17)); ((-7078279744199198), (-23)); (80562171469761338, (-24)); (70782794778573375, (-24)); (99999999999999689, (-17)); (33060414542221364, (-24)); ((-80562173809869717), (-24)); ((-33060408839805517), (-24)); (99999999999999623, (-17)); (99999999999981659, (-17)); ((-55542058901173993), (-23)); ((-24135525204461086), (-23)); (55542058901247346, (-23)); (99999999999984579, (-17)); (29724847715877889, (-28)); (24135525204292262, (-23)); ((-31065150452036505), (-28)); (99999999999997091, (-17)); (99999999999979095, (-17)); ((-62620337847441395), (-23)); ((-1607930989372983), (-22)); (62620338379079327, (-23)); (99999999999980338, (-17)); (33063431772876587, (-24)); (16079307823283395, (-23)); ((-33063532438649677), (-24)); (99999999999998657, (-17))];
  [(24515456809575818, (-10)); (91257721849905771, (-18)); (99999999999999423, (-17)); ((-7078279744199198), (-23)); (80562171469761338, (-24)); (70782794778573375, (-24)); (99999999999999689, (-17)); (33060414542221364, (-24)); ((-80562173809869717), (-24)); ((-33060408839805517), (-24)); (99999999999999623, (-17)); (99999999999986722, (-17)); ((-47274564203208642), (-23)); ((-2054292657861548), (-22)); (47274564203261793, (-23)); (99999999999988831, (-17)); (25385806116920827, (-28)); (20542926578493179, (-23)); ((-26356694604601216), (-28)); (99999999999997891, (-17)); (99999999999984457, (-17)); ((-54352843268249201), (-23)); ((-12486710994557028), (-23)); (54352843681097612, (-23)); (99999999999985179, (-17)); (3306299120824484, (-23)); (12486709197487602, (-23)); ((-33063059050123392), (-24)); (99999999999999167, (-17))];
  [(24515450776453894, (-10)); (14413641677356048, (-17)); (99999999999999423, (-17)); ((-7078279744199198), (-23)); (80562171469761338, (-24)); (70782794778573375, (-24)); (99999999999999689, (-17)); (33060414542221364, (-24)); ((-80562173809869717), (-24)); ((-33060408839805517), (-24)); (99999999999999623, (-17)); (99999999999998901, (-17)); ((-13577350947675996), (-23)); ((-58999703227054944), (-24)); (13577350947680379, (-23)); (99999999999999079, (-17)); (73898277336735341, (-29)); (58999703226954068, (-24)); ((-74701356211903658), (-29)); (99999999999999822, (-17)); (99999999999997835, (-17)); ((-20655630496819644), (-23)); (21562463753977223, (-24)); (2065563042553162, (-22)); (99999999999997802, (-17)); (33061164463203183, (-24)); ((-21562470582968714), (-24)); ((-33061160029531617), (-24)); (99999999999999922, (-17))];
  [(24515456530617098, (-10)); (29103459135816534, (-17)); (99999999999999423, (-17)); ((-7078279744199198), (-23)); (80562171469761338, (-24)); (70782794778573375, (-24)); (99999999999999689, (-17)); (33060414542221364, (-24)); ((-80562173809869717), (-24)); ((-33060408839805517), (-24)); (99999999999999623, (-17)); (99999999999980149, (-17)); ((-57797017301416591), (-23)); ((-25115406138933915), (-23)); (57797017301496043, (-23)); (99999999999983302, (-17)); (30903603556269054, (-28)); (2511540613875111, (-22)); ((-32354674495138624), (-28)); (99999999999996858, (-17)); (99999999999977507, (-17)); ((-64875296215288615), (-23)); ((-17059190902752636), (-23)); (64875296779326965, (-23)); (99999999999978906, (-17)); (33063551465103657, (-24)); (17059188757741348, (-23)); ((-33063662084641047), (-24)); (99999999999998501, (-17))];
  [(24515452415781985, (-10)); (80624418886737348, (-17)); (99999999999999423, (-17)); ((-7078279744199198), (-23)); (80562171469761338, (-24)); (70782794778573375, (-24)); (99999999999999689, (-17)); (33060414542221364, (-24)); ((-80562173809869717), (-24)); ((-33060408839805517), (-24)); (99999999999999623, (-17)); (99999999999975531, (-17)); ((-64147067017848142), (-23)); ((-27874788590099428), (-23)); (64147067017946006, (-23)); (99999999999979416, (-17)); (34210062493110515, (-28)); (27874788589874249, (-23)); ((-35997871350446076), (-28)); (99999999999996114, (-17)); (99999999999972655, (-17)); ((-71225345840493499), (-23)); ((-19818573563853784), (-23)); (71225346495773953, (-23)); (99999999999974565, (-17)); (33063887226733996, (-24)); (19818571208861951, (-23)); ((-33064028357494424), (-24)); (99999999999997979, (-17))];
  [(24515452527626948, (-10)); (61960095932190784, (-17)); (99999999999999423, (-17)); ((-7078279744199198), (-23)); (80562171469761338, (-24)); (70782794778573375, (-24)); (99999999999999689, (-17)); (33060414542221364, (-24)); ((-80562173809869717), (-24)); ((-33060408839805517), (-24)); (99999999999999623, (-17)); (99999999999983047, (-17)); ((-53405587035281019), (-23)); ((-23207132002031681), (-23)); (53405587035348835, (-23)); (99999999999985745, (-17)); (28606066598396389, (-28)); (23207132001875602, (-23)); ((-29845570459485771), (-28)); (99999999999997313, (-17)); (9999999999998056, (-16)); ((-60483866012241571), (-23)); ((-15150916620667673), (-23)); (60483866513181811, (-23)); (99999999999981659, (-17)); (33063318173577094, (-24)); (15150914620867587, (-23)); ((-33063409823507816), (-24)); (99999999999998801, (-17))];
  [(24515455821317481, (-10)); (31772999184876871, (-17)); (99999999999999423, (-17)); ((-7078279744199198), (-23)); (80562171469761338, (-24)); (70782794778573375, (-24)); (99999999999999689, (-17)); (33060414542221364, (-24)); ((-80562173809869717), (-24)); ((-33060408839805517), (-24)); (99999999999999623, (-17)); (99999999999981959, (-17)); ((-55089003597760038), (-23)); ((-23938652280194889), (-23)); (55089003597832215, (-23)); (99999999999984834, (-17)); (29487765267419171, (-28)); (23938652280028812, (-23)); ((-30806468487298844), (-28)); (99999999999997136, (-17)); (99999999999979416, (-17)); ((-62167282550536157), (-23)); ((-15882436954485414), (-23)); (62167283075664397, (-23)); (99999999999980627, (-17)); (33063407699640629, (-24)); (15882434899020127, (-23)); ((-33063506431101057), (-24)); (9999999999999869, (-16))];
  [(24515459097225904, (-10)); (71252810633344743, (-17)); (99999999999999423, (-17)); ((-7078279744199198), (-23)); (80562171469761338, (-24)); (70782794778573375, (-24)); (99999999999999689, (-17)); (33060414542221364, (-24)); ((-80562173809869717), (-24)); ((-33060408839805517), (-24)); (99999999999999623, (-17)); (99999999999941369, (-17)); ((-99313228949757086), (-23)); ((-43156068818437672), (-23)); (9931322894999163, (-22)); (99999999999950673, (-17)); (52206386565651131, (-28)); (43156068817897916, (-23)); ((-56492033273514153), (-28)); (99999999999990696, (-17)); (99999999999937239, (-17)); ((-10639150726719452), (-22)); ((-35099854954802617), (-23)); (10639150842780286, (-22)); (99999999999943334, (-17)); (33065715189755423, (-24)); (35099851436871462, (-23)); ((-33066088590202567), (-24)); (99999999999993794, (-17))];
  [(24515451779004754, (-10)); (51765862194435075, (-17)); (99999999999999423, (-17)); ((-7078279744199198), (-23)); (80562171469761338, (-24)); (70782794778573375, (-24)); (99999999999999689, (-17)); (33060414542221364, (-24)); ((-80562173809869717), (-24)); ((-33060408839805517), (-24)); (99999999999999623, (-17)); (9999999999998922, (-16)); ((-42581716560825846), (-23)); ((-1850367301297746), (-22)); (4258171656086897, (-22)); (99999999999990941, (-17)); (22908479300302672, (-28)); (18503673012878232, (-23)); ((-23697155349111654), (-28)); (9999999999999829, (-16)); (99999999999987121, (-17)); ((-49659995693285145), (-23)); ((-10447457273771327), (-23)); (49659996038706971, (-23)); (99999999999987621, (-17)); (33062739694903907, (-24)); (10447455631874519, (-23)); ((-33062791652757251), (-24)); (999999999999994, (-15))];
  [(24515459164086157, (-10)); (29923188002799783, (-17)); (99999999999999423, (-17)); ((-7078279744199198), (-23)); (80562171469761338, (-24)); (70782794778573375, (-24)); (99999999999999689, (-17)); (33060414542221364, (-24)); ((-80562173809869717), (-24)); ((-33060408839805517), (-24)); (99999999999999623, (-17)); (99999999999967071, (-17)); ((-74420792487702454), (-23)); ((-32339184764442152), (-23)); (74420792487834167, (-23)); (999999999999723, (-15)); (39523339942928947, (-28)); (32339184764139062, (-23)); ((-419303480825306), (-26)); (99999999999994782, (-17)); (9999999999996384, (-16)); ((-81499071162752415), (-23)); ((-24282970077850796), (-23)); (81499071965657275, (-23)); (99999999999966727, (-17)); (33064426831212954, (-24)); (24282967383122646, (-23)); ((-33064624765191689), (-24)); (99999999999997014, (-17))];
  [(24515453291147277, (-10)); (9964764453750472, (-16)); (99999999999999423, (-17)); ((-7078279744199198), (-23)); (80562171469761338, (-24)); (70782794778573375, (-24)); (99999999999999689, (-17)); (33060414542221364, (-24)); ((-80562173809869717), (-24)); ((-33060408839805517), (-24)); (99999999999999623, (-17)); (99999999999960854, (-17)); ((-81151908030058081), (-23)); ((-35264157448078528), (-23)); (81151908030214687, (-23)); (99999999999967071, (-17)); (42978840014330821, (-28)); (35264157447718131, (-23)); ((-45841108686772714), (-28)); (99999999999993783, (-17)); (99999999999957379, (-17)); ((-88230186608406791), (-23)); ((-27207942984021135), (-23)); (88230187508034608, (-23)); (9999999999996102, (-16)); (33064777803951207, (-24)); (27207940066699009, (-23)); ((-33065017911629269), (-24)); (99999999999996247, (-17))];
  [(2451545336389225, (-9)); (73200121101547344, (-17)); (99999999999999423, (-17)); ((-7078279744199198), (-23)); (80562171469761338, (-24)); (70782794778573375, (-24)); (99999999999999689, (-17)); (33060414542221364, (-24)); ((-80562173809869717), (-24)); ((-33060408839805517), (-24)); (99999999999999623, (-17)); (99999999999974576, (-17)); ((-65406230804464962), (-23)); ((-28421951936056476), (-23)); (65406230804566691, (-23)); (99999999999978617, (-17)); (34864146041674487, (-28)); (28421951935822367, (-23)); ((-36722846985526303), (-28)); (99999999999995959, (-17)); (99999999999971656, (-17)); ((-72484509609020809), (-23)); ((-20365736951439389), (-23)); (72484510282394045, (-23)); (99999999999973677, (-17)); (33063953649498272, (-24)); (20365734554809563, (-23)); ((-33064101242355403), (-24)); (99999999999997868, (-17))];
  [(24515458986125505, (-10)); (39225780257810361, (-17)); (99999999999999423, (-17)); ((-7078279744199198), (-23)); (80562171469761338, (-24)); (70782794778573375, (-24)); (99999999999999689, (-17)); (33060414542221364, (-24)); ((-80562173809869717), (-24)); ((-33060408839805517), (-24)); (99999999999999623, (-17)); (99999999999962874, (-17)); ((-79026319930300814), (-23)); ((-3434049374289822), (-22)); (7902631993044933, (-22)); (99999999999968769, (-17)); (41889372720614887, (-28)); (34340493742556458, (-23)); ((-44603765125827977), (-28)); (99999999999994105, (-17)); (99999999999959466, (-17)); ((-86104598539186374), (-23)); ((-26284279208567845), (-23)); (86104599408270257, (-23)); (99999999999962863, (-17)); (33064667144802474, (-24)); (26284276361538194, (-23)); ((-33064893523478274), (-24)); (99999999999996492, (-17))];
  [(24515455318803848, (-10)); (18483534774397126, (-18)); (99999999999999423, (-17)); ((-7078279744199198), (-23)); (80562171469761338, (-24)); (70782794778573375, (-24)); (99999999999999689, (-17)); (33060414542221364, (-24)); ((-80562173809869717), (-24)); ((-33060408839805517), (-24)); (99999999999999623, (-17)); (9999999999999325, (-16)); ((-33692953606989917), (-23)); ((-14641105338546567), (-23)); (33692953607016911, (-23)); (99999999999994316, (-17)); (18192132927133851, (-28)); (14641105338484442, (-23)); ((-18685053504441385), (-28)); (99999999999998934, (-17)); (99999999999991462, (-17)); ((-40771232867147602), (-23)); ((-65848893054739351), (-24)); (40771233084858998, (-23)); (99999999999991618, (-17)); (33062260899287255, (-24)); (65848879574842451, (-24)); ((-33062287708539544), (-24)); (99999999999999734, (-17))];
  [(24515454426491437, (-10)); (79386785051454423, (-17)); (99999999999999423, (-17)); ((-7078279744199198), (-23)); (80562171469761338, (-24)); (70782794778573375, (-24)); (99999999999999689, (-17)); (33060414542221364, (-24)); ((-80562173809869717), (-24)); ((-33060408839805517), (-24)); (99999999999999623, (-17)); (99999999999965938, (-17)); ((-75698839402305799), (-23)); ((-32894553676890427), (-23)); (75698839402442065, (-23)); (99999999999971334, (-17)); (40181337837024495, (-28)); (32894553676576834, (-23)); ((-42671421951467892), (-28)); (99999999999994582, (-17)); (99999999999962652, (-17)); ((-82777118058994966), (-23)); ((-24838339032551923), (-23)); (8277711888026457, (-22)); (99999999999965661, (-17)); (33064493660624387, (-24)); (24838336295559909, (-23)); ((-33064699265684171), (-24)); (99999999999996858, (-17))];
  [(24515458285162542, (-10)); (54466389058961118, (-17)); (99999999999999423, (-17)); ((-7078279744199198), (-23)); (80562171469761338, (-24)); (70782794778573375, (-24)); (99999999999999689, (-17)); (33060414542221364, (-24)); ((-80562173809869717), (-24)); ((-33060408839805517), (-24)); (99999999999999623, (-17)); (99999999999958, (-14)); ((-84065276782339758), (-23)); ((-36530147304471282), (-23)); (8406527678250782, (-22)); (99999999999964673, (-17)); (44468682760329828, (-28)); (36530147304084548, (-23)); ((-47540305025961516), (-28)); (99999999999993339, (-17)); (99999999999954414, (-17)); ((-91143555318834114), (-23)); ((-28473932936731292), (-23)); (91143556260326344, (-23)); (99999999999958411, (-17)); (33064929135298147, (-24)); (28473929923064251, (-23)); ((-33065188727366084), (-24)); (99999999999995903, (-17))];
  [(24515456101192622, (-10)); (79519787576758338, (-17)); (99999999999999423, (-17)); ((-7078279744199198), (-23)); (80562171469761338, (-24)); (70782794778573375, (-24)); (99999999999999689, (-17)); (33060414542221364, (-24)); ((-80562173809869717), (-24)); ((-33060408839805517), (-24)); (99999999999999623, (-17)); (99999999999956002, (-17)); ((-86032684534189873), (-23)); ((-37385074526600813), (-23)); (86032684534365876, (-23)); (99999999999962985, (-17)); (45473212205141918, (-28)); (37385074526195762, (-23)); ((-4868883074493624), (-27)); (99999999999993006, (-17)); (99999999999952338, (-17)); ((-9311096304241984), (-22)); ((-29328860223904293), (-23)); (93110964012183457, (-23)); (99999999999956579, (-17)); (33065031173228473, (-24)); (29328857145174676, (-23)); ((-33065304185079276), (-24)); (99999999999995637, (-17))];
  [(2451545392230785, (-9)); (11566264780334878, (-17)); (99999999999999423, (-17)); ((-7078279744199198), (-23)); (80562171469761338, (-24)); (70782794778573375, (-24)); (99999999999999689, (-17)); (33060414542221364, (-24)); ((-80562173809869717), (-24)); ((-33060408839805517), (-24)); (99999999999999623, (-17)); (99999999999994249, (-17)); ((-31092935518381068), (-23)); ((-13511280423565447), (-23)); (31092935518404055, (-23)); (99999999999995159, (-17)); (16805296896519291, (-28)); (13511280423512542, (-23)); ((-17225110227059304), (-28)); (9999999999999909, (-16)); (99999999999992562, (-17)); ((-38171214815891313), (-23)); ((-54550643045350632), (-24)); (38171214996247333, (-23)); (9999999999999265, (-16)); (33062120121053443, (-24)); (54550630425133742, (-24)); ((-33062140914490181), (-24)); (999999999999998, (-15))];
  [(24515450935750068, (-10)); (98559095110057893, (-17)); (99999999999999423, (-17)); ((-7078279744199198), (-23)); (80562171469761338, (-24)); (70782794778573375, (-24)); (99999999999999689, (-17)); (33060414542221364, (-24)); ((-80562173809869717), (-24)); ((-33060408839805517), (-24)); (99999999999999623, (-17)); (99999999999974054, (-17)); ((-6606590189159741), (-22)); ((-28708608718075763), (-23)); (66065901891701214, (-23)); (99999999999978173, (-17)); (35206736072430756, (-28)); (28708608717836905, (-23)); ((-37103098371460419), (-28)); (99999999999995881, (-17)); (99999999999971112, (-17)); ((-73144180686676228), (-23)); ((-20652393755267715), (-23)); (7314418136952826, (-22)); (99999999999973188, (-17)); (33063988439946557, (-24)); (20652391336823839, (-23)); ((-33064139470397655), (-24)); (99999999999997813, (-17))];
  [(24515457167221177, (-10)); (21546616232863969, (-17)); (99999999999999423, (-17)); ((-7078279744199198), (-23)); (80562171469761338, (-24)); (70782794778573375, (-24)); (99999999999999689, (-17)); (33060414542221364, (-24)); ((-80562173809869717), (-24)); ((-33060408839805517), (-24)); (99999999999999623, (-17)); (99999999999980649, (-17)); ((-57068015283892048), (-23)); ((-24798621945559751), (-23)); (57068015283969499, (-23)); (99999999999983724, (-17)); (30522713805311579, (-28)); (2479862194538153, (-22)); ((-31937785749391878), (-28)); (99999999999996925, (-17)); (99999999999978029, (-17)); ((-64146294208237115), (-23)); ((-16742406685277322), (-23)); (6414629476180077, (-22)); (99999999999979372, (-17)); (33063512788828841, (-24)); (16742404564372059, (-23)); ((-33063620171537779), (-24)); (99999999999998546, (-17))];
  [(24515459288597889, (-10)); (96736828306764422, (-17)); (99999999999999423, (-17)); ((-7078279744199198), (-23)); (80562171469761338, (-24)); (70782794778573375, (-24)); (99999999999999689, (-17)); (33060414542221364, (-24)); ((-80562173809869717), (-24)); ((-33060408839805517), (-24)); (99999999999999623, (-17)); (99999999999919897, (-17)); ((-11608596221721381), (-22)); ((-50444576295634919), (-23)); (11608596221753426, (-22)); (99999999999932632, (-17)); (60599933915089206, (-28)); (5044457629489745, (-22)); ((-6645572980801262), (-27)); (99999999999987277, (-17)); (99999999999915168, (-17)); ((-12316424029368865), (-22)); ((-42388362986515081), (-23)); (12316424169533734, (-22)); (99999999999924105, (-17)); (33066568056962531, (-24)); (42388358913864167, (-23)); ((-33067090118864368), (-24)); (99999999999990963, (-17))];
  [(24515459159830068, (-10)); (22679816618682158, (-17)); (99999999999999423, (-17)); ((-7078279744199198), (-23)); (80562171469761338, (-24)); (70782794778573375, (-24)); (99999999999999689, (-17)); (33060414542221364, (-24)); ((-80562173809869717), (-24)); ((-33060408839805517), (-24)); (99999999999999623, (-17)); (99999999999970901, (-17)); ((-69960387784303593), (-23)); ((-30400938144400859), (-23)); (69960387784419975, (-23)); (9999999999997552, (-16)); (37221762444497599, (-28)); (30400938144133012, (-23)); ((-39349079550277111), (-28)); (99999999999995381, (-17)); (99999999999967826, (-17)); ((-77038666523433069), (-23)); ((-22344723310346375), (-23)); (77038667262245191, (-23)); (99999999999970257, (-17)); (33064193080065289, (-24)); (22344720763118384, (-23)); ((-33064365266393481), (-24)); (99999999999997458, (-17))];
  [(24515450006615184, (-10)); (3850209147410234, (-16)); (99999999999999423, (-17)); ((-7078279744199198), (-23)); (80562171469761338, (-24)); (70782794778573375, (-24)); (99999999999999689, (-17)); (33060414542221364, (-24)); ((-80562173809869717), (-24)); ((-33060408839805517), (-24)); (99999999999999623, (-17)); (9999999999999668, (-16)); ((-23611250389638015), (-23)); ((-10260151394430817), (-23)); (23611250389651274, (-23)); (99999999999997213, (-17)); (12800315527716755, (-28)); (10260151394400307, (-23)); ((-13042900093296339), (-28)); (99999999999999478, (-17)); (99999999999995248, (-17)); ((-30689529794632105), (-23)); ((-22039350280526382), (-24)); (30689529867497966, (-23)); (99999999999995226, (-17)); (3306171359550924, (-23)); (22039340134040852, (-24)); ((-33061720392236856), (-24)); (99999999999999922, (-17))];
  [(24515458460160005, (-10)); (5302307410089051, (-16)); (99999999999999423, (-17)); ((-7078279744199198), (-23)); (80562171469761338, (-24)); (70782794778573375, (-24)); (99999999999999689, (-17)); (33060414542221364, (-24)); ((-80562173809869717), (-24)); ((-33060408839805517), (-24)); (99999999999999623, (-17)); (99999999999957812, (-17)); ((-84253012022315631), (-23)); ((-36611726716325966), (-23)); (84253012022484434, (-23)); (99999999999964506, (-17)); (44564748468715551, (-28)); (36611726715937495, (-23)); ((-47649661993887094), (-28)); (99999999999993294, (-17)); (99999999999954226, (-17)); ((-91331290556112917), (-23)); ((-28555512354792599), (-23)); (91331291500302873, (-23)); (99999999999958233, (-17)); (33064938893112518, (-24)); (28555509334917124, (-23)); ((-33065199720807051), (-24)); (9999999999999587, (-16))];
  [(24515455255112308, (-10)); (26189382017894813, (-17)); (99999999999999423, (-17)); ((-7078279744199198), (-23)); (80562171469761338, (-24)); (70782794778573375, (-24)); (99999999999999689, (-17)); (33060414542221364, (-24)); ((-80562173809869717), (-24)); ((-33060408839805517), (-24)); (99999999999999623, (-17)); (99999999999986189, (-17)); ((-48204471555067422), (-23)); ((-20947013185520357), (-23)); (48204471555122681, (-23)); (99999999999988376, (-17)); (25874947633578443, (-28)); (20947013185393196, (-23)); ((-26884605652810478), (-28)); (99999999999997802, (-17)); (99999999999983891, (-17)); ((-55282750606748678), (-23)); ((-12890797632205069), (-23)); (55282751032958071, (-23)); (99999999999984657, (-17)); (33063040871549908, (-24)); (12890795804387251, (-23)); ((-33063112127251982), (-24)); (99999999999999112, (-17))];
  [(24515458098275135, (-10)); (2809752345230162, (-16)); (99999999999999423, (-17)); ((-7078279744199198), (-23)); (80562171469761338, (-24)); (70782794778573375, (-24)); (99999999999999689, (-17)); (33060414542221364, (-24)); ((-80562173809869717), (-24)); ((-33060408839805517), (-24)); (99999999999999623, (-17)); (99999999999973488, (-17)); ((-66778299309782756), (-23)); ((-2901817746428069), (-22)); (66778299309888805, (-23)); (99999999999977696, (-17)); (35575424208093568, (-28)); (29018177464036659, (-23)); ((-37512770667547102), (-28)); (99999999999995781, (-17)); (99999999999970524, (-17)); ((-73856578094627055), (-23)); ((-20961962525024838), (-23)); (73856578787715523, (-23)); (99999999999972655, (-17)); (33064025882682793, (-24)); (20961960083023303, (-23)); ((-33064180656748652), (-24)); (99999999999997746, (-17))];
  [(24515458904889505, (-10)); (4088662252725751, (-16)); (99999999999999423, (-17)); ((-7078279744199198), (-23)); (80562171469761338, (-24)); (70782794778573375, (-24)); (99999999999999689, (-17)); (33060414542221364, (-24)); ((-80562173809869717), (-24)); ((-33060408839805517), (-24)); (99999999999999623, (-17)); (99999999999962386, (-17)); ((-79545755770193042), (-23)); ((-3456621199598347), (-22)); (79545755770343506, (-23)); (99999999999968359, (-17)); (4215590813884382, (-27)); (34566211995637198, (-23)); ((-44905190677013707), (-28)); (99999999999994027, (-17)); (99999999999958966, (-17)); ((-86624034371616231), (-23)); ((-26509997478825894), (-23)); (86624035248164179, (-23)); (99999999999962419, (-17)); (33064694216812946, (-24)); (26509994614618722, (-23)); ((-3306492382580307), (-23)); (99999999999996436, (-17))];
  [(24515454496691893, (-10)); (54220311429758183, (-17)); (99999999999999423, (-17)); ((-7078279744199198), (-23)); (80562171469761338, (-24)); (70782794778573375, (-24)); (99999999999999689, (-17)); (33060414542221364, (-24)); ((-80562173809869717), (-24)); ((-33060408839805517), (-24)); (99999999999999623, (-17)); (99999999999978084, (-17)); ((-60721835941310833), (-23)); ((-26386371500552632), (-23)); (60721835941398522, (-23)); (9999999999998157, (-16)); (32428284414291036, (-28)); (26386371500350853, (-23)); ((-34031111262322611), (-28)); (99999999999996514, (-17)); (99999999999975331, (-17)); ((-67800114813164061), (-23)); ((-18330156361067231), (-23)); (67800115419228089, (-23)); (99999999999976963, (-17)); (33063706289486291, (-24)); (18330154119339921, (-23)); ((-33063830627942492), (-24)); (99999999999998257, (-17))];
  [(24515459315101723, (-10)); (88310595122081725, (-18)); (99999999999999423, (-17)); ((-7078279744199198), (-23)); (80562171469761338, (-24)); (70782794778573375, (-24)); (99999999999999689, (-17)); (33060414542221364, (-24)); ((-80562173809869717), (-24)); ((-33060408839805517), (-24)); (99999999999999623, (-17)); (9999999999997683, (-16)); ((-62432824387499759), (-23)); ((-27129873000867769), (-23)); (62432824387592467, (-23)); (99999999999980504, (-17)); (33320003002879022, (-28)); (2712987300065446, (-22)); ((-35013658639115874), (-28)); (99999999999996325, (-17)); (99999999999974021, (-17)); ((-6951110323477243), (-22)); ((-19073657917948457), (-23)); (69511103865421229, (-23)); (99999999999975775, (-17)); (33063796839754246, (-24)); (19073655619642845, (-23)); ((-33063929408951264), (-24)); (99999999999998135, (-17))];
  [(24515456284056576, (-10)); (57690900756110153, (-17)); (99999999999999423, (-17)); ((-7078279744199198), (-23)); (80562171469761338, (-24)); (70782794778573375, (-24)); (99999999999999689, (-17)); (33060414542221364, (-24)); ((-80562173809869717), (-24)); ((-33060408839805517), (-24)); (99999999999999623, (-17)); (99999999999967637, (-17)); ((-7378865124118604), (-22)); ((-32064490938468521), (-23)); (73788651241315509, (-23)); (99999999999972766, (-17)); (39197396336909946, (-28)); (32064490938170561, (-23)); ((-41563419372891985), (-28)); (9999999999999486, (-16)); (99999999999964428, (-17)); ((-80866929925317539), (-23)); ((-24008276230978269), (-23)); (80866930719138924, (-23)); (99999999999967237, (-17)); (33064393727585784, (-24)); (24008273557154399, (-23)); ((-33064587877884775), (-24)); (99999999999997069, (-17))];
  [(24515453143970561, (-10)); (2161769649625388, (-16)); (99999999999999423, (-17)); ((-7078279744199198), (-23)); (80562171469761338, (-24)); (70782794778573375, (-24)); (99999999999999689, (-17)); (33060414542221364, (-24)); ((-80562173809869717), (-24)); ((-33060408839805517), (-24)); (99999999999999623, (-17)); (99999999999993727, (-17)); ((-3248142772349859), (-22)); ((-14114642798200516), (-23)); (32481427723523673, (-23)); (99999999999994715, (-17)); (17545348305772216, (-28)); (14114642798142783, (-23)); ((-18003931678833851), (-28)); (99999999999999001, (-17)); (99999999999991984, (-17)); ((-39559707001061383), (-23)); ((-60584267250743005), (-24)); (39559707201366316, (-23)); (99999999999992106, (-17)); (33062195244793694, (-24)); (60584254171430671, (-24)); ((-33062219223712091), (-24)); (99999999999999756, (-17))];
  [(24515457061103606, (-10)); (44211937957133773, (-17)); (99999999999999423, (-17)); ((-7078279744199198), (-23)); (80562171469761338, (-24)); (70782794778573375, (-24)); (99999999999999689, (-17)); (33060414542221364, (-24)); ((-80562173809869717), (-24)); ((-33060408839805517), (-24)); (99999999999999623, (-17)); (99999999999970623, (-17)); ((-7029394584574274), (-22)); ((-30545884136699409), (-23)); (70293945845860244, (-23)); (99999999999975298, (-17)); (37394448637669269, (-28)); (30545884136429004, (-23)); ((-39542258356561888), (-28)); (99999999999995337, (-17)); (99999999999967537, (-17)); ((-77372224580080222), (-23)); ((-22489669313672512), (-23)); (77372225323685311, (-23)); (99999999999970013, (-17)); (33064210617406152, (-24)); (22489666755414244, (-23)); ((-33064384686870929), (-24)); (99999999999997424, (-17))];
  [(24515457409607666, (-10)); (67391835148176737, (-17)); (99999999999999423, (-17)); ((-7078279744199198), (-23)); (80562171469761338, (-24)); (70782794778573375, (-24)); (99999999999999689, (-17)); (33060414542221364, (-24)); ((-80562173809869717), (-24)); ((-33060408839805517), (-24)); (99999999999999623, (-17)); (99999999999955402, (-17)); ((-86618063306655848), (-23)); ((-37639447951262116), (-23)); (86618063306834276, (-23)); (99999999999962497, (-17)); (45771407569541721, (-28)); (37639447950851532, (-23)); ((-49031334548033101), (-28)); (99999999999992917, (-17)); (99999999999951728, (-17)); ((-93696341806476081), (-23)); ((-29583233667918514), (-23)); (93696342784651582, (-23)); (99999999999956057, (-17)); (33065061464358604, (-24)); (29583230569830208, (-23)); ((-33065338615512182), (-24)); (9999999999999557, (-16))];
  [(24515452847095481, (-10)); (97271243341817393, (-17)); (99999999999999423, (-17)); ((-7078279744199198), (-23)); (80562171469761338, (-24)); (70782794778573375, (-24)); (99999999999999689, (-17)); (33060414542221364, (-24)); ((-80562173809869717), (-24)); ((-33060408839805517), (-24)); (99999999999999623, (-17)); (99999999999964773, (-17)); ((-76978630377860242), (-23)); ((-33450680461998401), (-23)); (76978630378001146, (-23)); (99999999999970357, (-17)); (40838229022958054, (-28)); (3345068046167412, (-22)); ((-43413606043429809), (-28)); (99999999999994393, (-17)); (99999999999961442, (-17)); ((-84056909016163532), (-23)); ((-25394465859970411), (-23)); (84056909855823047, (-23)); (99999999999964595, (-17)); (3306456038077006, (-23)); (25394463080656677, (-23)); ((-33064773877735399), (-24)); (99999999999996714, (-17))];
  [(24515457147753225, (-10)); (9096566514484713, (-16)); (99999999999999423, (-17)); ((-7078279744199198), (-23)); (80562171469761338, (-24)); (70782794778573375, (-24)); (99999999999999689, (-17)); (33060414542221364, (-24)); ((-80562173809869717), (-24)); ((-33060408839805517), (-24)); (99999999999999623, (-17)); (99999999999941214, (-17)); ((-99446765454659539), (-23)); ((-43214096439975271), (-23)); (99446765454894717, (-23)); (99999999999950551, (-17)); (52273581446988888, (-28)); (4321409643943407, (-22)); ((-56570303996750226), (-28)); (99999999999990674, (-17)); (99999999999937084, (-17)); ((-10652504377017857), (-22)); ((-35157882580754999), (-23)); (10652504493270586, (-22)); (99999999999943201, (-17)); (33065722016823421, (-24)); (35157879058407557, (-23)); ((-33066096458348458), (-24)); (99999999999993783, (-17))];
  [(24515454338711463, (-10)); (3047369213334985, (-16)); (99999999999999423, (-17)); ((-7078279744199198), (-23)); (80562171469761338, (-24)); (70782794778573375, (-24)); (99999999999999689, (-17)); (33060414542221364, (-24)); ((-80562173809869717), (-24)); ((-33060408839805517), (-24)); (99999999999999623, (-17)); (99999999999987843, (-17)); ((-45217149073597582), (-23)); ((-1964888708357306), (-22)); (45217149073646207, (-23)); (99999999999989764, (-17)); (24300373914555245, (-28)); (19648887083461172, (-23)); ((-25188739982695552), (-28)); (99999999999998068, (-17)); (99999999999985656, (-17)); ((-52295428168195541), (-23)); ((-11592671431495525), (-23)); (52295428551482989, (-23)); (99999999999986255, (-17)); (3306288100752661, (-23)); (11592669702456413, (-23)); ((-33062941621835091), (-24)); (99999999999999278, (-17))];
  [(24515458995781941, (-10)); (9478690813315741, (-16)); (99999999999999423, (-17)); ((-7078279744199198), (-23)); (80562171469761338, (-24)); (70782794778573375, (-24)); (99999999999999689, (-17)); (33060414542221364, (-24)); ((-80562173809869717), (-24)); ((-33060408839805517), (-24)); (99999999999999623, (-17)); (99999999999923961, (-17)); ((-11309963062932191), (-22)); ((-49146880822186473), (-23)); (1130996306296261, (-21)); (99999999999936029, (-17)); (59114885263398075, (-28)); (49146880821486453, (-23)); ((-64673266741976931), (-28)); (99999999999987921, (-17)); (99999999999919342, (-17)); ((-12017790874869939), (-22)); ((-41090667414336946), (-23)); (12017791010743064, (-22)); (99999999999927713, (-17)); (33066417146244914, (-24)); (41090663440454387, (-23)); ((-33066910954012823), (-24)); (99999999999991507, (-17))];
  [(24515455014966358, (-10)); (30834977667897867, (-17)); (99999999999999423, (-17)); ((-7078279744199198), (-23)); (80562171469761338, (-24)); (70782794778573375, (-24)); (99999999999999689, (-17)); (33060414542221364, (-24)); ((-80562173809869717), (-24)); ((-33060408839805517), (-24)); (99999999999999623, (-17)); (99999999999985389, (-17)); ((-49578318445806522), (-23)); ((-21544011506999305), (-23)); (49578318445864967, (-23)); (9999999999998771, (-16)); (26597281274449384, (-28)); (21544011506864789, (-23)); ((-27665647550634276), (-28)); (9999999999999768, (-16)); (99999999999983036, (-17)); ((-56656597477750703), (-23)); ((-13487795999104026), (-23)); (56656597923699722, (-23)); (99999999999983891, (-17)); (33063114211714667, (-24)); (13487794125858296, (-23)); ((-33063190654013836), (-24)); (99999999999999034, (-17))];
  [(24515450756247556, (-10)); (69555148604156702, (-17)); (99999999999999423, (-17)); ((-7078279744199198), (-23)); (80562171469761338, (-24)); (70782794778573375, (-24)); (99999999999999689, (-17)); (33060414542221364, (-24)); ((-80562173809869717), (-24)); ((-33060408839805517), (-24)); (99999999999999623, (-17)); (99999999999986755, (-17)); ((-47210953437223706), (-23)); ((-20515284837162442), (-23)); (47210953437276709, (-23)); (99999999999988864, (-17)); (25351383227543507, (-28)); (20515284837040466, (-23)); ((-26319502133276274), (-28)); (99999999999997891, (-17)); (9999999999998449, (-16)); ((-54289232503178113), (-23)); ((-12459069251000989), (-23)); (54289232915112565, (-23)); (99999999999985212, (-17)); (33062987714709701, (-24)); (12459067456034916, (-23)); ((-33063055311310658), (-24)); (99999999999999167, (-17))];
  [(24515459094387712, (-10)); (24591264235962917, (-17)); (99999999999999423, (-17)); ((-7078279744199198), (-23)); (80562171469761338, (-24)); (70782794778573375, (-24)); (99999999999999689, (-17)); (33060414542221364, (-24)); ((-80562173809869717), (-24)); ((-33060408839805517), (-24)); (99999999999999623, (-17)); (99999999999970257, (-17)); ((-7072993048612811), (-22)); ((-30735339088091429), (-23)); (70729930486247076, (-23)); (99999999999974976, (-17)); (37619885040903396, (-28)); (30735339087817657, (-23)); ((-39793723871639486), (-28)); (9999999999999527, (-16)); (99999999999967149, (-17)); ((-77808209214202102), (-23)); ((-22679124279478397), (-23)); (77808209964071931, (-23)); (99999999999969658, (-17)); (33064233512285059, (-24)); (22679121706802718, (-23)); ((-33064409967523925), (-24)); (99999999999997369, (-17))];
  [(24515453803711422, (-10)); (2545865807392198, (-16)); (99999999999999423, (-17)); ((-7078279744199198), (-23)); (80562171469761338, (-24)); (70782794778573375, (-24)); (99999999999999689, (-17)); (33060414542221364, (-24)); ((-80562173809869717), (-24)); ((-33060408839805517), (-24)); (99999999999999623, (-17)); (99999999999991018, (-17)); ((-3887173623795522), (-22)); ((-16891519541768547), (-23)); (3887173623799115, (-22)); (99999999999992439, (-17)); (2094419432251879, (-27)); (16891519541685855, (-23)); ((-21601054278619358), (-28)); (99999999999998568, (-17)); (99999999999989053, (-17)); ((-4595001542371312), (-22)); ((-88353036799087873), (-24)); (4595001571583086, (-22)); (99999999999989375, (-17)); (33062540277565916, (-24)); (88353021606836116, (-24)); ((-33062580901522962), (-24)); (99999999999999556, (-17))];
  [(24515456886254596, (-10)); (35582994891978248, (-18)); (99999999999999423, (-17)); ((-7078279744199198), (-23)); (80562171469761338, (-24)); (70782794778573375, (-24)); (99999999999999689, (-17)); (33060414542221364, (-24)); ((-80562173809869717), (-24)); ((-33060408839805517), (-24)); (99999999999999623, (-17)); (9999999999998832, (-16)); ((-44335613266004165), (-23)); ((-19265820089715672), (-23)); (44335613266050911, (-23)); (99999999999990175, (-17)); (23835667090297033, (-28)); (19265820089608101, (-23)); ((-24689139621614231), (-28)); (99999999999998146, (-17)); (99999999999986156, (-17)); ((-51413892373266511), (-23)); ((-11209604408494162), (-23)); (51413892743888096, (-23)); (99999999999986722, (-17)); (33062833826659925, (-24)); (11209602708603693, (-23)); ((-33062891390653473), (-24)); (99999999999999323, (-17))];
  [(24515450197886568, (-10)); (81756997452966929, (-17)); (99999999999999423, (-17)); ((-7078279744199198), (-23)); (80562171469761338, (-24)); (70782794778573375, (-24)); (99999999999999689, (-17)); (33060414542221364, (-24)); ((-80562173809869717), (-24)); ((-33060408839805517), (-24)); (99999999999999623, (-17)); (99999999999984379, (-17)); ((-51262600225688292), (-23)); ((-22275907762365064), (-23)); (51262600225750782, (-23)); (99999999999986866, (-17)); (27483408112458581, (-28)); (22275907762221251, (-23)); ((-28624880243910411), (-28)); (99999999999997513, (-17)); (9999999999998197, (-16)); ((-58340879233435611), (-23)); ((-14219692310152918), (-23)); (58340879703584753, (-23)); (99999999999982925, (-17)); (33063204181292164, (-24)); (14219690381214089, (-23)); ((-33063287095339757), (-24)); (99999999999998934, (-17))];
  [(24515457494743075, (-10)); (43477295112057313, (-17)); (99999999999999423, (-17)); ((-7078279744199198), (-23)); (80562171469761338, (-24)); (70782794778573375, (-24)); (99999999999999689, (-17)); (33060414542221364, (-24)); ((-80562173809869717), (-24)); ((-33060408839805517), (-24)); (99999999999999623, (-17)); (99999999999968758, (-17)); ((-72498917056323301), (-23)); ((-31504043380524297), (-23)); (72498917056448302, (-23)); (99999999999973721, (-17)); (38532740274057963, (-28)); (31504043380236665, (-23)); ((-40816794388831568), (-28)); (99999999999995037, (-17)); (99999999999965594, (-17)); ((-79577195758983509), (-23)); ((-23447828630394813), (-23)); (7957719653427231, (-22)); (99999999999968281, (-17)); (33064326222941959, (-24)); (23447825999221024, (-23)); ((-33064512818685972), (-24)); (99999999999997202, (-17))];
  [(24515452697412567, (-10)); (36607360073271433, (-17)); (99999999999999423, (-17)); ((-7078279744199198), (-23)); (80562171469761338, (-24)); (70782794778573375, (-24)); (99999999999999689, (-17)); (33060414542221364, (-24)); ((-80562173809869717), (-24)); ((-33060408839805517), (-24)); (99999999999999623, (-17)); (99999999999990996, (-17)); ((-3892420950755783), (-22)); ((-16914321539742871), (-23)); (38924209507593861, (-23)); (99999999999992428, (-17)); (20971953956790958, (-28)); (16914321539659957, (-23)); ((-21629920077259612), (-28)); (99999999999998579, (-17)); (99999999999989031, (-17)); ((-46002488692561881), (-23)); ((-88581056796179017), (-24)); (4600248898543355, (-22)); (99999999999989364, (-17)); (33062543095802953, (-24)); (88581041586576928, (-24)); ((-33062583804242728), (-24)); (99999999999999567, (-17))];
  [(24515450118284165, (-10)); (48779607811046732, (-18)); (99999999999999423, (-17)); ((-7078279744199198), (-23)); (80562171469761338, (-24)); (70782794778573375, (-24)); (99999999999999689, (-17)); (33060414542221364, (-24)); ((-80562173809869717), (-24)); ((-33060408839805517), (-24)); (99999999999999623, (-17)); (99999999999999922, (-17)); ((-37103873823248893), (-24)); ((-16123303857752178), (-24)); (37103873823252168, (-24)); (99999999999999944, (-17)); (20272809305912778, (-29)); (16123303857744644, (-24)); ((-20333734696009742), (-29)); (1, 0); (99999999999999212, (-17)); ((-10788667073219769), (-23)); (64438866385339709, (-24)); (10788666860180896, (-23)); (99999999999999367, (-17)); (3306062025948305, (-23)); ((-64438869952139558), (-24)); ((-33060613318405025), (-24)); (99999999999999756, (-17))];
  [(24515459291743324, (-10)); (81331022203569636, (-17)); (99999999999999423, (-17)); ((-7078279744199198), (-23)); (80562171469761338, (-24)); (70782794778573375, (-24)); (99999999999999689, (-17)); (33060414542221364, (-24)); ((-80562173809869717), (-24)); ((-33060408839805517), (-24)); (99999999999999623, (-17)); (99999999999932365, (-17)); ((-10667387477372007), (-22)); ((-46354600708615412), (-23)); (10667387477399069, (-22)); (99999999999943112, (-17)); (5590438156231084, (-27)); (46354600707992678, (-23)); ((-60849658645167892), (-28)); (99999999999989253, (-17)); (99999999999927969, (-17)); ((-11375215298541209), (-22)); ((-38298387088327073), (-23)); (11375215425179834, (-22)); (99999999999935252, (-17)); (33066090919148692, (-24)); (38298383326963228, (-23)); ((-33066526616749606), (-24)); (99999999999992606, (-17))];
  [(24515452879198361, (-10)); (7602408660563531, (-16)); (99999999999999423, (-17)); ((-7078279744199198), (-23)); (80562171469761338, (-24)); (70782794778573375, (-24)); (99999999999999689, (-17)); (33060414542221364, (-24)); ((-80562173809869717), (-24)); ((-33060408839805517), (-24)); (99999999999999623, (-17)); (99999999999975531, (-17)); ((-6416777845030225), (-22)); ((-27883788639818805), (-23)); (64167778450400167, (-23)); (99999999999979428, (-17)); (34220612254086421, (-28)); (27883788639593473, (-23)); ((-36010083803716952), (-28)); (99999999999996114, (-17)); (99999999999972655, (-17)); ((-71246057272650066), (-23)); ((-19827573614257893), (-23)); (71246057928228103, (-23)); (99999999999974576, (-17)); (33063888298395673, (-24)); (19827571258581165, (-23)); ((-3306402958511024), (-23)); (99999999999997979, (-17))];
  [(24515450086568897, (-10)); (96387080232795797, (-17)); (99999999999999423, (-17)); ((-7078279744199198), (-23)); (80562171469761338, (-24)); (70782794778573375, (-24)); (99999999999999689, (-17)); (33060414542221364, (-24)); ((-80562173809869717), (-24)); ((-33060408839805517), (-24)); (99999999999999623, (-17)); (99999999999978928, (-17)); ((-59537570248542569), (-23)); ((-25871754746772611), (-23)); (5953757024862687, (-22)); (9999999999998227, (-16)); (31811413927124491, (-28)); (2587175474657863, (-22)); ((-33351654771252015), (-28)); (99999999999996647, (-17)); (99999999999976219, (-17)); ((-66615849137409301), (-23)); ((-17815539568134835), (-23)); (66615849726456987, (-23)); (9999999999997774, (-16)); (33063643648367649, (-24)); (17815537365568175, (-23)); ((-33063762318033285), (-24)); (99999999999998357, (-17))];
  [(24515452788262889, (-10)); (67636699430267333, (-17)); (99999999999999423, (-17)); ((-7078279744199198), (-23)); (80562171469761338, (-24)); (70782794778573375, (-24)); (99999999999999689, (-17)); (33060414542221364, (-24)); ((-80562173809869717), (-24)); ((-33060408839805517), (-24)); (99999999999999623, (-17)); (99999999999979672, (-17)); ((-58476367982484604), (-23)); ((-25410614591416929), (-23)); (58476367982565919, (-23)); (99999999999982903, (-17)); (31257843235586569, (-28)); (25410614591229798, (-23)); ((-32743807665269742), (-28)); (9999999999999678, (-16)); (99999999999976996, (-17)); ((-6555464688659687), (-22)); ((-17354399377695302), (-23)); (65554647460396534, (-23)); (99999999999978451, (-17)); (33063587436371113, (-24)); (17354397210219761, (-23)); ((-33063701206914834), (-24)); (99999999999998446, (-17))];
  [(24515456749052005, (-10)); (87979334578915436, (-17)); (99999999999999423, (-17)); ((-7078279744199198), (-23)); (80562171469761338, (-24)); (70782794778573375, (-24)); (99999999999999689, (-17)); (33060414542221364, (-24)); ((-80562173809869717), (-24)); ((-33060408839805517), (-24)); (99999999999999623, (-17)); (99999999999946154, (-17)); ((-9517772616972316), (-22)); ((-41359006729692159), (-23)); (95177726169938603, (-23)); (99999999999954703, (-17)); (50117257385809793, (-28)); (41359006729196412, (-23)); ((-54054538622949622), (-28)); (9999999999999144, (-16)); (99999999999942168, (-17)); ((-10225600454657258), (-22)); ((-33302792729335293), (-23)); (10225600564775181, (-22)); (99999999999947653, (-17)); (33065502945187932, (-24)); (33302789348171631, (-23)); ((-33065843568726938), (-24)); (99999999999994393, (-17))];
  [(24515452044786899, (-10)); (50508437707755216, (-17)); (99999999999999423, (-17)); ((-7078279744199198), (-23)); (80562171469761338, (-24)); (70782794778573375, (-24)); (99999999999999689, (-17)); (33060414542221364, (-24)); ((-80562173809869717), (-24)); ((-33060408839805517), (-24)); (99999999999999623, (-17)); (99999999999988787, (-17)); ((-43439031303395965), (-23)); ((-1887621486398861), (-22)); (43439031303440837, (-23)); (99999999999990574, (-17)); (23361523615698443, (-28)); (18876214863885349, (-23)); ((-24181212587848222), (-28)); (99999999999998224, (-17)); (99999999999986655, (-17)); ((-50517310423538855), (-23)); ((-10819999153125692), (-23)); (50517310781278435, (-23)); (99999999999987188, (-17)); (33062785690006701, (-24)); (10819997482881297, (-23)); ((-33062840322176643), (-24)); (99999999999999367, (-17))];
  [(24515450983409956, (-10)); (90745167826677531, (-17)); (99999999999999423, (-17)); ((-7078279744199198), (-23)); (80562171469761338, (-24)); (70782794778573375, (-24)); (99999999999999689, (-17)); (33060414542221364, (-24)); ((-80562173809869717), (-24)); ((-33060408839805517), (-24)); (99999999999999623, (-17)); (99999999999977462, (-17)); ((-61574032786808611), (-23)); ((-26756689391785751), (-23)); (61574032786898767, (-23)); (99999999999981037, (-17)); (32872477242676932, (-28)); (26756689391578265, (-23)); ((-34520719616182305), (-28)); (99999999999996425, (-17)); (99999999999974676, (-17)); ((-68652311646418931), (-23)); ((-18700474280474381), (-23)); (68652312264727921, (-23)); (99999999999976363, (-17)); (33063751395317239, (-24)); (18700472010566992, (-23)); ((-33063879850899205), (-24)); (99999999999998201, (-17))];
  [(24515455639417786, (-10)); (33357149800226704, (-17)); (99999999999999423, (-17)); ((-7078279744199198), (-23)); (80562171469761338, (-24)); (70782794778573375, (-24)); (99999999999999689, (-17)); (33060414542221364, (-24)); ((-80562173809869717), (-24)); ((-33060408839805517), (-24)); (99999999999999623, (-17)); (99999999999982048, (-17)); ((-54945232061027955), (-23)); ((-23876177075394727), (-23)); (54945232061099751, (-23)); (99999999999984901, (-17)); (29412809484771959, (-28)); (23876177075229513, (-23)); ((-30724311983476582), (-28)); (99999999999997158, (-17)); (99999999999979505, (-17)); ((-62023511015869533), (-23)); ((-15819961744932098), (-23)); (62023511538932007, (-23)); (99999999999980704, (-17)); (33063400088236916, (-24)); (15819959694220884, (-23)); ((-33063498171228984), (-24)); (99999999999998701, (-17))];
  [(24515452552527511, (-10)); (93089020694997082, (-17)); (99999999999999423, (-17)); ((-7078279744199198), (-23)); (80562171469761338, (-24)); (70782794778573375, (-24)); (99999999999999689, (-17)); (33060414542221364, (-24)); ((-80562173809869717), (-24)); ((-33060408839805517), (-24)); (99999999999999623, (-17)); (99999999999968658, (-17)); ((-72614970651764483), (-23)); ((-31554473891661121), (-23)); (72614970651889876, (-23)); (99999999999973632, (-17)); (38592153949619098, (-28)); (31554473891372569, (-23)); ((-40883407770309077), (-28)); (99999999999995026, (-17)); (99999999999965483, (-17)); ((-79693249352757433), (-23)); ((-23498259145368427), (-23)); (79693250129713841, (-23)); (99999999999968181, (-17)); (33064332257804778, (-24)); (23498256510356883, (-23)); ((-33064519515720246), (-24)); (99999999999997191, (-17))];
  [(24515455186806214, (-10)); (66783460665128758, (-17)); (99999999999999423, (-17)); ((-7078279744199198), (-23)); (80562171469761338, (-24)); (70782794778573375, (-24)); (99999999999999689, (-17)); (33060414542221364, (-24)); ((-80562173809869717), (-24)); ((-33060408839805517), (-24)); (99999999999999623, (-17)); (99999999999968636, (-17)); ((-72637760804330893), (-23)); ((-31564377238803486), (-23)); (7263776080445636, (-22)); (9999999999997361, (-16)); (38603814582594725, (-28)); (31564377238514743, (-23)); ((-40896730446604579), (-28)); (99999999999995026, (-17)); (99999999999965461, (-17)); ((-79716039504996433), (-23)); ((-23508162493264241), (-23)); (79716040282280315, (-23)); (99999999999968159, (-17)); (33064333442228313, (-24)); (23508159857499046, (-23)); ((-33064520854997741), (-24)); (99999999999997191, (-17))];
  [(24515451708931774, (-10)); (20841715242899372, (-17)); (99999999999999423, (-17)); ((-7078279744199198), (-23)); (80562171469761338, (-24)); (70782794778573375, (-24)); (99999999999999689, (-17)); (33060414542221364, (-24)); ((-80562173809869717), (-24)); ((-33060408839805517), (-24)); (99999999999999623, (-17)); (99999999999996791, (-17)); ((-23221153991248108), (-23)); ((-10090636946088646), (-23)); (2322115399126093, (-22)); (99999999999997302, (-17)); (12590465212266112, (-28)); (10090636946059138, (-23)); ((-12825296380469808), (-28)); (99999999999999489, (-17)); (99999999999995381, (-17)); ((-30299433401846425), (-23)); ((-2034420566813709), (-23)); (30299433469107797, (-23)); (99999999999995348, (-17)); (33061692296207597, (-24)); (20344195650630709, (-24)); ((-33061698511878499), (-24)); (99999999999999922, (-17))];
  [(2451545587308411, (-9)); (3919354980765748, (-16)); (99999999999999423, (-17)); ((-7078279744199198), (-23)); (80562171469761338, (-24)); (70782794778573375, (-24)); (99999999999999689, (-17)); (33060414542221364, (-24)); ((-80562173809869717), (-24)); ((-33060408839805517), (-24)); (99999999999999623, (-17)); (99999999999978628, (-17)); ((-59948733091661462), (-23)); ((-26050423510826674), (-23)); (59948733091746927, (-23)); (99999999999982025, (-17)); (32026290927131563, (-28)); (26050423510629998, (-23)); ((-33588687387009486), (-28)); (99999999999996614, (-17)); (99999999999975908, (-17)); ((-67027011974621304), (-23)); ((-1799420834578213), (-22)); (67027012569576844, (-23)); (99999999999977474, (-17)); (33063665467309281, (-24)); (17994206129619376, (-23)); ((-33063786147761604), (-24)); (99999999999998335, (-17))];
  [(24515452321244967, (-10)); (42187417346896106, (-17)); (99999999999999423, (-17)); ((-7078279744199198), (-23)); (80562171469761338, (-24)); (70782794778573375, (-24)); (99999999999999689, (-17)); (33060414542221364, (-24)); ((-80562173809869717), (-24)); ((-33060408839805517), (-24)); (99999999999999623, (-17)); (99999999999990463, (-17)); ((-40037411773852224), (-23)); ((-17398058040373914), (-23)); (40037411773890346, (-23)); (99999999999991973, (-17)); (21561569776000236, (-28)); (17398058040286193, (-23)); ((-22258861420709763), (-28)); (9999999999999849, (-16)); (99999999999988454, (-17)); ((-47115690942863705), (-23)); ((-93418422170519133), (-24)); (47115691251729516, (-23)); (99999999999988831, (-17)); (33062602954204633, (-24)); (93418406592834879, (-24)); ((-33062647040779276), (-24)); (99999999999999512, (-17))];
  [(24515454900157931, (-10)); (14740454243488732, (-17)); (99999999999999423, (-17)); ((-7078279744199198), (-23)); (80562171469761338, (-24)); (70782794778573375, (-24)); (99999999999999689, (-17)); (33060414542221364, (-24)); ((-80562173809869717), (-24)); ((-33060408839805517), (-24)); (99999999999999623, (-17)); (99999999999990952, (-17)); ((-39022495928190522), (-23)); ((-1695703141433359), (-22)); (39022495928226732, (-23)); (99999999999992373, (-17)); (21024142055852452, (-28)); (16957031414250258, (-23)); ((-21685986340003183), (-28)); (99999999999998557, (-17)); (99999999999988975, (-17)); ((-46100775111782569), (-23)); ((-89008155574580133), (-24)); (46100775406066368, (-23)); (99999999999989297, (-17)); (33062548393794509, (-24)); (89008140332479547, (-24)); ((-33062589441100237), (-24)); (99999999999999545, (-17))];
  [(24515451969271367, (-10)); (67130564016829042, (-18)); (99999999999999423, (-17)); ((-7078279744199198), (-23)); (80562171469761338, (-24)); (70782794778573375, (-24)); (99999999999999689, (-17)); (33060414542221364, (-24)); ((-80562173809869717), (-24)); ((-33060408839805517), (-24)); (99999999999999623, (-17)); (99999999999998457, (-17)); ((-16165456208249672), (-23)); ((-7024618586666667), (-23)); (16165456208255885, (-23)); (99999999999998701, (-17)); (87898955014212463, (-29)); (7024618586652368, (-23)); ((-89028784344691303), (-29)); (99999999999999745, (-17)); (99999999999997302, (-17)); ((-23243735720211948), (-23)); (10315980258726854, (-24)); (23243735686105957, (-23)); (99999999999997247, (-17)); (33061306555013626, (-24)); ((-10315987943409246), (-24)); ((-33061304099870424), (-24)); (99999999999999933, (-17))];
  [(2451545116007979, (-9)); (29173031913038039, (-17)); (99999999999999423, (-17)); ((-7078279744199198), (-23)); (80562171469761338, (-24)); (70782794778573375, (-24)); (99999999999999689, (-17)); (33060414542221364, (-24)); ((-80562173809869717), (-24)); ((-33060408839805517), (-24)); (99999999999999623, (-17)); (99999999999996292, (-17)); ((-24961497400850084), (-23)); ((-1084689451250143), (-22)); (24961497400864901, (-23)); (9999999999999688, (-16)); (13523691035237665, (-28)); (10846894512467333, (-23)); ((-13795076192479883), (-28)); (99999999999999412, (-17)); (99999999999994826, (-17)); ((-32039776786446169), (-23)); ((-27906781907630054), (-24)); (3203977687871098, (-22)); (99999999999994804, (-17)); (33061787020848191, (-24)); (27906771314705817, (-24)); ((-33061796025159945), (-24)); (99999999999999911, (-17))];
  [(2451545419409812, (-9)); (91750992304573364, (-17)); (99999999999999423, (-17)); ((-7078279744199198), (-23)); (80562171469761338, (-24)); (70782794778573375, (-24)); (99999999999999689, (-17)); (33060414542221364, (-24)); ((-80562173809869717), (-24)); ((-33060408839805517), (-24)); (99999999999999623, (-17)); (99999999999960187, (-17)); ((-81845435904217029), (-23)); ((-35565526525910751), (-23)); (81845435904376324, (-23)); (99999999999966505, (-17)); (43334223772515566, (-28)); (35565526525544171, (-23)); ((-46244674756223958), (-28)); (99999999999993672, (-17)); (99999999999956679, (-17)); ((-88923714472602302), (-23)); ((-2750931208478173), (-22)); (88923715382195906, (-23)); (99999999999960398, (-17)); (33064813901047956, (-24)); (27509309144524769, (-23)); ((-33065058481553646), (-24)); (99999999999996159, (-17))];
  [(2451545640588786, (-9)); (8435726862121774, (-16)); (99999999999999423, (-17)); ((-7078279744199198), (-23)); (80562171469761338, (-24)); (70782794778573375, (-24)); (99999999999999689, (-17)); (33060414542221364, (-24)); ((-80562173809869717), (-24)); ((-33060408839805517), (-24)); (99999999999999623, (-17)); (99999999999950928, (-17)); ((-90859488129216785), (-23)); ((-39482537942059428), (-23)); (90859488129413106, (-23)); (99999999999958733, (-17)); (47929319315598869, (-28)); (39482537941607647, (-23)); ((-51517123900168826), (-28)); (99999999999992206, (-17)); (99999999999947109, (-17)); ((-97937766568103384), (-23)); ((-31426323798939441), (-23)); (9793776760722839, (-22)); (99999999999951994, (-17)); (33065280672515905, (-24)); (31426320560584607, (-23)); ((-33065588499037813), (-24)); (99999999999995004, (-17))];
  [(24515456212009564, (-10)); (49284771347177592, (-17)); (99999999999999423, (-17)); ((-7078279744199198), (-23)); (80562171469761338, (-24)); (70782794778573375, (-24)); (99999999999999689, (-17)); (33060414542221364, (-24)); ((-80562173809869717), (-24)); ((-33060408839805517), (-24)); (99999999999999623, (-17)); (99999999999972355, (-17)); ((-68201400913193013), (-23)); ((-29636579170445145), (-23)); (68201400913303625, (-23)); (99999999999976741, (-17)); (36311693054212648, (-28)); (29636579170190601, (-23)); ((-38333225482745092), (-28)); (99999999999995604, (-17)); (99999999999969336, (-17)); ((-75279679677592627), (-23)); ((-21580364278237714), (-23)); (75279680391129666, (-23)); (999999999999716, (-15)); (3306410065604864, (-23)); (21580361789176683, (-23)); ((-33064263139952136), (-24)); (99999999999997613, (-17))];
  [(24515458110563187, (-10)); (3812490638098518, (-16)); (99999999999999423, (-17)); ((-7078279744199198), (-23)); (80562171469761338, (-24)); (70782794778573375, (-24)); (99999999999999689, (-17)); (33060414542221364, (-24)); ((-80562173809869717), (-24)); ((-33060408839805517), (-24)); (99999999999999623, (-17)); (99999999999968325, (-17)); ((-72992230640006066), (-23)); ((-31718410338127986), (-23)); (72992230640132761, (-23)); (99999999999973366, (-17)); (38787052705017905, (-28)); (31718410337836426, (-23)); ((-41102676817672545), (-28)); (99999999999994982, (-17)); (99999999999965139, (-17)); ((-80070509335579192), (-23)); ((-23662195604307685), (-23)); (80070510117956547, (-23)); (99999999999967892, (-17)); (33064352051609066, (-24)); (23662192956820576, (-23)); ((-33064541558663765), (-24)); (99999999999997158, (-17))];
  [(2451545343965299, (-9)); (57904425146707506, (-17)); (99999999999999423, (-17)); ((-7078279744199198), (-23)); (80562171469761338, (-24)); (70782794778573375, (-24)); (99999999999999689, (-17)); (33060414542221364, (-24)); ((-80562173809869717), (-24)); ((-33060408839805517), (-24)); (99999999999999623, (-17)); (99999999999981026, (-17)); ((-56506098878804403), (-23)); ((-24554443972243786), (-23)); (56506098878880329, (-23)); (99999999999984046, (-17)); (30228996364498552, (-28)); (24554443972069054, (-23)); ((-31616376183762895), (-28)); (9999999999999698, (-16)); (99999999999978428, (-17)); ((-63584377811222128), (-23)); ((-1649822869338414), (-22)); (63584378356711854, (-23)); (99999999999979738, (-17)); (33063482964392808, (-24)); (16498226591059805, (-23)); ((-33063587857745235), (-24)); (99999999999998579, (-17))];
  [(24515457033196781, (-10)); (27948821767960008, (-17)); (99999999999999423, (-17)); ((-7078279744199198), (-23)); (80562171469761338, (-24)); (70782794778573375, (-24)); (99999999999999689, (-17)); (33060414542221364, (-24)); ((-80562173809869717), (-24)); ((-33060408839805517), (-24)); (99999999999999623, (-17)); (99999999999978473, (-17)); ((-60166918249716854), (-23)); ((-26145234783711477), (-23)); (60166918249802934, (-23)); (99999999999981892, (-17)); (3213955973181577, (-27)); (26145234783513371, (-23)); ((-33712477254255191), (-28)); (99999999999996569, (-17)); (99999999999975742, (-17)); ((-67245197129542187), (-23)); ((-18089019625880234), (-23)); (67245197727632755, (-23)); (99999999999977318, (-17)); (33063676969964401, (-24)); (18089017402502656, (-23)); ((-33063798593858385), (-24)); (99999999999998301, (-17))];
  [(24515459472071901, (-10)); (51406659958971834, (-17)); (99999999999999423, (-17)); ((-7078279744199198), (-23)); (80562171469761338, (-24)); (70782794778573375, (-24)); (99999999999999689, (-17)); (33060414542221364, (-24)); ((-80562173809869717), (-24)); ((-33060408839805517), (-24)); (99999999999999623, (-17)); (99999999999952438, (-17)); ((-89458317716307602), (-23)); ((-38873666331744433), (-23)); (89458317716497909, (-23)); (99999999999959999, (-17)); (47216860048907554, (-28)); (38873666331306485, (-23)); ((-50694448638921585), (-28)); (99999999999992439, (-17)); (99999999999948663, (-17)); ((-96536596175323843), (-23)); ((-30817452142301051), (-23)); (96536597194313859, (-23)); (9999999999995336, (-16)); (33065208297776344, (-24)); (30817448950284017, (-23)); ((-33065505800535402), (-24)); (99999999999995193, (-17))];
  [(24515456531934086, (-10)); (83772527783881401, (-17)); (99999999999999423, (-17)); ((-7078279744199198), (-23)); (80562171469761338, (-24)); (70782794778573375, (-24)); (99999999999999689, (-17)); (33060414542221364, (-24)); ((-80562173809869717), (-24)); ((-33060408839805517), (-24)); (99999999999999623, (-17)); (99999999999950473, (-17)); ((-91273160797703583), (-23)); ((-39662297335619901), (-23)); (91273160797901693, (-23)); (99999999999958344, (-17)); (48139226375287369, (-28)); (39662297335164001, (-23)); ((-5175915251953711), (-27)); (9999999999999214, (-16)); (99999999999946632, (-17)); ((-98351439230647229), (-23)); ((-31606083206176145), (-23)); (98351440275716776, (-23)); (99999999999951572, (-17)); (33065301996485431, (-24)); (31606079954140803, (-23)); ((-33065612829138452), (-24)); (9999999999999496, (-16))];
  [(24515458825327298, (-10)); (85881555059319215, (-17)); (99999999999999423, (-17)); ((-7078279744199198), (-23)); (80562171469761338, (-24)); (70782794778573375, (-24)); (99999999999999689, (-17)); (33060414542221364, (-24)); ((-80562173809869717), (-24)); ((-33060408839805517), (-24)); (99999999999999623, (-17)); (99999999999932443, (-17)); ((-10660431274441795), (-22)); ((-46324372876164915), (-23)); (1066043127446882, (-21)); (99999999999943168, (-17)); (55869949898228002, (-28)); (46324372875542997, (-23)); ((-60808025281744449), (-28)); (99999999999989275, (-17)); (99999999999928046, (-17)); ((-11368259095710933), (-22)); ((-38268159253576823), (-23)); (11368259222249587, (-22)); (99999999999935307, (-17)); (33066087419941628, (-24)); (38268155494513578, (-23)); ((-33066522432017165), (-24)); (99999999999992628, (-17))];
  [(24515458041712493, (-10)); (7162922825375081, (-16)); (99999999999999423, (-17)); ((-7078279744199198), (-23)); (80562171469761338, (-24)); (70782794778573375, (-24)); (99999999999999689, (-17)); (33060414542221364, (-24)); ((-80562173809869717), (-24)); ((-33060408839805517), (-24)); (99999999999999623, (-17)); (99999999999948497, (-17)); ((-93081878790486403), (-23)); ((-40448266712149546), (-23)); (93081878790692444, (-23)); (99999999999956668, (-17)); (49056047001989393, (-28)); (40448266711675403, (-23)); ((-52821080842591073), (-28)); (99999999999991818, (-17)); (999999999999446, (-15)); ((-10016015719744544), (-22)); ((-32392052642502907), (-23)); (10016015826850666, (-22)); (99999999999949774, (-17)); (33065395135690035, (-24)); (32392049330651475, (-23)); ((-33065719578301765), (-24)); (99999999999994704, (-17))];
  [(2451545650329689, (-9)); (55354201771548983, (-17)); (99999999999999423, (-17)); ((-7078279744199198), (-23)); (80562171469761338, (-24)); (70782794778573375, (-24)); (99999999999999689, (-17)); (33060414542221364, (-24)); ((-80562173809869717), (-24)); ((-33060408839805517), (-24)); (99999999999999623, (-17)); (99999999999967715, (-17)); ((-73700314179317463), (-23)); ((-3202610450879367), (-22)); (73700314179446635, (-23)); (99999999999972833, (-17)); (39151864239392503, (-28)); (3202610450849642, (-22)); ((-41511794002246916), (-28)); (9999999999999486, (-16)); (99999999999964495, (-17)); ((-8077859286471804), (-22)); ((-23969889798382954), (-23)); (80778593657270082, (-23)); (99999999999967304, (-17)); (33064389103209806, (-24)); (23969887127480294, (-23)); ((-33064582688176727), (-24)); (99999999999997058, (-17))];
  [(24515450793828187, (-10)); (71155787130992021, (-19)); (99999999999999423, (-17)); ((-7078279744199198), (-23)); (80562171469761338, (-24)); (70782794778573375, (-24)); (99999999999999689, (-17)); (33060414542221364, (-24)); ((-80562173809869717), (-24)); ((-33060408839805517), (-24)); (99999999999999623, (-17)); (99999999999999833, (-17)); ((-52953807016815556), (-24)); ((-23010813499204525), (-24)); (5295380701682222, (-23)); (99999999999999856, (-17)); (28916037470681321, (-29)); (23010813499189183, (-24)); ((-29037883209070969), (-29)); (99999999999999967, (-17)); (99999999999999067, (-17)); ((-12373660369806035), (-23)); (57551356219881949, (-24)); (1237366017953719, (-22)); (99999999999999167, (-17)); (33060707968669707, (-24)); ((-57551360310701194), (-24)); ((-33060700847407347), (-24)); (99999999999999778, (-17))];
  [(24515451645070058, (-10)); (89272306634673371, (-17)); (99999999999999423, (-17)); ((-7078279744199198), (-23)); (80562171469761338, (-24)); (70782794778573375, (-24)); (99999999999999689, (-17)); (33060414542221364, (-24)); ((-80562173809869717), (-24)); ((-33060408839805517), (-24)); (99999999999999623, (-17)); (99999999999975109, (-17)); ((-647229999242577), (-21)); ((-28125057363325652), (-23)); (64722999924357311, (-23)); (99999999999979061, (-17)); (34508786278767245, (-28)); (28125057363096407, (-23)); ((-36329272923296685), (-28)); (99999999999996048, (-17)); (99999999999972211, (-17)); ((-71801278738629039), (-23)); ((-20068842356120626), (-23)); (71801279402184994, (-23)); (99999999999974165, (-17)); (33063917563096499, (-24)); (20068839982083877, (-23)); ((-33064061674798929), (-24)); (99999999999997935, (-17))];
  [(24515458132142569, (-10)); (20784475434712923, (-17)); (99999999999999423, (-17)); ((-7078279744199198), (-23)); (80562171469761338, (-24)); (70782794778573375, (-24)); (99999999999999689, (-17)); (33060414542221364, (-24)); ((-80562173809869717), (-24)); ((-33060408839805517), (-24)); (99999999999999623, (-17)); (99999999999976774, (-17)); ((-62508628941447692), (-23)); ((-27162813491899905), (-23)); (62508628941540601, (-23)); (9999999999998046, (-16)); (33358870225197419, (-28)); (27162813491686077, (-23)); ((-35056957337076255), (-28)); (99999999999996314, (-17)); (99999999999973954, (-17)); ((-69586907787631332), (-23)); ((-19106598411486727), (-23)); (6958690841936932, (-22)); (99999999999975719, (-17)); (33063800787546253, (-24)); (1910659611067443, (-22)); ((-33063933762137263), (-24)); (99999999999998124, (-17))];
  [(24515456541433395, (-10)); (14656707585011552, (-17)); (99999999999999423, (-17)); ((-7078279744199198), (-23)); (80562171469761338, (-24)); (70782794778573375, (-24)); (99999999999999689, (-17)); (33060414542221364, (-24)); ((-80562173809869717), (-24)); ((-33060408839805517), (-24)); (99999999999999623, (-17)); (99999999999985723, (-17)); ((-49019018097400302), (-23)); ((-21300970327236729), (-23)); (49019018097457445, (-23)); (99999999999987998, (-17)); (26304127568656163, (-28)); (21300970327105232, (-23)); ((-27347568654079168), (-28)); (99999999999997735, (-17)); (99999999999983391, (-17)); ((-56097297137379554), (-23)); ((-13244754800850725), (-23)); (56097297575292464, (-23)); (99999999999984213, (-17)); (33063084445759668, (-24)); (13244752946098964, (-23)); ((-33063158674092854), (-24)); (99999999999999079, (-17))];
  [(24515458509633276, (-10)); (85787882630071099, (-17)); (99999999999999423, (-17)); ((-7078279744199198), (-23)); (80562171469761338, (-24)); (70782794778573375, (-24)); (99999999999999689, (-17)); (33060414542221364, (-24)); ((-80562173809869717), (-24)); ((-33060408839805517), (-24)); (99999999999999623, (-17)); (99999999999934952, (-17)); ((-10461430686058316), (-22)); ((-45459625756736144), (-23)); (10461430686084341, (-22)); (99999999999945288, (-17)); (54872551725002374, (-28)); (45459625756137229, (-23)); ((-5962841331808022), (-27)); (99999999999989664, (-17)); (99999999999930633, (-17)); ((-11169258510186363), (-22)); ((-37403412068357437), (-23)); (11169258633865206, (-22)); (99999999999937572, (-17)); (33065986076933053, (-24)); (37403408375108615, (-23)); ((-33066403858728724), (-24)); (9999999999999295, (-16))];
  [(24515457159779398, (-10)); (87301299803126309, (-17)); (99999999999999423, (-17)); ((-7078279744199198), (-23)); (80562171469761338, (-24)); (70782794778573375, (-24)); (99999999999999689, (-17)); (33060414542221364, (-24)); ((-80562173809869717), (-24)); ((-33060408839805517), (-24)); (99999999999999623, (-17)); (99999999999943756, (-17)); ((-97277086139914998), (-23)); ((-4227127312521911), (-22)); (97277086140140033, (-23)); (99999999999952693, (-17)); (51178477183326706, (-28)); (42271273124701255, (-23)); ((-55291327072382046), (-28)); (99999999999991074, (-17)); (99999999999939704, (-17)); ((-10435536448660434), (-22)); ((-34215059194268139), (-23)); (10435536561795221, (-22)); (99999999999945499, (-17)); (33065610758456999, (-24)); (34215055743675622, (-23)); ((-33065967893299434), (-24)); (99999999999994105, (-17))];
  [(24515454030447067, (-10)); (81534151156770729, (-17)); (99999999999999423, (-17)); ((-7078279744199198), (-23)); (80562171469761338, (-24)); (70782794778573375, (-24)); (99999999999999689, (-17)); (33060414542221364, (-24)); ((-80562173809869717), (-24)); ((-33060408839805517), (-24)); (99999999999999623, (-17)); (99999999999966926, (-17)); ((-74588884001525061), (-23)); ((-32412228093431612), (-23)); (74588884001657367, (-23)); (99999999999972178, (-17)); (39609407129962, (-25)); (32412228093127157, (-23)); ((-42026937485672988), (-28)); (99999999999994749, (-17)); (99999999999963674, (-17)); ((-81667162674160174), (-23)); ((-2435601341239745), (-22)); (81667163479480391, (-23)); (99999999999966582, (-17)); (33064435573349787, (-24)); (24356010712110677, (-23)); ((-33064634475834107), (-24)); (9999999999999698, (-16))];
  [(24515453012033538, (-10)); (58837246276467881, (-17)); (99999999999999423, (-17)); ((-7078279744199198), (-23)); (80562171469761338, (-24)); (70782794778573375, (-24)); (99999999999999689, (-17)); (33060414542221364, (-24)); ((-80562173809869717), (-24)); ((-33060408839805517), (-24)); (99999999999999623, (-17)); (9999999999998237, (-16)); ((-54459305446502198), (-23)); ((-23665020086641611), (-23)); (54459305446572724, (-23)); (99999999999985167, (-17)); (29158515556389004, (-28)); (23665020086479309, (-23)); ((-30446756227320293), (-28)); (99999999999997202, (-17)); (99999999999979849, (-17)); ((-61537584408324736), (-23)); ((-15608804740114022), (-23)); (61537584924405203, (-23)); (99999999999981004, (-17)); (33063374267371134, (-24)); (15608802705470873, (-23)); ((-33063470266190553), (-24)); (99999999999998734, (-17))];
  [(24515451486067786, (-10)); (90573525598386084, (-17)); (99999999999999423, (-17)); ((-7078279744199198), (-23)); (80562171469761338, (-24)); (70782794778573375, (-24)); (99999999999999689, (-17)); (33060414542221364, (-24)); ((-80562173809869717), (-24)); ((-33060408839805517), (-24)); (99999999999999623, (-17)); (99999999999975242, (-17)); ((-64546195968161501), (-23)); ((-28048228085648985), (-23)); (64546195968260561, (-23)); (99999999999979183, (-17)); (34417170155876224, (-28)); (28048228085420996, (-23)); ((-3622713240503117), (-27)); (9999999999999607, (-16)); (99999999999972355, (-17)); ((-71624474785072858), (-23)); ((-19992013072598736), (-23)); (71624475446088328, (-23)); (99999999999974298, (-17)); (33063908259047141, (-24)); (19992010704408534, (-23)); ((-33064051406365192), (-24)); (99999999999997957, (-17))];
  [(24515453538365909, (-10)); (60143407371274948, (-17)); (99999999999999423, (-17)); ((-7078279744199198), (-23)); (80562171469761338, (-24)); (70782794778573375, (-24)); (99999999999999689, (-17)); (33060414542221364, (-24)); ((-80562173809869717), (-24)); ((-33060408839805517), (-24)); (99999999999999623, (-17)); (99999999999979672, (-17)); ((-58481105227359446), (-23)); ((-25412673137565897), (-23)); (58481105227440772, (-23)); (99999999999982914, (-17)); (31260619344006221, (-28)); (25412673137378739, (-23)); ((-32746583222831305), (-28)); (9999999999999678, (-16)); (99999999999976996, (-17)); ((-65559384131403653), (-23)); ((-17356457924000886), (-23)); (65559384705271376, (-23)); (99999999999978462, (-17)); (33063587717798379, (-24)); (17356455756368702, (-23)); ((-33063701485927686), (-24)); (99999999999998446, (-17))];
  [(24515455842339648, (-10)); (5246744339051479, (-17)); (99999999999999423, (-17)); ((-7078279744199198), (-23)); (80562171469761338, (-24)); (70782794778573375, (-24)); (99999999999999689, (-17)); (33060414542221364, (-24)); ((-80562173809869717), (-24)); ((-33060408839805517), (-24)); (99999999999999623, (-17)); (99999999999990963, (-17)); ((-38978483619158091), (-23)); ((-16937906084637999), (-23)); (38978483619194223, (-23)); (99999999999992395, (-17)); (21000268847625549, (-28)); (16937906084554858, (-23)); ((-21661006321949117), (-28)); (99999999999998557, (-17)); (99999999999988987, (-17)); ((-46056762803382427), (-23)); ((-88816902263073566), (-24)); (46056763097033874, (-23)); (9999999999998932, (-16)); (33062545971016422, (-24)); (88816887035525734, (-24)); ((-33062586929560992), (-24)); (99999999999999545, (-17))];
  [(24515459508243394, (-10)); (55342533668236327, (-17)); (99999999999999423, (-17)); ((-7078279744199198), (-23)); (80562171469761338, (-24)); (70782794778573375, (-24)); (99999999999999689, (-17)); (33060414542221364, (-24)); ((-80562173809869717), (-24)); ((-33060408839805517), (-24)); (99999999999999623, (-17)); (99999999999949596, (-17)); ((-92089276113843191), (-23)); ((-40016936173132917), (-23)); (92089276114044859, (-23)); (99999999999957612, (-17)); (48553488343840717, (-28)); (40016936172668828, (-23)); ((-52238213754662866), (-28)); (99999999999991995, (-17)); (99999999999945721, (-17)); ((-9916755453506226), (-22)); ((-31960722070670332), (-23)); (9916755559185955, (-22)); (99999999999950784, (-17)); (33065344080162261, (-24)); (31960718791645291, (-23)); ((-33065660986285207), (-24)); (99999999999994837, (-17))];
  [(24515452660597204, (-10)); (40504707098700266, (-17)); (99999999999999423, (-17)); ((-7078279744199198), (-23)); (80562171469761338, (-24)); (70782794778573375, (-24)); (99999999999999689, (-17)); (33060414542221364, (-24)); ((-80562173809869717), (-24)); ((-33060408839805517), (-24)); (99999999999999623, (-17)); (99999999999989964, (-17)); ((-41084760842226706), (-23)); ((-17853178361597039), (-23)); (41084760842266844, (-23)); (99999999999991562, (-17)); (22116765761352987, (-28)); (17853178361504667, (-23)); ((-22850055181322659), (-28)); (99999999999998401, (-17)); (99999999999987921, (-17)); ((-4816303999619169), (-22)); ((-97969625729008726), (-24)); (48163040320105527, (-23)); (99999999999988343, (-17)); (33062659317570185, (-24)); (97969609805015475, (-24)); ((-33062706482302197), (-24)); (99999999999999467, (-17))];
  [(24515457502090628, (-10)); (23420998831048689, (-17)); (99999999999999423, (-17)); ((-7078279744199198), (-23)); (80562171469761338, (-24)); (70782794778573375, (-24)); (99999999999999689, (-17)); (33060414542221364, (-24)); ((-80562173809869717), (-24)); ((-33060408839805517), (-24)); (99999999999999623, (-17)); (99999999999978417, (-17)); ((-6026555222983325), (-22)); ((-26188095688124936), (-23)); (60265552229919626, (-23)); (99999999999981837, (-17)); (32191196912625638, (-28)); (26188095687926185, (-23)); ((-33769098628511074), (-28)); (99999999999996581, (-17)); (99999999999975686, (-17)); ((-67343831108241582), (-23)); ((-18131880533554579), (-23)); (67343831707749405, (-23)); (99999999999977263, (-17)); (3306368221314415, (-23)); (18131878306915433, (-23)); ((-33063804286333963), (-24)); (99999999999998312, (-17))];
  [(2451545896491095, (-9)); (93240728288522445, (-17)); (99999999999999423, (-17)); ((-7078279744199198), (-23)); (80562171469761338, (-24)); (70782794778573375, (-24)); (99999999999999689, (-17)); (33060414542221364, (-24)); ((-80562173809869717), (-24)); ((-33060408839805517), (-24)); (99999999999999623, (-17)); (99999999999925482, (-17)); ((-11196407805939232), (-22)); ((-48653432125050513), (-23)); (11196407805969043, (-22)); (99999999999937317, (-17)); (58548417426453913, (-28)); (48653432124364491, (-23)); ((-63996030696955586), (-28)); (99999999999988165, (-17)); (99999999999920897, (-17)); ((-11904235619508354), (-22)); ((-40597218679659035), (-23)); (11904235753749552, (-22)); (99999999999929079, (-17)); (33066359584635837, (-24)); (40597214743332891, (-23)); ((-33066842881131612), (-24)); (99999999999991707, (-17))];
  [(24515458991010338, (-10)); (43989345557913895, (-18)); (99999999999999423, (-17)); ((-7078279744199198), (-23)); (80562171469761338, (-24)); (70782794778573375, (-24)); (99999999999999689, (-17)); (33060414542221364, (-24)); ((-80562173809869717), (-24)); ((-33060408839805517), (-24)); (99999999999999623, (-17)); (99999999999980183, (-17)); ((-57735435361572337), (-23)); ((-25088646013902681), (-23)); (57735435361651609, (-23)); (99999999999983336, (-17)); (30870844903396577, (-28)); (25088646013720262, (-23)); ((-32319702469862932), (-28)); (99999999999996858, (-17)); (9999999999997754, (-16)); ((-64813714276329055), (-23)); ((-17032430775685476), (-23)); (64813714839482573, (-23)); (99999999999978939, (-17)); (33063548139626624, (-24)); (17032428632710527, (-23)); ((-3306365856849695), (-23)); (99999999999998501, (-17))];
  [(24515454036513749, (-10)); (42447577944711301, (-17)); (99999999999999423, (-17)); ((-7078279744199198), (-23)); (80562171469761338, (-24)); (70782794778573375, (-24)); (99999999999999689, (-17)); (33060414542221364, (-24)); ((-80562173809869717), (-24)); ((-33060408839805517), (-24)); (99999999999999623, (-17)); (99999999999984723, (-17)); ((-50697454654534953), (-23)); ((-220303265703712), (-21)); (50697454654596077, (-23)); (99999999999987155, (-17)); (27185811052125482, (-28)); (22030326570230545, (-23)); ((-28302915566769116), (-28)); (99999999999997569, (-17)); (99999999999982336, (-17)); ((-57775733670401305), (-23)); ((-13974111099475082), (-23)); (57775734132430302, (-23)); (99999999999983258, (-17)); (3306317396629268, (-23)); (1397410918922361, (-22)); ((-33063254725042823), (-24)); (99999999999998967, (-17))];
  [(24515455819425718, (-10)); (52106819335747812, (-17)); (99999999999999423, (-17)); ((-7078279744199198), (-23)); (80562171469761338, (-24)); (70782794778573375, (-24)); (99999999999999689, (-17)); (33060414542221364, (-24)); ((-80562173809869717), (-24)); ((-33060408839805517), (-24)); (99999999999999623, (-17)); (99999999999972888, (-17)); ((-67525666905620197), (-23)); ((-29342942326720864), (-23)); (67525666905728628, (-23)); (99999999999977196, (-17)); (35962436727098739, (-28)); (29342942326471339, (-23)); ((-37944092312613975), (-28)); (99999999999995692, (-17)); (99999999999969891, (-17)); ((-74603945679727592), (-23)); ((-21286727412173344), (-23)); (74603946383554987, (-23)); (999999999999721, (-15)); (33064065186030096, (-24)); (21286724945457688, (-23)); ((-33064224018790787), (-24)); (9999999999999768, (-16))];
  [(24515450678084027, (-10)); (543318167235467, (-16)); (99999999999999423, (-17)); ((-7078279744199198), (-23)); (80562171469761338, (-24)); (70782794778573375, (-24)); (99999999999999689, (-17)); (33060414542221364, (-24)); ((-80562173809869717), (-24)); ((-33060408839805517), (-24)); (99999999999999623, (-17)); (99999999999999667, (-17)); ((-74773519590576366), (-24)); ((-32492461072074883), (-24)); (74773519590589653, (-24)); (99999999999999711, (-17)); (40790149809906076, (-29)); (3249246107204429, (-23)); ((-41039394105268912), (-29)); (99999999999999956, (-17)); (99999999999998823, (-17)); ((-14555631595835382), (-23)); (48069707925642762, (-24)); (14555631436912953, (-23)); (99999999999998868, (-17)); (3306082846763648, (-23)); ((-48069712737854623), (-24)); ((-33060821533653845), (-24)); (99999999999999845, (-17))];
  [(24515459834452686, (-10)); (40605481476262772, (-17)); (99999999999999423, (-17)); ((-7078279744199198), (-23)); (80562171469761338, (-24)); (70782794778573375, (-24)); (99999999999999689, (-17)); (33060414542221364, (-24)); ((-80562173809869717), (-24)); ((-33060408839805517), (-24)); (99999999999999623, (-17)); (9999999999995699, (-16)); ((-85064373785926442), (-23)); ((-36964299922453922), (-23)); (85064373786098538, (-23)); (99999999999963829, (-17)); (44979553352556507, (-28)); (36964299922057928, (-23)); ((-48123727225402035), (-28)); (99999999999993161, (-17)); (99999999999953371, (-17)); ((-92142652308067465), (-23)); ((-28908085587744574), (-23)); (92142653263916596, (-23)); (99999999999957501, (-17)); (33064981027251329, (-24)); (28908082541037234, (-23)); ((-33065247376891335), (-24)); (99999999999995759, (-17))];
  [(24515451303145532, (-10)); (92390425323457315, (-17)); (99999999999999423, (-17)); ((-7078279744199198), (-23)); (80562171469761338, (-24)); (70782794778573375, (-24)); (99999999999999689, (-17)); (33060414542221364, (-24)); ((-80562173809869717), (-24)); ((-33060408839805517), (-24)); (99999999999999623, (-17)); (99999999999975242, (-17)); ((-64538652011718173), (-23)); ((-28044949896986319), (-23)); (64538652011817223, (-23)); (99999999999979172, (-17)); (34413838518613759, (-28)); (28044949896758377, (-23)); ((-36223801735957295), (-28)); (9999999999999607, (-16)); (99999999999972367, (-17)); ((-71616930828737908), (-23)); ((-19988734883686663), (-23)); (71616931489644989, (-23)); (99999999999974298, (-17)); (33063907919805833, (-24)); (1998873251574592, (-22)); ((-33064051070977891), (-24)); (99999999999997957, (-17))];
  [(24515455824873862, (-10)); (18312884098395366, (-17)); (99999999999999423, (-17)); ((-7078279744199198), (-23)); (80562171469761338, (-24)); (70782794778573375, (-24)); (99999999999999689, (-17)); (33060414542221364, (-24)); ((-80562173809869717), (-24)); ((-33060408839805517), (-24)); (99999999999999623, (-17)); (99999999999986944, (-17)); ((-46870572638291927), (-23)); ((-20367374056733283), (-23)); (46870572638344173, (-23)); (9999999999998902, (-16)); (25172050370311335, (-28)); (2036737405661306, (-22)); ((-26127988661528434), (-28)); (99999999999997924, (-17)); (9999999999998469, (-16)); ((-53948851709136345), (-23)); ((-12311158459318686), (-23)); (53948852116180188, (-23)); (99999999999985389, (-17)); (3306296950720586, (-23)); (12311156675607644, (-23)); ((-33063036055268107), (-24)); (9999999999999919, (-16))];
  [(24515454884623401, (-10)); (81389363287349359, (-18)); (99999999999999423, (-17)); ((-7078279744199198), (-23)); (80562171469761338, (-24)); (70782794778573375, (-24)); (99999999999999689, (-17)); (33060414542221364, (-24)); ((-80562173809869717), (-24)); ((-33060408839805517), (-24)); (99999999999999623, (-17)); (99999999999992772, (-17)); ((-34885984210968666), (-23)); ((-15159530846983039), (-23)); (34885984210997608, (-23)); (99999999999993927, (-17)); (18827261842030142, (-28)); (15159530846916438, (-23)); ((-19355628211314979), (-28)); (99999999999998845, (-17)); (99999999999990952, (-17)); ((-41964263453986957), (-23)); ((-71033148533525294), (-24)); (41964263688839145, (-23)); (99999999999991152, (-17)); (33062325373309975, (-24)); (71033134659157712, (-24)); ((-33062355132966278), (-24)); (99999999999999689, (-17))];
  [(2451545819658028, (-9)); (74468553551662586, (-17)); (99999999999999423, (-17)); ((-7078279744199198), (-23)); (80562171469761338, (-24)); (70782794778573375, (-24)); (99999999999999689, (-17)); (33060414542221364, (-24)); ((-80562173809869717), (-24)); ((-33060408839805517), (-24)); (99999999999999623, (-17)); (99999999999945488, (-17)); ((-95768188430146441), (-23)); ((-41615589157597193), (-23)); (95768188430364552, (-23)); (99999999999954148, (-17)); (50417129697394759, (-28)); (41615589157095284, (-23)); ((-54402038429657296), (-28)); (9999999999999134, (-16)); (9999999999994148, (-16)); ((-10284646679851309), (-22)); ((-33559375176761302), (-23)); (10284646790817747, (-22)); (99999999999947053, (-17)); (33065533408108117, (-24)); (33559371776070265, (-23)); ((-33065878500323794), (-24)); (99999999999994316, (-17))];
  [(24515454005064513, (-10)); (57343411465728289, (-17)); (99999999999999423, (-17)); ((-7078279744199198), (-23)); (80562171469761338, (-24)); (70782794778573375, (-24)); (99999999999999689, (-17)); (33060414542221364, (-24)); ((-80562173809869717), (-24)); ((-33060408839805517), (-24)); (99999999999999623, (-17)); (99999999999978861, (-17)); ((-596240655554211), (-21)); ((-2590934085124741), (-22)); (59624065555505645, (-23)); (99999999999982225, (-17)); (31856388207049118, (-28)); (25909340851052862, (-23)); ((-33401614807360147), (-28)); (99999999999996647, (-17)); (99999999999976152, (-17)); ((-66702344443045214), (-23)); ((-17853125675469206), (-23)); (66702345033335709, (-23)); (99999999999977696, (-17)); (33063648215478125, (-24)); (17853123470042369, (-23)); ((-33063767340641393), (-24)); (99999999999998357, (-17))];
  [(24515456594016324, (-10)); (92993365830608132, (-19)); (99999999999999423, (-17)); ((-7078279744199198), (-23)); (80562171469761338, (-24)); (70782794778573375, (-24)); (99999999999999689, (-17)); (33060414542221364, (-24)); ((-80562173809869717), (-24)); ((-33060408839805517), (-24)); (99999999999999623, (-17)); (9999999999999003, (-16)); ((-40937477814118211), (-23)); ((-17789177255305347), (-23)); (40937477814158059, (-23)); (99999999999991607, (-17)); (22038483027331885, (-28)); (17789177255213634, (-23)); ((-22767343565988085), (-28)); (99999999999998401, (-17)); (99999999999987987, (-17)); ((-48015756970199105), (-23)); ((-97329614617399378), (-24)); (48015757291996811, (-23)); (99999999999988398, (-17)); (33062651370642395, (-24)); (97329598742105731, (-24)); ((-33062698165838893), (-24)); (99999999999999456, (-17))];
  [(2451545465790702, (-9)); (92813330951814221, (-17)); (99999999999999423, (-17)); ((-7078279744199198), (-23)); (80562171469761338, (-24)); (70782794778573375, (-24)); (99999999999999689, (-17)); (33060414542221364, (-24)); ((-80562173809869717), (-24)); ((-33060408839805517), (-24)); (99999999999999623, (-17)); (99999999999956712, (-17)); ((-85335204058257914), (-23)); ((-37081987865972026), (-23)); (8533520405843109, (-22)); (99999999999963585, (-17)); (45117266890406234, (-28)); (37081987865573512, (-23)); ((-4828193400641112), (-27)); (99999999999993128, (-17)); (99999999999953082, (-17)); ((-92413482576508101), (-23)); ((-29025773540216462), (-23)); (92413483536248999, (-23)); (99999999999957234, (-17)); (33064995016791787, (-24)); (29025770484552702, (-23)); ((-33065263280872247), (-24)); (99999999999995737, (-17))];
  [(24515459322870728, (-10)); (42115811934392855, (-17)); (99999999999999423, (-17)); ((-7078279744199198), (-23)); (80562171469761338, (-24)); (70782794778573375, (-24)); (99999999999999689, (-17)); (33060414542221364, (-24)); ((-80562173809869717), (-24)); ((-33060408839805517), (-24)); (99999999999999623, (-17)); (99999999999959188, (-17)); ((-82857114630705721), (-23)); ((-36005146469253648), (-23)); (82857114630868987, (-23)); (99999999999965672, (-17)); (43852308477176281, (-28)); (36005146468877947, (-23)); ((-46835868516836854), (-28)); (99999999999993516, (-17)); (99999999999955647, (-17)); ((-89935393184556915), (-23)); ((-27948932061571221), (-23)); (89935394108688082, (-23)); (99999999999959499, (-17)); (33064866524548495, (-24)); (27948929087858142, (-23)); ((-33065117912104949), (-24)); (99999999999996037, (-17))];
  [(24515458119862257, (-10)); (21805493569852952, (-17)); (99999999999999423, (-17)); ((-7078279744199198), (-23)); (80562171469761338, (-24)); (70782794778573375, (-24)); (99999999999999689, (-17)); (33060414542221364, (-24)); ((-80562173809869717), (-24)); ((-33060408839805517), (-24)); (99999999999999623, (-17)); (99999999999976363, (-17)); ((-63058510865245108), (-23)); ((-2740176194068852), (-22)); (63058510865339669, (-23)); (99999999999980105, (-17)); (33643711079518185, (-28)); (27401761940470923, (-23)); ((-35371705564557487), (-28)); (99999999999996236, (-17)); (99999999999973532, (-17)); ((-7013678970352897), (-22)); ((-19345546878454694), (-23)); (70136790343168134, (-23)); (99999999999975331, (-17)); (33063829714628389, (-24)); (19345544559459059, (-23)); ((-33063965406094379), (-24)); (99999999999998068, (-17))];
  [(24515456943550776, (-10)); (13514532460158812, (-17)); (99999999999999423, (-17)); ((-7078279744199198), (-23)); (80562171469761338, (-24)); (70782794778573375, (-24)); (99999999999999689, (-17)); (33060414542221364, (-24)); ((-80562173809869717), (-24)); ((-33060408839805517), (-24)); (99999999999999623, (-17)); (99999999999984668, (-17)); ((-50781524077765496), (-23)); ((-22066858519347374), (-23)); (50781524077826821, (-23)); (99999999999987088, (-17)); (27229118232131114, (-28)); (22066858519206253, (-23)); ((-28350100045315685), (-28)); (99999999999997558, (-17)); (9999999999998227, (-16)); ((-57859803092424085), (-23)); ((-1401064305123063), (-22)); (57859803555661015, (-23)); (9999999999998318, (-16)); (33063178364738813, (-24)); (14010641138199286, (-23)); ((-33063259469349006), (-24)); (99999999999998956, (-17))];
  [(2451545614028133, (-9)); (52415146262459134, (-18)); (99999999999999423, (-17)); ((-7078279744199198), (-23)); (80562171469761338, (-24)); (70782794778573375, (-24)); (99999999999999689, (-17)); (33060414542221364, (-24)); ((-80562173809869717), (-24)); ((-33060408839805517), (-24)); (99999999999999623, (-17)); (99999999999990097, (-17)); ((-40799263384378888), (-23)); ((-17729116863263043), (-23)); (40799263384418476, (-23)); (99999999999991662, (-17)); (21965197075688765, (-28)); (1772911686317195, (-22)); ((-22688517731239699), (-28)); (99999999999998423, (-17)); (99999999999988065, (-17)); ((-47877542542445412), (-23)); ((-9672901065128202), (-23)); (47877542862257302, (-23)); (99999999999988465, (-17)); (33062643930698704, (-24)); (96728994821689427, (-24)); ((-33062690240742993), (-24)); (99999999999999478, (-17))];
  [(24515453063525981, (-10)); (88229665852076378, (-17)); (99999999999999423, (-17)); ((-7078279744199198), (-23)); (80562171469761338, (-24)); (70782794778573375, (-24)); (99999999999999689, (-17)); (33060414542221364, (-24)); ((-80562173809869717), (-24)); ((-33060408839805517), (-24)); (99999999999999623, (-17)); (99999999999968525, (-17)); ((-72768404774417306), (-23)); ((-31621147924476009), (-23)); (72768404774543238, (-23)); (99999999999973532, (-17)); (38672112185356574, (-28)); (31621147924186233, (-23)); ((-40972780723791402), (-28)); (99999999999995004, (-17)); (99999999999965339, (-17)); ((-7984668347320598), (-22)); ((-23564933183255914), (-23)); (79846684252367119, (-23)); (9999999999996807, (-16)); (3306434037723818, (-23)); (23564930543170484, (-23)); ((-33064528500209325), (-24)); (99999999999997169, (-17))];
  [(24515457954700734, (-10)); (85950556942008538, (-17)); (99999999999999423, (-17)); ((-7078279744199198), (-23)); (80562171469761338, (-24)); (70782794778573375, (-24)); (99999999999999689, (-17)); (33060414542221364, (-24)); ((-80562173809869717), (-24)); ((-33060408839805517), (-24)); (99999999999999623, (-17)); (99999999999938982, (-17)); ((-10131663083721711), (-22)); ((-44026637106472769), (-23)); (10131663083746122, (-22)); (99999999999948674, (-17)); (53215423803147276, (-28)); (44026637105911017, (-23)); ((-57676086129276882), (-28)); (99999999999990319, (-17)); (99999999999934774, (-17)); ((-10839490912587304), (-22)); ((-35970423309071202), (-23)); (10839491031527146, (-22)); (99999999999941191, (-17)); (33065817707462575, (-24)); (35970419724883742, (-23)); ((-33066207611700602), (-24)); (99999999999993483, (-17))];
  [(24515456204036009, (-10)); (91796033689160694, (-17)); (99999999999999423, (-17)); ((-7078279744199198), (-23)); (80562171469761338, (-24)); (70782794778573375, (-24)); (99999999999999689, (-17)); (33060414542221364, (-24)); ((-80562173809869717), (-24)); ((-33060408839805517), (-24)); (99999999999999623, (-17)); (99999999999947276, (-17)); ((-94177731076601614), (-23)); ((-4092446385341004), (-22)); (94177731076812536, (-23)); (99999999999955647, (-17)); (49611917649097524, (-28)); (40924463852924664, (-23)); ((-53466120419898289), (-28)); (99999999999991629, (-17)); (99999999999943334, (-17)); ((-10125600946781726), (-22)); ((-32868249819992832), (-23)); (10125601055462624, (-22)); (99999999999948674, (-17)); (33065451605596807, (-24)); (3286824647190028, (-22)); ((-33065784419325094), (-24)); (99999999999994549, (-17))];
  [(24515450526186256, (-10)); (69876563321730656, (-17)); (99999999999999423, (-17)); ((-7078279744199198), (-23)); (80562171469761338, (-24)); (70782794778573375, (-24)); (99999999999999689, (-17)); (33060414542221364, (-24)); ((-80562173809869717), (-24)); ((-33060408839805517), (-24)); (99999999999999623, (-17)); (99999999999987421, (-17)); ((-45999299945585371), (-23)); ((-19988766848614353), (-23)); (4599929994563569, (-22)); (99999999999989431, (-17)); (24713447813064498, (-28)); (19988766848498558, (-23)); ((-25632829192545614), (-28)); (99999999999998002, (-17)); (99999999999985201, (-17)); ((-53077579028946739), (-23)); ((-11932551222395082), (-23)); (53077579423472112, (-23)); (99999999999985867, (-17)); (33062922945034068, (-24)); (11932549467493489, (-23)); ((-33062986271332458), (-24)); (99999999999999234, (-17))];
  [(245154578143183, (-8)); (48791182174879122, (-17)); (99999999999999423, (-17)); ((-7078279744199198), (-23)); (80562171469761338, (-24)); (70782794778573375, (-24)); (99999999999999689, (-17)); (33060414542221364, (-24)); ((-80562173809869717), (-24)); ((-33060408839805517), (-24)); (99999999999999623, (-17)); (99999999999964095, (-17)); ((-77708467990143973), (-23)); ((-3376782775599794), (-22)); (77708467990287566, (-23)); (99999999999969791, (-17)); (41213596649765492, (-28)); (33767827755667475, (-23)); ((-43837711238836619), (-28)); (99999999999994293, (-17)); (99999999999960743, (-17)); ((-84786746617962191), (-23)); ((-25711613178098736), (-23)); (84786747468109118, (-23)); (99999999999963984, (-17)); (33064598505505586, (-24)); (2571161037464974, (-22)); ((-33064816512740634), (-24)); (99999999999996636, (-17))];
  [(24515453057695702, (-10)); (37386655582257733, (-18)); (99999999999999423, (-17)); ((-7078279744199198), (-23)); (80562171469761338, (-24)); (70782794778573375, (-24)); (99999999999999689, (-17)); (33060414542221364, (-24)); ((-80562173809869717), (-24)); ((-33060408839805517), (-24)); (99999999999999623, (-17)); (9999999999999738, (-16)); ((-21007821122887387), (-23)); ((-91288441637107466), (-24)); (2100782112289788, (-22)); (99999999999997802, (-17)); (11400208800943185, (-28)); (91288441636865943, (-24)); ((-11592393711623572), (-28)); (99999999999999578, (-17)); (99999999999996048, (-17)); ((-28086100565283014), (-23)); ((-10726277112620639), (-24)); (28086100600745753, (-23)); (99999999999996003, (-17)); (33061571487457609, (-24)); (10726267826913984, (-24)); ((-33061574540827815), (-24)); (99999999999999933, (-17))];
  [(24515451318191206, (-10)); (95016118114596892, (-17)); (99999999999999423, (-17)); ((-7078279744199198), (-23)); (80562171469761338, (-24)); (70782794778573375, (-24)); (99999999999999689, (-17)); (33060414542221364, (-24)); ((-80562173809869717), (-24)); ((-33060408839805517), (-24)); (99999999999999623, (-17)); (99999999999973921, (-17)); ((-66238194358883246), (-23)); ((-28783477550729218), (-23)); (6623819435898758, (-22)); (99999999999978062, (-17)); (35295576577797084, (-28)); (2878347755048911, (-22)); ((-37202463332164371), (-28)); (99999999999995859, (-17)); (99999999999970979, (-17)); ((-73316473151486865), (-23)); ((-20727262593617239), (-23)); (73316473836814542, (-23)); (99999999999973066, (-17)); (33063997462799612, (-24)); (20727260169475976, (-23)); ((-33064149459887978), (-24)); (99999999999997802, (-17))];
  [(24515451812739661, (-10)); (738991169578462, (-15)); (99999999999999423, (-17)); ((-7078279744199198), (-23)); (80562171469761338, (-24)); (70782794778573375, (-24)); (99999999999999689, (-17)); (33060414542221364, (-24)); ((-80562173809869717), (-24)); ((-33060408839805517), (-24)); (99999999999999623, (-17)); (99999999999981137, (-17)); ((-56338087429116011), (-23)); ((-24481435434115602), (-23)); (56338087429191492, (-23)); (99999999999984135, (-17)); (30141269895867045, (-28)); (24481435433941907, (-23)); ((-31520341892132819), (-28)); (99999999999997002, (-17)); (9999999999997855, (-16)); ((-63416366363947431), (-23)); ((-16425220149701421), (-23)); (63416366907023103, (-23)); (99999999999979838, (-17)); (33063474056392306, (-24)); (16425218052932725, (-23)); ((-33063578202638592), (-24)); (99999999999998601, (-17))];
  [(24515453834245461, (-10)); (51895910019762126, (-18)); (99999999999999423, (-17)); ((-7078279744199198), (-23)); (80562171469761338, (-24)); (70782794778573375, (-24)); (99999999999999689, (-17)); (33060414542221364, (-24)); ((-80562173809869717), (-24)); ((-33060408839805517), (-24)); (99999999999999623, (-17)); (9999999999999577, (-16)); ((-26650060800356918), (-23)); ((-11580651332672322), (-23)); (26650060800373806, (-23)); (99999999999996436, (-17)); (14429719670109382, (-28)); (11580651332633454, (-23)); ((-14738765763411266), (-28)); (99999999999999334, (-17)); (99999999999994238, (-17)); ((-33728340161694663), (-23)); ((-35244350667585424), (-24)); (33728340278219111, (-23)); (99999999999994238, (-17)); (33061878984054876, (-24)); (35244339516360357, (-24)); ((-33061890913490616), (-24)); (99999999999999889, (-17))];
  [(2451545846026002, (-9)); (94903872841226111, (-17)); (99999999999999423, (-17)); ((-7078279744199198), (-23)); (80562171469761338, (-24)); (70782794778573375, (-24)); (99999999999999689, (-17)); (33060414542221364, (-24)); ((-80562173809869717), (-24)); ((-33060408839805517), (-24)); (99999999999999623, (-17)); (99999999999928213, (-17)); ((-10989280212174616), (-22)); ((-47753369511780388), (-23)); (10989280212203333, (-22)); (99999999999939615, (-17)); (5751434291981385, (-27)); (47753369511119512, (-23)); ((-62762572916597037), (-28)); (99999999999988598, (-17)); (99999999999923705, (-17)); ((-11697108028719402), (-22)); ((-39697155997911453), (-23)); (11697108159983943, (-22)); (99999999999931521, (-17)); (33066254508521055, (-24)); (3969715213008876, (-22)); ((-33066718898264217), (-24)); (99999999999992073, (-17))];
  [(24515456733753993, (-10)); (18677988050381999, (-17)); (99999999999999423, (-17)); ((-7078279744199198), (-23)); (80562171469761338, (-24)); (70782794778573375, (-24)); (99999999999999689, (-17)); (33060414542221364, (-24)); ((-80562173809869717), (-24)); ((-33060408839805517), (-24)); (99999999999999623, (-17)); (99999999999983524, (-17)); ((-52658197572064357), (-23)); ((-22882357635115708), (-23)); (52658197572130299, (-23)); (99999999999986144, (-17)); (28214634168760637, (-28)); (22882357634963962, (-23)); ((-29419244818029711), (-28)); (9999999999999738, (-16)); (9999999999998106, (-16)); ((-59736476559762131), (-23)); ((-14826142229042653), (-23)); (59736477049963614, (-23)); (99999999999982103, (-17)); (33063278428221085, (-24)); (14826140253956246, (-23)); ((-33063366961059306), (-24)); (99999999999998845, (-17))];
  [(24515457387958299, (-10)); (72699793029952675, (-17)); (99999999999999423, (-17)); ((-7078279744199198), (-23)); (80562171469761338, (-24)); (70782794778573375, (-24)); (99999999999999689, (-17)); (33060414542221364, (-24)); ((-80562173809869717), (-24)); ((-33060408839805517), (-24)); (99999999999999623, (-17)); (99999999999952138, (-17)); ((-89735027645222879), (-23)); ((-38993909250450277), (-23)); (89735027645414362, (-23)); (99999999999959743, (-17)); (47357352559657234, (-28)); (38993909250009619, (-23)); ((-50856541200516858), (-28)); (99999999999992395, (-17)); (99999999999948352, (-17)); ((-96813306100263836), (-23)); ((-30937695070155063), (-23)); (96813307123230164, (-23)); (99999999999953082, (-17)); (33065222569950864, (-24)); (30937691868987035, (-23)); ((-33065522094902855), (-24)); (99999999999995159, (-17))];
  [(2451545696637433, (-9)); (56525412447799006, (-17)); (99999999999999423, (-17)); ((-7078279744199198), (-23)); (80562171469761338, (-24)); (70782794778573375, (-24)); (99999999999999689, (-17)); (33060414542221364, (-24)); ((-80562173809869717), (-24)); ((-33060408839805517), (-24)); (99999999999999623, (-17)); (99999999999964517, (-17)); ((-77252255179397806), (-23)); ((-3356958275468292), (-22)); (77252255179539726, (-23)); (99999999999970157, (-17)); (40979824416281116, (-28)); (33569582754356325, (-23)); ((-43572923047463519), (-28)); (9999999999999436, (-16)); (99999999999961176, (-17)); ((-84330533813770112), (-23)); ((-25513368161701098), (-23)); (8433053465736149, (-22)); (99999999999964373, (-17)); (33064574760747403, (-24)); (2551336537333877, (-22)); ((-33064789893598161), (-24)); (99999999999996692, (-17))];
  [(24515450816772142, (-10)); (72030642897150787, (-17)); (99999999999999423, (-17)); ((-7078279744199198), (-23)); (80562171469761338, (-24)); (70782794778573375, (-24)); (99999999999999689, (-17)); (33060414542221364, (-24)); ((-80562173809869717), (-24)); ((-33060408839805517), (-24)); (99999999999999623, (-17)); (99999999999985667, (-17)); ((-49096964355471376), (-23)); ((-21334841485328723), (-23)); (49096964355528688, (-23)); (99999999999987932, (-17)); (26344658312695357, (-28)); (21334841485196808, (-23)); ((-27392532686576487), (-28)); (99999999999997713, (-17)); (99999999999983336, (-17)); ((-56175243394330819), (-23)); ((-13278625961519658), (-23)); (56175243833363655, (-23)); (99999999999984146, (-17)); (3306308856162925, (-23)); (13278624104190509, (-23)); ((-33063163194471054), (-24)); (99999999999999056, (-17))];
  [(24515450041511077, (-10)); (8350838070634895, (-16)); (99999999999999423, (-17)); ((-7078279744199198), (-23)); (80562171469761338, (-24)); (70782794778573375, (-24)); (99999999999999689, (-17)); (33060414542221364, (-24)); ((-80562173809869717), (-24)); ((-33060408839805517), (-24)); (99999999999999623, (-17)); (99999999999984301, (-17)); ((-51377465188362118), (-23)); ((-22325821759549507), (-23)); (51377465188424894, (-23)); (99999999999986788, (-17)); (27542816765983714, (-28)); (22325821759405051, (-23)); ((-28689828290850983), (-28)); (99999999999997502, (-17)); (99999999999981881, (-17)); ((-58455744194459248), (-23)); ((-1426960631113485), (-22)); (58455744666258802, (-23)); (99999999999982836, (-17)); (33063210214695195, (-24)); (14269604378397843, (-23)); ((-3306329362547497), (-23)); (99999999999998923, (-17))];
  [(2451545897573174, (-9)); (47750468173114169, (-17)); (99999999999999423, (-17)); ((-7078279744199198), (-23)); (80562171469761338, (-24)); (70782794778573375, (-24)); (99999999999999689, (-17)); (33060414542221364, (-24)); ((-80562173809869717), (-24)); ((-33060408839805517), (-24)); (99999999999999623, (-17)); (99999999999957878, (-17)); ((-84181453524299388), (-23)); ((-36580631328044238), (-23)); (84181453524467905, (-23)); (99999999999964562, (-17)); (44528654237116108, (-28)); (36580631327656429, (-23)); ((-4760802863046365), (-27)); (99999999999993305, (-17)); (99999999999954281, (-17)); ((-91259732059124718), (-23)); ((-28524416964145113), (-23)); (91259733002286376, (-23)); (99999999999958289, (-17)); (33064935226040292, (-24)); (28524413946636089, (-23)); ((-33065195535460531), (-24)); (9999999999999587, (-16))];
  [(24515451065827631, (-10)); (86410234097183825, (-17)); (99999999999999423, (-17)); ((-7078279744199198), (-23)); (80562171469761338, (-24)); (70782794778573375, (-24)); (99999999999999689, (-17)); (33060414542221364, (-24)); ((-80562173809869717), (-24)); ((-33060408839805517), (-24)); (99999999999999623, (-17)); (99999999999979006, (-17)); ((-59424768106969453), (-23)); ((-25822737138403441), (-23)); (59424768107053436, (-23)); (99999999999982347, (-17)); (31752558765072697, (-28)); (25822737138210191, (-23)); ((-33287261835823756), (-28)); (99999999999996669, (-17)); (99999999999976297, (-17)); ((-66503046997456739), (-23)); ((-1776652195603637), (-22)); (66503047584883606, (-23)); (99999999999977829, (-17)); (33063637671975613, (-24)); (17766519757199777, (-23)); ((-33063755844043724), (-24)); (99999999999998368, (-17))];
  [(24515458775486965, (-10)); (45686058141690822, (-17)); (99999999999999423, (-17)); ((-7078279744199198), (-23)); (80562171469761338, (-24)); (70782794778573375, (-24)); (99999999999999689, (-17)); (33060414542221364, (-24)); ((-80562173809869717), (-24)); ((-33060408839805517), (-24)); (99999999999999623, (-17)); (99999999999960332, (-17)); ((-81691747201722349), (-23)); ((-35498741866974793), (-23)); (81691747201881051, (-23)); (99999999999966627, (-17)); (43255928060626894, (-28)); (35498741866609584, (-23)); ((-46155856914253945), (-28)); (99999999999993694, (-17)); (99999999999956835, (-17)); ((-88770025772315562), (-23)); ((-27442527420764749), (-23)); (88770026679700708, (-23)); (99999999999960532, (-17)); (33064805947661857, (-24)); (27442524485590245, (-23)); ((-33065049552497408), (-24)); (99999999999996181, (-17))];
  [(24515458375486047, (-10)); (35097271765266913, (-17)); (99999999999999423, (-17)); ((-7078279744199198), (-23)); (80562171469761338, (-24)); (70782794778573375, (-24)); (99999999999999689, (-17)); (33060414542221364, (-24)); ((-80562173809869717), (-24)); ((-33060408839805517), (-24)); (99999999999999623, (-17)); (99999999999968536, (-17)); ((-7276057271247301), (-22)); ((-31617744541017127), (-23)); (727605727125989, (-21)); (99999999999973532, (-17)); (3866767016004763, (-27)); (3161774454072741, (-22)); ((-40967229608668276), (-28)); (99999999999995004, (-17)); (9999999999996535, (-16)); ((-79838851411374202), (-23)); ((-235615297995381), (-21)); (79838852190422792, (-23)); (9999999999996807, (-16)); (33064339926725972, (-24)); (2356152715971166, (-22)); ((-33064527942688805), (-24)); (99999999999997169, (-17))];
  [(24515457047784985, (-10)); (98081661186666647, (-17)); (99999999999999423, (-17)); ((-7078279744199198), (-23)); (80562171469761338, (-24)); (70782794778573375, (-24)); (99999999999999689, (-17)); (33060414542221364, (-24)); ((-80562173809869717), (-24)); ((-33060408839805517), (-24)); (99999999999999623, (-17)); (99999999999936706, (-17)); ((-10319113657504624), (-22)); ((-4484119421548268), (-22)); (10319113657529948, (-22)); (99999999999946765, (-17)); (54157274063714262, (-28)); (44841194214899948, (-23)); ((-58785198930877414), (-28)); (99999999999989941, (-17)); (99999999999932432, (-17)); ((-11026941483677243), (-22)); ((-3678498048005323), (-22)); (11026941605310884, (-22)); (99999999999939149, (-17)); (33065913402630522, (-24)); (36784976833871917, (-23)); ((-3306631909954695), (-23)); (99999999999993172, (-17))];
  [(24515459515920929, (-10)); (45895366923352399, (-17)); (99999999999999423, (-17)); ((-7078279744199198), (-23)); (80562171469761338, (-24)); (70782794778573375, (-24)); (99999999999999689, (-17)); (33060414542221364, (-24)); ((-80562173809869717), (-24)); ((-33060408839805517), (-24)); (99999999999999623, (-17)); (99999999999955669, (-17)); ((-86352777814146238), (-23)); ((-37524169464217948), (-23)); (86352777814323554, (-23)); (99999999999962708, (-17)); (45635914738941989, (-28)); (37524169463809879, (-23)); ((-48875903324585579), (-28)); (99999999999992961, (-17)); (99999999999951994, (-17)); ((-93431056317777653), (-23)); ((-29467955172103876), (-23)); (93431057292140997, (-23)); (99999999999956279, (-17)); (33065047701355857, (-24)); (29467952082788661, (-23)); ((-33065322990792513), (-24)); (99999999999995604, (-17))];
  [(24515453822104819, (-10)); (14378180169615773, (-17)); (99999999999999423, (-17)); ((-7078279744199198), (-23)); (80562171469761338, (-24)); (70782794778573375, (-24)); (99999999999999689, (-17)); (33060414542221364, (-24)); ((-80562173809869717), (-24)); ((-33060408839805517), (-24)); (99999999999999623, (-17)); (99999999999993838, (-17)); ((-32200936464210802), (-23)); ((-13992756718032937), (-23)); (32200936464235461, (-23)); (99999999999994826, (-17)); (17396560382286464, (-28)); (13992756717976194, (-23)); ((-17847390232361704), (-28)); (99999999999999034, (-17)); (99999999999992117, (-17)); ((-39279215745803206), (-23)); ((-59365406356335544), (-24)); (39279215942078231, (-23)); (9999999999999224, (-16)); (33062180140031533, (-24)); (59365393369765839, (-24)); ((-33062203483293081), (-24)); (99999999999999789, (-17))];
  [(24515451003211737, (-10)); (45185464602644965, (-17)); (99999999999999423, (-17)); ((-7078279744199198), (-23)); (80562171469761338, (-24)); (70782794778573375, (-24)); (99999999999999689, (-17)); (33060414542221364, (-24)); ((-80562173809869717), (-24)); ((-33060408839805517), (-24)); (99999999999999623, (-17)); (99999999999993205, (-17)); ((-33803877062501334), (-23)); ((-14689306573823862), (-23)); (33803877062528508, (-23)); (99999999999994282, (-17)); (18250982191232559, (-28)); (14689306573761327, (-23)); ((-18747225993820393), (-28)); (99999999999998923, (-17)); (99999999999991418, (-17)); ((-40882156321065464), (-23)); ((-6633090544418409), (-23)); (40882156540370542, (-23)); (99999999999991573, (-17)); (33062266873575996, (-24)); (66330891927610889, (-24)); ((-33062293959906658), (-24)); (99999999999999734, (-17))];
  [(24515459304284249, (-10)); (40866576057107185, (-17)); (99999999999999423, (-17)); ((-7078279744199198), (-23)); (80562171469761338, (-24)); (70782794778573375, (-24)); (99999999999999689, (-17)); (33060414542221364, (-24)); ((-80562173809869717), (-24)); ((-33060408839805517), (-24)); (99999999999999623, (-17)); (99999999999960054, (-17)); ((-81978554474631898), (-23)); ((-35623372536569337), (-23)); (81978554474791712, (-23)); (99999999999966394, (-17)); (43401413947564202, (-28)); (35623372536201566, (-23)); ((-46322390367947719), (-28)); (9999999999999365, (-16)); (99999999999956535, (-17)); ((-8905683304110475), (-22)); ((-27567158099841287), (-23)); (8905683395261123, (-22)); (99999999999960276, (-17)); (33064820727308633, (-24)); (2756715515518211, (-22)); ((-33065066294059836), (-24)); (99999999999996136, (-17))];
  [(24515454104090482, (-10)); (81482563830449617, (-17)); (99999999999999423, (-17)); ((-7078279744199198), (-23)); (80562171469761338, (-24)); (70782794778573375, (-24)); (99999999999999689, (-17)); (33060414542221364, (-24)); ((-80562173809869717), (-24)); ((-33060408839805517), (-24)); (99999999999999623, (-17)); (9999999999996656, (-16)); ((-75008143184035738), (-23)); ((-32594415080147389), (-23)); (75008143184169538, (-23)); (99999999999971878, (-17)); (39825407865994715, (-28)); (32594415079839492, (-23)); ((-42270076328065898), (-28)); (99999999999994682, (-17)); (99999999999963307, (-17)); ((-82086421850647653), (-23)); ((-24538200412974137), (-23)); (8208642266199237, (-22)); (9999999999996626, (-16)); (33064457511187594, (-24)); (24538197698822838, (-23)); ((-33064658918675367), (-24)); (99999999999996936, (-17))];
  [(24515458554554852, (-10)); (24896251876176168, (-17)); (99999999999999423, (-17)); ((-7078279744199198), (-23)); (80562171469761338, (-24)); (70782794778573375, (-24)); (99999999999999689, (-17)); (33060414542221364, (-24)); ((-80562173809869717), (-24)); ((-33060408839805517), (-24)); (99999999999999623, (-17)); (99999999999972822, (-17)); ((-67611817232765027), (-23)); ((-29380378521833975), (-23)); (67611817232873723, (-23)); (99999999999977141, (-17)); (36006857223005914, (-28)); (29380378521583809, (-23)); ((-37993497237209795), (-28)); (99999999999995681, (-17)); (99999999999969824, (-17)); ((-74690096005634769), (-23)); ((-21324163610134625), (-23)); (74690096710700039, (-23)); (99999999999972045, (-17)); (33064069697484241, (-24)); (21324161140570124, (-23)); ((-33064228985781627), (-24)); (99999999999997669, (-17))];
  [(24515458403175459, (-10)); (91022800417688809, (-17)); (99999999999999423, (-17)); ((-7078279744199198), (-23)); (80562171469761338, (-24)); (70782794778573375, (-24)); (99999999999999689, (-17)); (33060414542221364, (-24)); ((-80562173809869717), (-24)); ((-33060408839805517), (-24)); (99999999999999623, (-17)); (99999999999931732, (-17)); ((-10716736417136467), (-22)); ((-4656904406191914), (-22)); (10716736417163777, (-22)); (99999999999942557, (-17)); (56151511103775153, (-28)); (46569044061290631, (-23)); ((-61142202412156621), (-28)); (99999999999989153, (-17)); (99999999999927325, (-17)); ((-11424564237596707), (-22)); ((-38512830457945815), (-23)); (11424564364944519, (-22)); (99999999999934663, (-17)); (33066116029668438, (-24)); (38512826680260985, (-23)); ((-33066556022915277), (-24)); (99999999999992528, (-17))];
  [(24515454979925891, (-10)); (11957269479121668, (-17)); (99999999999999423, (-17)); ((-7078279744199198), (-23)); (80562171469761338, (-24)); (70782794778573375, (-24)); (99999999999999689, (-17)); (33060414542221364, (-24)); ((-80562173809869717), (-24)); ((-33060408839805517), (-24)); (99999999999999623, (-17)); (99999999999991507, (-17)); ((-37806981404761941), (-23)); ((-16428835631660629), (-23)); (37806981404795939, (-23)); (99999999999992861, (-17)); (20379564741476073, (-28)); (16428835631582411, (-23)); ((-21000423622297149), (-28)); (99999999999998657, (-17)); (99999999999989575, (-17)); ((-44885260605816398), (-23)); ((-8372619734599597), (-23)); (44885260882636136, (-23)); (99999999999989875, (-17)); (33062482956818333, (-24)); (83726182505805873, (-24)); ((-33062520510956752), (-24)); (999999999999996, (-15))];
  [(24515453478131075, (-10)); (2195017674855948, (-17)); (99999999999999423, (-17)); ((-7078279744199198), (-23)); (80562171469761338, (-24)); (70782794778573375, (-24)); (99999999999999689, (-17)); (33060414542221364, (-24)); ((-80562173809869717), (-24)); ((-33060408839805517), (-24)); (99999999999999623, (-17)); (99999999999996958, (-17)); ((-22636689510053433), (-23)); ((-98366608147106069), (-24)); (22636689510065618, (-23)); (99999999999997435, (-17)); (12276245448579729, (-28)); (98366608146825648, (-24)); ((-124983356997177), (-26)); (99999999999999512, (-17)); (9999999999999557, (-16)); ((-29714968929048319), (-23)); ((-17804444161130205), (-24)); (29714968987912758, (-23)); (99999999999995526, (-17)); (33061660403373996, (-24)); (17804434336867297, (-24)); ((-3306166563603903), (-23)); (99999999999999922, (-17))];
  [(24515456139070974, (-10)); (21417128468129709, (-19)); (99999999999999423, (-17)); ((-7078279744199198), (-23)); (80562171469761338, (-24)); (70782794778573375, (-24)); (99999999999999689, (-17)); (33060414542221364, (-24)); ((-80562173809869717), (-24)); ((-33060408839805517), (-24)); (99999999999999623, (-17)); (99999999999991551, (-17)); ((-37714143780743958), (-23)); ((-1638849350447966), (-22)); (37714143780777776, (-23)); (99999999999992883, (-17)); (20329597734613977, (-28)); (1638849350440182, (-22)); ((-20947688028627454), (-28)); (99999999999998657, (-17)); (99999999999989631, (-17)); ((-44792422983132148), (-23)); ((-83322776043493731), (-24)); (44792423258618015, (-23)); (99999999999989908, (-17)); (33062477885325651, (-24)); (83322761234000334, (-24)); ((-33062515208842098), (-24)); (999999999999996, (-15))];
  [(24515457906947308, (-10)); (97080373677309884, (-17)); (99999999999999423, (-17)); ((-7078279744199198), (-23)); (80562171469761338, (-24)); (70782794778573375, (-24)); (99999999999999689, (-17)); (33060414542221364, (-24)); ((-80562173809869717), (-24)); ((-33060408839805517), (-24)); (99999999999999623, (-17)); (99999999999930878, (-17)); ((-10783789531799912), (-22)); ((-46860420023037246), (-23)); (10783789531827566, (-22)); (99999999999941858, (-17)); (56487496903220579, (-28)); (46860420022400849, (-23)); ((-6154021736648474), (-27)); (9999999999998902, (-16)); (99999999999926437, (-17)); ((-11491617351296845), (-22)); ((-38804206441232028), (-23)); (11491617479608276, (-22)); (99999999999933908, (-17)); (33066150168442594, (-24)); (38804202641370933, (-23)); ((-33066596030654716), (-24)); (99999999999992417, (-17))];
  [(24515452433776096, (-10)); (46504386391683983, (-17)); (99999999999999423, (-17)); ((-7078279744199198), (-23)); (80562171469761338, (-24)); (70782794778573375, (-24)); (99999999999999689, (-17)); (33060414542221364, (-24)); ((-80562173809869717), (-24)); ((-33060408839805517), (-24)); (99999999999999623, (-17)); (9999999999998882, (-16)); ((-4336914362704954), (-22)); ((-18845845522355475), (-23)); (43369143627094269, (-23)); (99999999999990596, (-17)); (23324880224069051, (-28)); (18845845522252544, (-23)); ((-24142354781986342), (-28)); (99999999999998224, (-17)); (99999999999986688, (-17)); ((-5044742274819646), (-22)); ((-10789629809182038), (-23)); (50447423104931903, (-23)); (9999999999998721, (-16)); (33062781969364519, (-24)); (10789628141248518, (-23)); ((-3306283641489979), (-23)); (99999999999999367, (-17))];
  [(2451545768830637, (-9)); (11326227310579062, (-17)); (99999999999999423, (-17)); ((-7078279744199198), (-23)); (80562171469761338, (-24)); (70782794778573375, (-24)); (99999999999999689, (-17)); (33060414542221364, (-24)); ((-80562173809869717), (-24)); ((-33060408839805517), (-24)); (99999999999999623, (-17)); (99999999999982669, (-17)); ((-5400120633382023), (-22)); ((-23465955400094527), (-23)); (54001206333889581, (-23)); (99999999999985412, (-17)); (28917547761143003, (-28)); (23465955399934943, (-23)); ((-30184743593508756), (-28)); (99999999999997247, (-17)); (9999999999998016, (-16)); ((-6107948530222396), (-22)); ((-15409740038421968), (-23)); (61079485811722282, (-23)); (99999999999981282, (-17)); (33063349801537099, (-24)); (15409738018926693, (-23)); ((-33063443924023632), (-24)); (99999999999998757, (-17))];
  [(24515453405518741, (-10)); (82518607513012787, (-17)); (99999999999999423, (-17)); ((-7078279744199198), (-23)); (80562171469761338, (-24)); (70782794778573375, (-24)); (99999999999999689, (-17)); (33060414542221364, (-24)); ((-80562173809869717), (-24)); ((-33060408839805517), (-24)); (99999999999999623, (-17)); (99999999999969735, (-17)); ((-71365788067815717), (-23)); ((-31011647829368671), (-23)); (71365788067936843, (-23)); (99999999999974543, (-17)); (37948045775618448, (-28)); (3101164782908996, (-22)); ((-401606525812781), (-26)); (99999999999995193, (-17)); (99999999999966604, (-17)); ((-78444066786754797), (-23)); ((-22955433041777399), (-23)); (78444067545761401, (-23)); (9999999999996918, (-16)); (33064266840619064, (-24)); (22955430448074767, (-23)); ((-33064446855973923), (-24)); (99999999999997313, (-17))];
  [(24515458962206747, (-10)); (48489909381078, (-15)); (99999999999999423, (-17)); ((-7078279744199198), (-23)); (80562171469761338, (-24)); (70782794778573375, (-24)); (99999999999999689, (-17)); (33060414542221364, (-24)); ((-80562173809869717), (-24)); ((-33060408839805517), (-24)); (99999999999999623, (-17)); (99999999999980116, (-17)); ((-5783462333937811), (-22)); ((-25131747655298965), (-23)); (57834623339457657, (-23)); (99999999999983269, (-17)); (30923036782548347, (-28)); (25131747655115921, (-23)); ((-32376878955631128), (-28)); (99999999999996847, (-17)); (99999999999977462, (-17)); ((-64912902252709864), (-23)); ((-1707553242036096), (-22)); (64912902817288558, (-23)); (99999999999978861, (-17)); (33063553438722506, (-24)); (17075530274106143, (-23)); ((-33063664316654072), (-24)); (9999999999999849, (-16))];
  [(24515453504363406, (-10)); (42794392764723366, (-17)); (99999999999999423, (-17)); ((-7078279744199198), (-23)); (80562171469761338, (-24)); (70782794778573375, (-24)); (99999999999999689, (-17)); (33060414542221364, (-24)); ((-80562173809869717), (-24)); ((-33060408839805517), (-24)); (99999999999999623, (-17)); (99999999999986511, (-17)); ((-4765197968644195), (-22)); ((-20706930596572429), (-23)); (47651979686495954, (-23)); (99999999999988665, (-17)); (2558401654682563, (-27)); (20706930596448167, (-23)); ((-26570412536841559), (-28)); (99999999999997857, (-17)); (99999999999984224, (-17)); ((-54730258746060455), (-23)); ((-12650715024991503), (-23)); (54730259164331603, (-23)); (99999999999984979, (-17)); (33063011333341885, (-24)); (12650713215442441, (-23)); ((-33063080538003235), (-24)); (99999999999999145, (-17))];
  [(24515450692847404, (-10)); (32616351446554104, (-17)); (99999999999999423, (-17)); ((-7078279744199198), (-23)); (80562171469761338, (-24)); (70782794778573375, (-24)); (99999999999999689, (-17)); (33060414542221364, (-24)); ((-80562173809869717), (-24)); ((-33060408839805517), (-24)); (99999999999999623, (-17)); (99999999999996514, (-17)); ((-24209108216771064), (-23)); ((-10519947537509069), (-23)); (24209108216784998, (-23)); (99999999999997058, (-17)); (13120088183708891, (-28)); (10519947537476997, (-23)); ((-13374301666146948), (-28)); (99999999999999445, (-17)); (99999999999995071, (-17)); ((-31287387613176175), (-23)); ((-24637311908963299), (-24)); (31287387694631416, (-23)); (99999999999995037, (-17)); (33061746054422033, (-24)); (24637301564805425, (-24)); ((-330617537162851), (-22)); (99999999999999911, (-17))];
  [(24515455490201558, (-10)); (93489182529840253, (-17)); (99999999999999423, (-17)); ((-7078279744199198), (-23)); (80562171469761338, (-24)); (70782794778573375, (-24)); (99999999999999689, (-17)); (33060414542221364, (-24)); ((-80562173809869717), (-24)); ((-33060408839805517), (-24)); (99999999999999623, (-17)); (99999999999950939, (-17)); ((-90844214431194397), (-23)); ((-39475900832810115), (-23)); (90844214431390654, (-23)); (99999999999958733, (-17)); (47920989883659676, (-28)); (39475900832358493, (-23)); ((-515071318929472), (-26)); (99999999999992206, (-17)); (99999999999947109, (-17)); ((-97922492870300419), (-23)); ((-31419686689185174), (-23)); (97922493909205938, (-23)); (99999999999951994, (-17)); (33065279827267882, (-24)); (31419683451335464, (-23)); ((-33065587495139161), (-24)); (99999999999995004, (-17))];
  [(24515455611175001, (-10)); (79203038887705535, (-17)); (99999999999999423, (-17)); ((-7078279744199198), (-23)); (80562171469761338, (-24)); (70782794778573375, (-24)); (99999999999999689, (-17)); (33060414542221364, (-24)); ((-80562173809869717), (-24)); ((-33060408839805517), (-24)); (99999999999999623, (-17)); (9999999999995921, (-16)); ((-82838913906602746), (-23)); ((-35997237435399703), (-23)); (82838913906765927, (-23)); (99999999999965683, (-17)); (43842313471585669, (-28)); (35997237435024166, (-23)); ((-4682421117507829), (-27)); (99999999999993516, (-17)); (99999999999955669, (-17)); ((-89917192460715418), (-23)); ((-27941023027115555), (-23)); (89917193384585043, (-23)); (9999999999995951, (-16)); (33064865510385048, (-24)); (27941020054004367, (-23)); ((-33065116740772541), (-24)); (99999999999996037, (-17))];
  [(24515455084126759, (-10)); (72849065582714423, (-17)); (99999999999999423, (-17)); ((-7078279744199198), (-23)); (80562171469761338, (-24)); (70782794778573375, (-24)); (99999999999999689, (-17)); (33060414542221364, (-24)); ((-80562173809869717), (-24)); ((-33060408839805517), (-24)); (99999999999999623, (-17)); (99999999999965916, (-17)); ((-75722490755704631), (-23)); ((-32904831254545054), (-23)); (75722490755840982, (-23)); (99999999999971323, (-17)); (40192998739421176, (-28)); (32904831254231275, (-23)); ((-42685299739275706), (-28)); (99999999999994582, (-17)); (9999999999996263, (-16)); ((-82800769412054), (-20)); ((-24848616610988478), (-23)); (82800770233663476, (-23)); (9999999999996565, (-16)); (33064494845768667, (-24)); (24848613873214335, (-23)); ((-33064700660737708), (-24)); (99999999999996858, (-17))];
  [(24515451028396366, (-10)); (92609162569690706, (-17)); (99999999999999423, (-17)); ((-7078279744199198), (-23)); (80562171469761338, (-24)); (70782794778573375, (-24)); (99999999999999689, (-17)); (33060414542221364, (-24)); ((-80562173809869717), (-24)); ((-33060408839805517), (-24)); (99999999999999623, (-17)); (99999999999976408, (-17)); ((-62990563501541674), (-23)); ((-27372235752516553), (-23)); (62990563501636023, (-23)); (99999999999980149, (-17)); (33608730538982927, (-28)); (27372235752299416, (-23)); ((-35333402870207919), (-28)); (99999999999996259, (-17)); (99999999999973577, (-17)); ((-7006884234080171), (-22)); ((-19316020688036356), (-23)); (70068842979464521, (-23)); (99999999999975375, (-17)); (33063826161834474, (-24)); (19316018371287579, (-23)); ((-33063961554925491), (-24)); (9999999999999809, (-16))];
  [(24515459782857611, (-10)); (20755982757855895, (-17)); (99999999999999423, (-17)); ((-7078279744199198), (-23)); (80562171469761338, (-24)); (70782794778573375, (-24)); (99999999999999689, (-17)); (33060414542221364, (-24)); ((-80562173809869717), (-24)); ((-33060408839805517), (-24)); (99999999999999623, (-17)); (9999999999996867, (-16)); ((-72596765876202547), (-23)); ((-31546563097228523), (-23)); (72596765876327876, (-23)); (99999999999973654, (-17)); (38582159314115021, (-28)); (31546563096940113, (-23)); ((-40872860651575138), (-28)); (99999999999995026, (-17)); (99999999999965494, (-17)); ((-79675044577457029), (-23)); ((-23490348350333969), (-23)); (79675045354151842, (-23)); (99999999999968203, (-17)); (33064331243675067, (-24)); (23490345715924432, (-23)); ((-33064518455408889), (-24)); (99999999999997191, (-17))];
  [(24515450652149576, (-10)); (8692266618707345, (-17)); (99999999999999423, (-17)); ((-7078279744199198), (-23)); (80562171469761338, (-24)); (70782794778573375, (-24)); (99999999999999689, (-17)); (33060414542221364, (-24)); ((-80562173809869717), (-24)); ((-33060408839805517), (-24)); (99999999999999623, (-17)); (99999999999999478, (-17)); ((-93137753045169991), (-24)); ((-40472547373046531), (-24)); (93137753045190624, (-24)); (99999999999999567, (-17)); (50776912495038902, (-29)); (40472547372999057, (-24)); ((-51153525859604088), (-29)); (99999999999999911, (-17)); (99999999999998568, (-17)); ((-16392054914912233), (-23)); (40089621017541813, (-24)); (16392054782372226, (-23)); (99999999999998601, (-17)); (33060929814725795, (-24)); ((-40089626436907036), (-24)); ((-3306092323982421), (-23)); (99999999999999856, (-17))];
  [(24515455988405617, (-10)); (58246890465682633, (-17)); (99999999999999423, (-17)); ((-7078279744199198), (-23)); (80562171469761338, (-24)); (70782794778573375, (-24)); (99999999999999689, (-17)); (33060414542221364, (-24)); ((-80562173809869717), (-24)); ((-33060408839805517), (-24)); (99999999999999623, (-17)); (99999999999968914, (-17)); ((-72319067147335934), (-23)); ((-31425890499484428), (-23)); (72319067147460299, (-23)); (99999999999973854, (-17)); (38440010756394146, (-28)); (31425890499198215, (-23)); ((-40712988536029115), (-28)); (99999999999995071, (-17)); (9999999999996575, (-16)); ((-79397345852579931), (-23)); ((-23369675743409022), (-23)); (79397346625284403, (-23)); (99999999999968425, (-17)); (33064316805099243, (-24)); (2336967311818264, (-22)); ((-3306450238278191), (-23)); (99999999999997224, (-17))];
  [(24515458726298893, (-10)); (36249457950423014, (-17)); (99999999999999423, (-17)); ((-7078279744199198), (-23)); (80562171469761338, (-24)); (70782794778573375, (-24)); (99999999999999689, (-17)); (33060414542221364, (-24)); ((-80562173809869717), (-24)); ((-33060408839805517), (-24)); (99999999999999623, (-17)); (99999999999966016, (-17)); ((-75613589815296615), (-23)); ((-32857508894050337), (-23)); (75613589815432585, (-23)); (99999999999971423, (-17)); (40137471202720148, (-28)); (32857508893737448, (-23)); ((-42622017026872072), (-28)); (99999999999994604, (-17)); (9999999999996273, (-16)); ((-82691868473210496), (-23)); ((-24801294246893442), (-23)); (82691869293255131, (-23)); (99999999999965761, (-17)); (33064489205282072, (-24)); (2480129151272055, (-22)); ((-33064694298970384), (-24)); (99999999999996869, (-17))];
  [(24515453570806324, (-10)); (42758341704828795, (-17)); (99999999999999423, (-17)); ((-7078279744199198), (-23)); (80562171469761338, (-24)); (70782794778573375, (-24)); (99999999999999689, (-17)); (33060414542221364, (-24)); ((-80562173809869717), (-24)); ((-33060408839805517), (-24)); (99999999999999623, (-17)); (99999999999986289, (-17)); ((-48036669058054269), (-23)); ((-20874095446456615), (-23)); (48036669058109135, (-23)); (99999999999988454, (-17)); (25786668846809335, (-28)); (20874095446330338, (-23)); ((-26789126472692715), (-28)); (99999999999997824, (-17)); (99999999999983991, (-17)); ((-55114948112146223), (-23)); ((-128178798875937), (-21)); (5511494853594461, (-22)); (99999999999984746, (-17)); (33063031908485918, (-24)); (12817878065324456, (-23)); ((-33063102527720765), (-24)); (99999999999999123, (-17))];
  [(2451545050686609, (-9)); (96727563671928918, (-18)); (99999999999999423, (-17)); ((-7078279744199198), (-23)); (80562171469761338, (-24)); (70782794778573375, (-24)); (99999999999999689, (-17)); (33060414542221364, (-24)); ((-80562173809869717), (-24)); ((-33060408839805517), (-24)); (99999999999999623, (-17)); (99999999999999512, (-17)); ((-90246084232885674), (-24)); ((-39215987074753726), (-24)); (9024608423290505, (-23)); (999999999999996, (-15)); (49211445307479599, (-29)); (39215987074709151, (-24)); ((-49565906934390114), (-29)); (99999999999999933, (-17)); (99999999999998601, (-17)); ((-16102888037838046), (-23)); (41346181411434402, (-24)); (16102887901143798, (-23)); (99999999999998646, (-17)); (33060913927094822, (-24)); ((-41346186735195824), (-24)); ((-33060907274692111), (-24)); (99999999999999867, (-17))];
  [(2451545594557432, (-9)); (98532494647366808, (-17)); (99999999999999423, (-17)); ((-7078279744199198), (-23)); (80562171469761338, (-24)); (70782794778573375, (-24)); (99999999999999689, (-17)); (33060414542221364, (-24)); ((-80562173809869717), (-24)); ((-33060408839805517), (-24)); (99999999999999623, (-17)); (99999999999944389, (-17)); ((-96719465512700816), (-23)); ((-42028961865262671), (-23)); (96719465512923289, (-23)); (99999999999953226, (-17)); (50896928095146917, (-28)); (42028961864750741, (-23)); ((-54962145945580687), (-28)); (99999999999991163, (-17)); (99999999999940348, (-17)); ((-10379774386740112), (-22)); ((-33972747915876484), (-23)); (10379774499073577, (-22)); (99999999999946065, (-17)); (33065582154317067, (-24)); (33972744483725335, (-23)); ((-33065934803672092), (-24)); (99999999999994171, (-17))];
  [(24515458367119012, (-10)); (30322529689052147, (-17)); (99999999999999423, (-17)); ((-7078279744199198), (-23)); (80562171469761338, (-24)); (70782794778573375, (-24)); (99999999999999689, (-17)); (33060414542221364, (-24)); ((-80562173809869717), (-24)); ((-33060408839805517), (-24)); (99999999999999623, (-17)); (99999999999971045, (-17)); ((-69786281321896883), (-23)); ((-30325281049341601), (-23)); (69786281322012704, (-23)); (99999999999975642, (-17)); (37131810189187963, (-28)); (30325281049075082, (-23)); ((-39249159478060847), (-28)); (99999999999995404, (-17)); (9999999999996797, (-16)); ((-76864560063527637), (-23)); ((-22269066209531072), (-23)); (76864560799838004, (-23)); (9999999999997039, (-16)); (33064183944575852, (-24)); (22269063668060524, (-23)); ((-33064355220834057), (-24)); (99999999999997469, (-17))];
  [(24515451923029604, (-10)); (10975795191049931, (-17)); (99999999999999423, (-17)); ((-7078279744199198), (-23)); (80562171469761338, (-24)); (70782794778573375, (-24)); (99999999999999689, (-17)); (33060414542221364, (-24)); ((-80562173809869717), (-24)); ((-33060408839805517), (-24)); (99999999999999623, (-17)); (99999999999997968, (-17)); ((-18491990342595517), (-23)); ((-80356024180170422), (-24)); (18491990342603651, (-23)); (9999999999999829, (-16)); (10045082797573651, (-28)); (80356024179983294, (-24)); ((-10194067812108187), (-28)); (99999999999999678, (-17)); (99999999999996725, (-17)); ((-25570269821134212), (-23)); (20614117606091066, (-26)); (25570269820452668, (-23)); (99999999999996669, (-17)); (33061433948049531, (-24)); ((-20614962995877783), (-26)); ((-33061433934410805), (-24)); (99999999999999944, (-17))];
  [(24515457259387011, (-10)); (52829442528838466, (-17)); (99999999999999423, (-17)); ((-7078279744199198), (-23)); (80562171469761338, (-24)); (70782794778573375, (-24)); (99999999999999689, (-17)); (33060414542221364, (-24)); ((-80562173809869717), (-24)); ((-33060408839805517), (-24)); (99999999999999623, (-17)); (9999999999996495, (-16)); ((-76783410547372914), (-23)); ((-33365848658395436), (-23)); (7678341054751312, (-22)); (99999999999970501, (-17)); (4073883421820327, (-27)); (3336584865807279, (-22)); ((-43300918406430355), (-28)); (99999999999994427, (-17)); (9999999999996162, (-16)); ((-83861689188480794), (-23)); ((-25309634049913383), (-23)); (83861690025335105, (-23)); (9999999999996475, (-16)); (33064550284016296, (-24)); (25309631277055426, (-23)); ((-33064762548925388), (-24)); (99999999999996736, (-17))];
  [(24515457256365619, (-10)); (78276640510259854, (-17)); (99999999999999423, (-17)); ((-7078279744199198), (-23)); (80562171469761338, (-24)); (70782794778573375, (-24)); (99999999999999689, (-17)); (33060414542221364, (-24)); ((-80562173809869717), (-24)); ((-33060408839805517), (-24)); (99999999999999623, (-17)); (99999999999949318, (-17)); ((-92343538129895238), (-23)); ((-40127424463195506), (-23)); (92343538130098018, (-23)); (99999999999957367, (-17)); (48681765726523887, (-28)); (40127424462728855, (-23)); ((-52386983639962637), (-28)); (99999999999991951, (-17)); (99999999999945433, (-17)); ((-99421816547461509), (-23)); ((-3207121036913895), (-22)); (99421817607912581, (-23)); (99999999999950517, (-17)); (33065357112739447, (-24)); (32071207081705223, (-23)); ((-33065675941480428), (-24)); (99999999999994804, (-17))];
  [(24515459511704901, (-10)); (10339289668867857, (-17)); (99999999999999423, (-17)); ((-7078279744199198), (-23)); (80562171469761338, (-24)); (70782794778573375, (-24)); (99999999999999689, (-17)); (33060414542221364, (-24)); ((-80562173809869717), (-24)); ((-33060408839805517), (-24)); (99999999999999623, (-17)); (99999999999975231, (-17)); ((-64559747021536643), (-23)); ((-28054116628335464), (-23)); (64559747021635767, (-23)); (99999999999979161, (-17)); (3442383323344537, (-27)); (28054116628107374, (-23)); ((-36234903966203547), (-28)); (99999999999996059, (-17)); (99999999999972344, (-17)); ((-7163802583825332), (-22)); ((-19997901615733219), (-23)); (71638026499463534, (-23)); (99999999999974276, (-17)); (33063908936271913, (-24)); (19997899247094907, (-23)); ((-3306405218768938), (-23)); (99999999999997946, (-17))];
  [(24515456803808953, (-10)); (7190539803183108, (-16)); (99999999999999423, (-17)); ((-7078279744199198), (-23)); (80562171469761338, (-24)); (70782794778573375, (-24)); (99999999999999689, (-17)); (33060414542221364, (-24)); ((-80562173809869717), (-24)); ((-33060408839805517), (-24)); (99999999999999623, (-17)); (99999999999956368, (-17)); ((-85672575901201605), (-23)); ((-37228591116966038), (-23)); (85672575901376158, (-23)); (99999999999963307, (-17)); (4528996393069528, (-27)); (3722859111656437, (-22)); ((-48478998593282085), (-28)); (99999999999993072, (-17)); (99999999999952727, (-17)); ((-92750854414605006), (-23)); ((-29172376802364151), (-23)); (92750855379193919, (-23)); (99999999999956934, (-17)); (33065012558289801, (-24)); (29172373735543421, (-23)); ((-33065283091100795), (-24)); (99999999999995692, (-17))];
  [(24515456946789245, (-10)); (10870876569343269, (-18)); (99999999999999423, (-17)); ((-7078279744199198), (-23)); (80562171469761338, (-24)); (70782794778573375, (-24)); (99999999999999689, (-17)); (33060414542221364, (-24)); ((-80562173809869717), (-24)); ((-33060408839805517), (-24)); (99999999999999623, (-17)); (99999999999988909, (-17)); ((-43193341535232444), (-23)); ((-18769451599054156), (-23)); (43193341535276808, (-23)); (99999999999990674, (-17)); (23232161471451962, (-28)); (18769451598952059, (-23)); ((-2404298982128239), (-27)); (99999999999998246, (-17)); (99999999999986788, (-17)); ((-50271620658904989), (-23)); ((-1071323588006862), (-22)); (50271621013114517, (-23)); (9999999999998731, (-16)); (330627725558593, (-22)); (10713234217948103, (-23)); ((-3306282642432997), (-23)); (99999999999999378, (-17))];
  [(24515452383668991, (-10)); (38196189332795816, (-17)); (99999999999999423, (-17)); ((-7078279744199198), (-23)); (80562171469761338, (-24)); (70782794778573375, (-24)); (99999999999999689, (-17)); (33060414542221364, (-24)); ((-80562173809869717), (-24)); ((-33060408839805517), (-24)); (99999999999999623, (-17)); (99999999999991429, (-17)); ((-37976161760148715), (-23)); ((-16502352112562819), (-23)); (37976161760183009, (-23)); (99999999999992795, (-17)); (20468395330500029, (-28)); (16502352112483896, (-23)); ((-21095347690902599), (-28)); (99999999999998634, (-17)); (99999999999989497, (-17)); ((-4505444095877268), (-22)); ((-84461362210949632), (-24)); (45054441238023126, (-23)); (99999999999989797, (-17)); (33062491976172586, (-24)); (84461347314820076, (-24)); ((-33062530055400625), (-24)); (99999999999999589, (-17))];
  [(24515452353533539, (-10)); (20265179921504062, (-17)); (99999999999999423, (-17)); ((-7078279744199198), (-23)); (80562171469761338, (-24)); (70782794778573375, (-24)); (99999999999999689, (-17)); (33060414542221364, (-24)); ((-80562173809869717), (-24)); ((-33060408839805517), (-24)); (99999999999999623, (-17)); (99999999999995726, (-17)); ((-26814416362509039), (-23)); ((-11652071224069843), (-23)); (26814416362526138, (-23)); (99999999999996403, (-17)); (14517436025560037, (-28)); (11652071224030496, (-23)); ((-14829804051430528), (-28)); (99999999999999323, (-17)); (99999999999994194, (-17)); ((-33892695721485605), (-23)); ((-35958549635897309), (-24)); (33892695840371375, (-23)); (99999999999994194, (-17)); (33061887888098821, (-24)); (35958538430330142, (-24)); ((-33061900067872409), (-24)); (99999999999999889, (-17))];
  [(24515451667630775, (-10)); (72649594793464378, (-17)); (99999999999999423, (-17)); ((-7078279744199198), (-23)); (80562171469761338, (-24)); (70782794778573375, (-24)); (99999999999999689, (-17)); (33060414542221364, (-24)); ((-80562173809869717), (-24)); ((-33060408839805517), (-24)); (99999999999999623, (-17)); (99999999999982225, (-17)); ((-54684789316781066), (-23)); ((-23763002978790485), (-23)); (54684789316852174, (-23)); (99999999999985056, (-17)); (29275668553680112, (-28)); (23763002978626836, (-23)); ((-30574986986664499), (-28)); (99999999999997169, (-17)); (99999999999979683, (-17)); ((-61763068275364232), (-23)); ((-15706787639717495), (-23)); (61763068794684547, (-23)); (99999999999980871, (-17)); (3306338616432553, (-23)); (15706785597618312, (-23)); ((-33063483158621512), (-24)); (99999999999998701, (-17))];
  [(24515458071347959, (-10)); (87491612005544361, (-17)); (99999999999999423, (-17)); ((-7078279744199198), (-23)); (80562171469761338, (-24)); (70782794778573375, (-24)); (99999999999999689, (-17)); (33060414542221364, (-24)); ((-80562173809869717), (-24)); ((-33060408839805517), (-24)); (99999999999999623, (-17)); (99999999999936973, (-17)); ((-10297416308637937), (-22)); ((-44746909469362143), (-23)); (10297416308663155, (-22)); (99999999999946987, (-17)); (54048427733400709, (-28)); (44746909468781856, (-23)); ((-58656413060020896), (-28)); (99999999999989997, (-17)); (99999999999932709, (-17)); ((-11005244135122265), (-22)); ((-36690695726759435), (-23)); (110052442564441, (-20)); (99999999999939382, (-17)); (33065902343199011, (-24)); (3669069208775391, (-22)); ((-33066306154222503), (-24)); (99999999999993228, (-17))];
  [(24515458019411797, (-10)); (43753480567371494, (-17)); (99999999999999423, (-17)); ((-7078279744199198), (-23)); (80562171469761338, (-24)); (70782794778573375, (-24)); (99999999999999689, (-17)); (33060414542221364, (-24)); ((-80562173809869717), (-24)); ((-33060408839805517), (-24)); (99999999999999623, (-17)); (99999999999965772, (-17)); ((-75879987088927331), (-23)); ((-3297327050060647), (-22)); (75879987089064254, (-23)); (99999999999971201, (-17)); (40273513647657432, (-28)); (32973270500291384, (-23)); ((-42776338027294969), (-28)); (9999999999999456, (-16)); (99999999999962474, (-17)); ((-82958265743014064), (-23)); ((-24917055862256796), (-23)); (82958266566886674, (-23)); (99999999999965516, (-17)); (33064503024141917, (-24)); (24917053119274385, (-23)); ((-33064709813009713), (-24)); (99999999999996836, (-17))];
  [(24515453348083822, (-10)); (92086314811879277, (-17)); (99999999999999423, (-17)); ((-7078279744199198), (-23)); (80562171469761338, (-24)); (70782794778573375, (-24)); (99999999999999689, (-17)); (33060414542221364, (-24)); ((-80562173809869717), (-24)); ((-33060408839805517), (-24)); (99999999999999623, (-17)); (99999999999964873, (-17)); ((-76871468788718651), (-23)); ((-33404113927948233), (-23)); (76871468788859173, (-23)); (99999999999970446, (-17)); (40783811703140845, (-28)); (33404113927624846, (-23)); ((-43351988665563113), (-28)); (99999999999994416, (-17)); (99999999999961542, (-17)); ((-83949747428561444), (-23)); ((-25347899322377426), (-23)); (83949748266681117, (-23)); (99999999999964695, (-17)); (33064554852706402, (-24)); (2534789654660745, (-22)); ((-33064767683036523), (-24)); (99999999999996725, (-17))];
  [(24515455100691919, (-10)); (63007684693011212, (-18)); (99999999999999423, (-17)); ((-7078279744199198), (-23)); (80562171469761338, (-24)); (70782794778573375, (-24)); (99999999999999689, (-17)); (33060414542221364, (-24)); ((-80562173809869717), (-24)); ((-33060408839805517), (-24)); (99999999999999623, (-17)); (99999999999992684, (-17)); ((-35083427409984969), (-23)); ((-15245328805948351), (-23)); (35083427410014245, (-23)); (99999999999993849, (-17)); (18932191653148361, (-28)); (1524532880588099, (-22)); ((-19467205625289807), (-28)); (99999999999998834, (-17)); (99999999999990852, (-17)); ((-42161706650166737), (-23)); ((-71891128188454011), (-24)); (42161706887855691, (-23)); (99999999999991052, (-17)); (3306233602535559, (-23)); (7189111424880245, (-23)); ((-33062366351437867), (-24)); (99999999999999689, (-17))];
  [(24515454612927162, (-10)); (73857806817336991, (-17)); (99999999999999423, (-17)); ((-7078279744199198), (-23)); (80562171469761338, (-24)); (70782794778573375, (-24)); (99999999999999689, (-17)); (33060414542221364, (-24)); ((-80562173809869717), (-24)); ((-33060408839805517), (-24)); (99999999999999623, (-17)); (99999999999967926, (-17)); ((-73455380075100084), (-23)); ((-31919669615348537), (-23)); (73455380075228388, (-23)); (99999999999973022, (-17)); (39026373202292541, (-28)); (31919669615053261, (-23)); ((-41370795678119521), (-28)); (99999999999994904, (-17)); (99999999999964728, (-17)); ((-80533658764019448), (-23)); ((-2386345489684018), (-22)); (80533659553051952, (-23)); (99999999999967515, (-17)); (33064376356781922, (-24)); (23863452234037236, (-23)); ((-33064568513006729), (-24)); (99999999999997102, (-17))];
  [(24515459139540698, (-10)); (44092155662812582, (-17)); (99999999999999423, (-17)); ((-7078279744199198), (-23)); (80562171469761338, (-24)); (70782794778573375, (-24)); (99999999999999689, (-17)); (33060414542221364, (-24)); ((-80562173809869717), (-24)); ((-33060408839805517), (-24)); (99999999999999623, (-17)); (99999999999959099, (-17)); ((-8294468497762543), (-22)); ((-36043199726610577), (-23)); (82944684977789035, (-23)); (99999999999965594, (-17)); (43896731833620973, (-28)); (36043199726234076, (-23)); ((-46886383664457298), (-28)); (99999999999993505, (-17)); (99999999999955558, (-17)); ((-90022963530218558), (-23)); ((-27986985321823272), (-23)); (90022964455608098, (-23)); (9999999999995941, (-16)); (33064871037432689, (-24)); (27986982345214235, (-23)); ((-33065122990554869), (-24)); (99999999999996037, (-17))];
  [(24515451516505135, (-10)); (18761930336434596, (-17)); (99999999999999423, (-17)); ((-7078279744199198), (-23)); (80562171469761338, (-24)); (70782794778573375, (-24)); (99999999999999689, (-17)); (33060414542221364, (-24)); ((-80562173809869717), (-24)); ((-33060408839805517), (-24)); (99999999999999623, (-17)); (99999999999997435, (-17)); ((-20769897470628606), (-23)); ((-90254556246889008), (-24)); (20769897470638863, (-23)); (99999999999997835, (-17)); (11272523270522242, (-28)); (90254556246652924, (-24)); ((-11460277171693178), (-28)); (99999999999999589, (-17)); (99999999999996114, (-17)); ((-27848176916442302), (-23)); ((-96923916437435913), (-25)); (2784817694848685, (-22)); (99999999999996059, (-17)); (33061558527228114, (-24)); (96923824367019057, (-25)); ((-33061561255992518), (-24)); (99999999999999933, (-17))];
  [(24515458533025011, (-10)); (33930937672535288, (-17)); (99999999999999423, (-17)); ((-7078279744199198), (-23)); (80562171469761338, (-24)); (70782794778573375, (-24)); (99999999999999689, (-17)); (33060414542221364, (-24)); ((-80562173809869717), (-24)); ((-33060408839805517), (-24)); (99999999999999623, (-17)); (99999999999968314, (-17)); ((-73010994105219816), (-23)); ((-31726563908361088), (-23)); (73010994105346563, (-23)); (99999999999973332, (-17)); (38796492324434646, (-28)); (3172656390806937, (-22)); ((-41113223936406484), (-28)); (99999999999994971, (-17)); (99999999999965128, (-17)); ((-80089272800523383), (-23)); ((-23670349175161117), (-23)); (80089273583170339, (-23)); (99999999999967859, (-17)); (3306435301068726, (-23)); (23670346527053517, (-23)); ((-33064542619146963), (-24)); (99999999999997147, (-17))];
  [(24515452097702953, (-10)); (44017482619758663, (-17)); (99999999999999423, (-17)); ((-7078279744199198), (-23)); (80562171469761338, (-24)); (70782794778573375, (-24)); (99999999999999689, (-17)); (33060414542221364, (-24)); ((-80562173809869717), (-24)); ((-33060408839805517), (-24)); (99999999999999623, (-17)); (99999999999990585, (-17)); ((-39789255919532775), (-23)); ((-17290223149815126), (-23)); (3978925591957042, (-22)); (99999999999992062, (-17)); (21431098875439723, (-28)); (17290223149728488, (-23)); ((-22118973319606994), (-28)); (99999999999998501, (-17)); (99999999999988576, (-17)); ((-46867535092109338), (-23)); ((-92340073182889797), (-24)); (46867535397409706, (-23)); (99999999999988931, (-17)); (33062589707194856, (-24)); (9234005768725879, (-23)); ((-33062632975640611), (-24)); (99999999999999512, (-17))];
  [(2451545782516133, (-9)); (22497479927356123, (-17)); (99999999999999423, (-17)); ((-7078279744199198), (-23)); (80562171469761338, (-24)); (70782794778573375, (-24)); (99999999999999689, (-17)); (33060414542221364, (-24)); ((-80562173809869717), (-24)); ((-33060408839805517), (-24)); (99999999999999623, (-17)); (99999999999977385, (-17)); ((-61677999165052259), (-23)); ((-26801867463196418), (-23)); (61677999165142733, (-23)); (99999999999980993, (-17)); (32926335799467654, (-28)); (26801867462988239, (-23)); ((-34579561436487438), (-28)); (99999999999996414, (-17)); (99999999999974598, (-17)); ((-68756278023168963), (-23)); ((-18745652355322226), (-23)); (68756278642971844, (-23)); (99999999999976319, (-17)); (33063756864930468, (-24)); (18745650081976928, (-23)); ((-33063885767059541), (-24)); (9999999999999819, (-16))];
  [(24515457295475509, (-10)); (14855533332333914, (-17)); (99999999999999423, (-17)); ((-7078279744199198), (-23)); (80562171469761338, (-24)); (70782794778573375, (-24)); (99999999999999689, (-17)); (33060414542221364, (-24)); ((-80562173809869717), (-24)); ((-33060408839805517), (-24)); (99999999999999623, (-17)); (99999999999982825, (-17)); ((-53756939308220601), (-23)); ((-2335981038137144), (-22)); (53756939308289338, (-23)); (99999999999985556, (-17)); (28790956166489223, (-28)); (23359810381213297, (-23)); ((-30046520826942924), (-28)); (99999999999997269, (-17)); (99999999999980327, (-17)); ((-60835218280133535), (-23)); ((-15303595011623301), (-23)); (60835218786122145, (-23)); (99999999999981437, (-17)); (33063336945590853, (-24)); (15303593000205141, (-23)); ((-33063430026614577), (-24)); (99999999999998779, (-17))];
  [(24515459340149905, (-10)); (18618599107721312, (-17)); (99999999999999423, (-17)); ((-7078279744199198), (-23)); (80562171469761338, (-24)); (70782794778573375, (-24)); (99999999999999689, (-17)); (33060414542221364, (-24)); ((-80562173809869717), (-24)); ((-33060408839805517), (-24)); (99999999999999623, (-17)); (99999999999972045, (-17)); ((-6857804179918081), (-22)); ((-29800246589448346), (-23)); (6857804179929264, (-22)); (99999999999976485, (-17)); (36507143525837103, (-28)); (2980024658919098, (-22)); ((-38550829195571623), (-28)); (99999999999995548, (-17)); (99999999999969014, (-17)); ((-75656320558169493), (-23)); ((-21744031709692842), (-23)); (75656321277118512, (-23)); (99999999999971323, (-17)); (33064120504525801, (-24)); (21744029208176914, (-23)); ((-33064285016171784), (-24)); (99999999999997569, (-17))];
  [(24515458286160412, (-10)); (9776501065575518, (-16)); (99999999999999423, (-17)); ((-7078279744199198), (-23)); (80562171469761338, (-24)); (70782794778573375, (-24)); (99999999999999689, (-17)); (33060414542221364, (-24)); ((-80562173809869717), (-24)); ((-33060408839805517), (-24)); (99999999999999623, (-17)); (99999999999927314, (-17)); ((-11057854628688956), (-22)); ((-48051356213741676), (-23)); (11057854628718036, (-22)); (99999999999938849, (-17)); (57856997035994168, (-28)); (4805135621307253, (-22)); ((-63170579878146782), (-28)); (99999999999988454, (-17)); (99999999999922784, (-17)); ((-11765682444248578), (-22)); ((-399951427225438), (-21)); (11765682576498613, (-22)); (99999999999930711, (-17)); (33066289326382814, (-24)); (39995138832041502, (-23)); ((-33066759909883652), (-24)); (99999999999991951, (-17))];
  [(2451545637852693, (-9)); (98035275216840689, (-17)); (99999999999999423, (-17)); ((-7078279744199198), (-23)); (80562171469761338, (-24)); (70782794778573375, (-24)); (99999999999999689, (-17)); (33060414542221364, (-24)); ((-80562173809869717), (-24)); ((-33060408839805517), (-24)); (99999999999999623, (-17)); (99999999999941658, (-17)); ((-99065581037668815), (-23)); ((-43048454654587896), (-23)); (99065581037902194, (-23)); (99999999999950917, (-17)); (52080327408135486, (-28)); (43048454654050829, (-23)); ((-56346038945775945), (-28)); (9999999999999073, (-16)); (99999999999937528, (-17)); ((-10614385935866404), (-22)); ((-34992240782765473), (-23)); (10614386051571353, (-22)); (9999999999994359, (-16)); (33065702384329213, (-24)); (34992237273024471, (-23)); ((-3306607391459749), (-23)); (99999999999993816, (-17))];
  [(24515459264801121, (-10)); (77225041077885526, (-18)); (99999999999999423, (-17)); ((-7078279744199198), (-23)); (80562171469761338, (-24)); (70782794778573375, (-24)); (99999999999999689, (-17)); (33060414542221364, (-24)); ((-80562173809869717), (-24)); ((-33060408839805517), (-24)); (99999999999999623, (-17)); (99999999999977562, (-17)); ((-61446236004828717), (-23)); ((-26701155937219136), (-23)); (61446236004918503, (-23)); (99999999999981115, (-17)); (32805848230359753, (-28)); (26701155937012513, (-23)); ((-34446889785044732), (-28)); (99999999999996436, (-17)); (99999999999974787, (-17)); ((-68524514866275002), (-23)); ((-18644940821682744), (-23)); (6852451548274772, (-22)); (99999999999976452, (-17)); (33063744629460175, (-24)); (18644938556001289, (-23)); ((-33063872428607965), (-24)); (99999999999998213, (-17))];
  [(24515455808724621, (-10)); (24240335866249807, (-17)); (99999999999999423, (-17)); ((-7078279744199198), (-23)); (80562171469761338, (-24)); (70782794778573375, (-24)); (99999999999999689, (-17)); (33060414542221364, (-24)); ((-80562173809869717), (-24)); ((-33060408839805517), (-24)); (99999999999999623, (-17)); (99999999999984901, (-17)); ((-50400458883887272), (-23)); ((-21901268538051401), (-23)); (50400458883947676, (-23)); (9999999999998731, (-16)); (27030349976302222, (-28)); (2190126853791239, (-22)); ((-28133606555513779), (-28)); (99999999999997602, (-17)); (99999999999982525, (-17)); ((-57478737904020341), (-23)); ((-13845053057336464), (-23)); (57478738361782049, (-23)); (99999999999983435, (-17)); (33063158180918906, (-24)); (13845051156905571, (-23)); ((-33063237702790822), (-24)); (9999999999999899, (-16))];
  [(24515453688417338, (-10)); (78455817112693671, (-18)); (99999999999999423, (-17)); ((-7078279744199198), (-23)); (80562171469761338, (-24)); (70782794778573375, (-24)); (99999999999999689, (-17)); (33060414542221364, (-24)); ((-80562173809869717), (-24)); ((-33060408839805517), (-24)); (99999999999999623, (-17)); (99999999999995548, (-17)); ((-27383291459729893), (-23)); ((-11899273065756177), (-23)); (27383291459747724, (-23)); (99999999999996247, (-17)); (14822222899726303, (-28)); (11899273065715144, (-23)); ((-15147882947985636), (-28)); (99999999999999301, (-17)); (99999999999993983, (-17)); ((-34461570810533857), (-23)); ((-38430568240833241), (-24)); (34461570937592696, (-23)); (99999999999993994, (-17)); (33061918825084321, (-24)); (38430556847174388, (-24)); ((-33061932050738438), (-24)); (99999999999999878, (-17))];
  [(24515454492929801, (-10)); (11848665594476393, (-17)); (99999999999999423, (-17)); ((-7078279744199198), (-23)); (80562171469761338, (-24)); (70782794778573375, (-24)); (99999999999999689, (-17)); (33060414542221364, (-24)); ((-80562173809869717), (-24)); ((-33060408839805517), (-24)); (99999999999999623, (-17)); (99999999999992817, (-17)); ((-34759133476220326), (-23)); ((-15104408491846501), (-23)); (34759133476249056, (-23)); (9999999999999396, (-16)); (18759529453956469, (-28)); (15104408491780382, (-23)); ((-19283463714714344), (-28)); (99999999999998856, (-17)); (99999999999990996, (-17)); ((-41837412721060992), (-23)); ((-70481924940222491), (-24)); (41837412954090651, (-23)); (99999999999991185, (-17)); (33062318497877474, (-24)); (70481911107797652, (-24)); ((-33062347877499482), (-24)); (999999999999997, (-15))];
  [(24515452195342686, (-10)); (34324699319412533, (-17)); (99999999999999423, (-17)); ((-7078279744199198), (-23)); (80562171469761338, (-24)); (70782794778573375, (-24)); (99999999999999689, (-17)); (33060414542221364, (-24)); ((-80562173809869717), (-24)); ((-33060408839805517), (-24)); (99999999999999623, (-17)); (99999999999992939, (-17)); ((-34453135957788233), (-23)); ((-14971438793901425), (-23)); (34453135957816461, (-23)); (99999999999994071, (-17)); (18596305612724912, (-28)); (14971438793836466, (-23)); ((-19111934257409757), (-28)); (99999999999998868, (-17)); (99999999999991129, (-17)); ((-41531415207024937), (-23)); ((-69152227859607627), (-24)); (41531415435658198, (-23)); (99999999999991318, (-17)); (33062301928975141, (-24)); (69152214128359695, (-24)); ((-33062330630434077), (-24)); (999999999999997, (-15))];
  [(24515459386394611, (-10)); (54783354144340801, (-17)); (99999999999999423, (-17)); ((-7078279744199198), (-23)); (80562171469761338, (-24)); (70782794778573375, (-24)); (99999999999999689, (-17)); (33060414542221364, (-24)); ((-80562173809869717), (-24)); ((-33060408839805517), (-24)); (99999999999999623, (-17)); (99999999999950773, (-17)); ((-91000998650131792), (-23)); ((-39544030632685461), (-23)); (91000998650328727, (-23)); (99999999999958578, (-17)); (48000399175673381, (-28)); (39544030632232277, (-23)); ((-51599280403991088), (-28)); (99999999999992173, (-17)); (99999999999946942, (-17)); ((-98079277086985395), (-23)); ((-31487816494243886), (-23)); (98079278128143936, (-23)); (99999999999951827, (-17)); (3306528789450581, (-23)); (31487813251209185, (-23)); ((-33065596758214432), (-24)); (99999999999994982, (-17))];
  [(24515457569895666, (-10)); (63248005470318103, (-17)); (99999999999999423, (-17)); ((-7078279744199198), (-23)); (80562171469761338, (-24)); (70782794778573375, (-24)); (99999999999999689, (-17)); (33060414542221364, (-24)); ((-80562173809869717), (-24)); ((-33060408839805517), (-24)); (99999999999999623, (-17)); (9999999999995699, (-16)); ((-850625089178105), (-21)); ((-36963489553318954), (-23)); (85062508917982574, (-23)); (99999999999963818, (-17)); (44978442814100255, (-28)); (36963489552922982, (-23)); ((-4812261700237741), (-27)); (99999999999993172, (-17)); (99999999999953371, (-17)); ((-92140787439978309), (-23)); ((-28907275218547953), (-23)); (92140788395800632, (-23)); (9999999999995749, (-16)); (33064980914695096, (-24)); (28907272171902287, (-23)); ((-33065247265295439), (-24)); (9999999999999577, (-16))];
  [(24515450302104354, (-10)); (36287139835582172, (-17)); (99999999999999423, (-17)); ((-7078279744199198), (-23)); (80562171469761338, (-24)); (70782794778573375, (-24)); (99999999999999689, (-17)); (33060414542221364, (-24)); ((-80562173809869717), (-24)); ((-33060408839805517), (-24)); (99999999999999623, (-17)); (99999999999996558, (-17)); ((-24064237317186658), (-23)); ((-10456994609163452), (-23)); (24064237317200428, (-23)); (99999999999997102, (-17)); (1304292073042524, (-27)); (10456994609131763, (-23)); ((-13293810496861624), (-28)); (99999999999999445, (-17)); (99999999999995126, (-17)); ((-31142516715673023), (-23)); ((-24007782577612164), (-24)); (31142516795046914, (-23)); (99999999999995093, (-17)); (33061738220965575, (-24)); (24007772281353659, (-24)); ((-33061745622608329), (-24)); (99999999999999911, (-17))];
  [(24515450612021326, (-10)); (48951708824831353, (-17)); (99999999999999423, (-17)); ((-7078279744199198), (-23)); (80562171469761338, (-24)); (70782794778573375, (-24)); (99999999999999689, (-17)); (33060414542221364, (-24)); ((-80562173809869717), (-24)); ((-33060408839805517), (-24)); (99999999999999623, (-17)); (99999999999993239, (-17)); ((-33714704942871759), (-23)); ((-14650557273248962), (-23)); (33714704942898784, (-23)); (99999999999994316, (-17)); (18202681503616714, (-28)); (14650557273186758, (-23)); ((-18696710846199949), (-28)); (99999999999998923, (-17)); (99999999999991451, (-17)); ((-40792984202716957), (-23)); ((-65943412408954398), (-24)); (40792984420740861, (-23)); (99999999999991618, (-17)); (33062261971668249, (-24)); (6594339892186554, (-23)); ((-33062288880964056), (-24)); (99999999999999722, (-17))];
  [(24515453662807941, (-10)); (23726913716815312, (-17)); (99999999999999423, (-17)); ((-7078279744199198), (-23)); (80562171469761338, (-24)); (70782794778573375, (-24)); (99999999999999689, (-17)); (33060414542221364, (-24)); ((-80562173809869717), (-24)); ((-33060408839805517), (-24)); (99999999999999623, (-17)); (99999999999991884, (-17)); ((-36948969803003491), (-23)); ((-16055990962991698), (-23)); (36948969803035959, (-23)); (99999999999993172, (-17)); (19924309529936979, (-28)); (16055990962916987, (-23)); ((-20517476606585205), (-28)); (99999999999998712, (-17)); (99999999999989986, (-17)); ((-44027249016384369), (-23)); ((-79997750375644162), (-24)); (44027249280876548, (-23)); (99999999999990241, (-17)); (33062436740064507, (-24)); (79997735819155019, (-24)); ((-33062471952345311), (-24)); (99999999999999634, (-17))];
  [(24515457348921038, (-10)); (64321004739365906, (-17)); (99999999999999423, (-17)); ((-7078279744199198), (-23)); (80562171469761338, (-24)); (70782794778573375, (-24)); (99999999999999689, (-17)); (33060414542221364, (-24)); ((-80562173809869717), (-24)); ((-33060408839805517), (-24)); (99999999999999623, (-17)); (99999999999957689, (-17)); ((-84366599109652232), (-23)); ((-36661085418398906), (-23)); (8436659910982149, (-22)); (99999999999964417, (-17)); (44623054219889862, (-28)); (36661085418009392, (-23)); ((-47716275375364603), (-28)); (99999999999993283, (-17)); (99999999999954092, (-17)); ((-91444877641817698), (-23)); ((-2860487106062078), (-22)); (91444878587639876, (-23)); (99999999999958133, (-17)); (33064944815195825, (-24)); (28604868036988973, (-23)); ((-33065206417082661), (-24)); (99999999999995859, (-17))];
  [(24515453828739855, (-10)); (41675439346599796, (-17)); (99999999999999423, (-17)); ((-7078279744199198), (-23)); (80562171469761338, (-24)); (70782794778573375, (-24)); (99999999999999689, (-17)); (33060414542221364, (-24)); ((-80562173809869717), (-24)); ((-33060408839805517), (-24)); (99999999999999623, (-17)); (99999999999985756, (-17)); ((-48952776467104942), (-23)); ((-21272185356827574), (-23)); (48952776467161936, (-23)); (99999999999988021, (-17)); (26268593979507707, (-28)); (21272185356696432, (-23)); ((-27309821071241913), (-28)); (99999999999997735, (-17)); (99999999999983424, (-17)); ((-56031055508035835), (-23)); ((-13215969828251593), (-23)); (56031055944996977, (-23)); (99999999999984246, (-17)); (33063080839035072, (-24)); (13215967975690191, (-23)); ((-33063154878959769), (-24)); (99999999999999067, (-17))];
  [(24515458204967561, (-10)); (69867277373756664, (-17)); (99999999999999423, (-17)); ((-7078279744199198), (-23)); (80562171469761338, (-24)); (70782794778573375, (-24)); (99999999999999689, (-17)); (33060414542221364, (-24)); ((-80562173809869717), (-24)); ((-33060408839805517), (-24)); (99999999999999623, (-17)); (99999999999948586, (-17)); ((-93002660754734321), (-23)); ((-4041384291010103), (-22)); (93002660754940013, (-23)); (99999999999956757, (-17)); (49016064317017031, (-28)); (40413842909627692, (-23)); ((-52775006587069129), (-28)); (99999999999991829, (-17)); (99999999999944678, (-17)); ((-10008093916283143), (-22)); ((-32357628837835402), (-23)); (10008094023275426, (-22)); (99999999999949862, (-17)); (33065391073601797, (-24)); (3235762552860379, (-22)); ((-33065714946510086), (-24)); (99999999999994704, (-17))];
  [(24515451944677024, (-10)); (72641915262729762, (-17)); (99999999999999423, (-17)); ((-7078279744199198), (-23)); (80562171469761338, (-24)); (70782794778573375, (-24)); (99999999999999689, (-17)); (33060414542221364, (-24)); ((-80562173809869717), (-24)); ((-33060408839805517), (-24)); (99999999999999623, (-17)); (99999999999981115, (-17)); ((-56376148721435848), (-23)); ((-24497974779004165), (-23)); (56376148721511414, (-23)); (99999999999984113, (-17)); (30161258175598303, (-28)); (24497974778830233, (-23)); ((-3154199124111301), (-27)); (99999999999997002, (-17)); (99999999999978528, (-17)); ((-63454427655720465), (-23)); ((-1644175949584831), (-22)); (63454428199343003, (-23)); (99999999999979816, (-17)); (33063476085883274, (-24)); (16441757397821034, (-23)); ((-33063580379280498), (-24)); (99999999999998601, (-17))];
  [(24515454436739883, (-10)); (9028329858972628, (-17)); (99999999999999423, (-17)); ((-7078279744199198), (-23)); (80562171469761338, (-24)); (70782794778573375, (-24)); (99999999999999689, (-17)); (33060414542221364, (-24)); ((-80562173809869717), (-24)); ((-33060408839805517), (-24)); (99999999999999623, (-17)); (9999999999999365, (-16)); ((-32688549258124755), (-23)); ((-14204646429811498), (-23)); (32688549258150161, (-23)); (99999999999994649, (-17)); (17656384028479893, (-28)); (14204646429753024, (-23)); ((-18120505096419492), (-28)); (9999999999999899, (-16)); (99999999999991906, (-17)); ((-39766828532711985), (-23)); ((-61484303635328124), (-24)); (39766828735992703, (-23)); (99999999999992029, (-17)); (33062206515227545, (-24)); (61484290487532236, (-24)); ((-33062230944760938), (-24)); (99999999999999756, (-17))];
  [(24515454144961704, (-10)); (9531052804600828, (-16)); (99999999999999423, (-17)); ((-7078279744199198), (-23)); (80562171469761338, (-24)); (70782794778573375, (-24)); (99999999999999689, (-17)); (33060414542221364, (-24)); ((-80562173809869717), (-24)); ((-33060408839805517), (-24)); (99999999999999623, (-17)); (99999999999958333, (-17)); ((-83723752430913501), (-23)); ((-3638173960152545), (-22)); (83723752431080197, (-23)); (9999999999996495, (-16)); (44294875883924792, (-28)); (36381739601141844, (-23)); ((-47340464881528987), (-28)); (99999999999993383, (-17)); (99999999999954758, (-17)); ((-90802030972314306), (-23)); ((-28325525222494494), (-23)); (9080203190889888, (-22)); (99999999999958711, (-17)); (33064911479471166, (-24)); (28325522220121685, (-23)); ((-33065168638304527), (-24)); (99999999999995937, (-17))];
  [(24515453037150837, (-10)); (93004510723573297, (-19)); (99999999999999423, (-17)); ((-7078279744199198), (-23)); (80562171469761338, (-24)); (70782794778573375, (-24)); (99999999999999689, (-17)); (33060414542221364, (-24)); ((-80562173809869717), (-24)); ((-33060408839805517), (-24)); (99999999999999623, (-17)); (99999999999997824, (-17)); ((-19162625850950803), (-23)); ((-83270237409191548), (-24)); (19162625850959536, (-23)); (99999999999998168, (-17)); (10407040610513653, (-28)); (8327023740899059, (-23)); ((-10566547636869927), (-28)); (99999999999999656, (-17)); (99999999999996558, (-17)); ((-2624090531985498), (-22)); ((-2708072274675179), (-24)); (26240905328808245, (-23)); (99999999999996503, (-17)); (33061470684109301, (-24)); (27080635990458841, (-25)); ((-33061471388669441), (-24)); (99999999999999944, (-17))];
  [(24515458839683379, (-10)); (68136623471127888, (-17)); (99999999999999423, (-17)); ((-7078279744199198), (-23)); (80562171469761338, (-24)); (70782794778573375, (-24)); (99999999999999689, (-17)); (33060414542221364, (-24)); ((-80562173809869717), (-24)); ((-33060408839805517), (-24)); (99999999999999623, (-17)); (9999999999994541, (-16)); ((-95828857424643561), (-23)); ((-41641952566315532), (-23)); (95828857424861947, (-23)); (99999999999954081, (-17)); (50447672387410938, (-28)); (41641952565812982, (-23)); ((-54438675789469926), (-28)); (99999999999991329, (-17)); (99999999999941402, (-17)); ((-10290713579213863), (-22)); ((-33585738587485388), (-23)); (10290713690267485, (-22)); (99999999999946987, (-17)); (33065536511253361, (-24)); (33585735184787936, (-23)); ((-33065882182720533), (-24)); (99999999999994305, (-17))];
  [(2451545117434049, (-9)); (14859317542144945, (-17)); (99999999999999423, (-17)); ((-7078279744199198), (-23)); (80562171469761338, (-24)); (70782794778573375, (-24)); (99999999999999689, (-17)); (33060414542221364, (-24)); ((-80562173809869717), (-24)); ((-33060408839805517), (-24)); (99999999999999623, (-17)); (99999999999998423, (-17)); ((-16286029283421497), (-23)); ((-70770130165430206), (-24)); (16286029283427805, (-23)); (99999999999998679, (-17)); (88542923270646953, (-29)); (70770130165285059, (-24)); ((-89700469274589523), (-29)); (99999999999999745, (-17)); (99999999999997258, (-17)); ((-23364308793651588), (-23)); (97920359201013384, (-25)); (2336430876127782, (-22)); (99999999999997213, (-17)); (33061313091832471, (-24)); ((-9792043644648344), (-24)); ((-33061310853805962), (-24)); (99999999999999933, (-17))];
  [(24515452004669169, (-10)); (74193977365691066, (-17)); (99999999999999423, (-17)); ((-7078279744199198), (-23)); (80562171469761338, (-24)); (70782794778573375, (-24)); (99999999999999689, (-17)); (33060414542221364, (-24)); ((-80562173809869717), (-24)); ((-33060408839805517), (-24)); (99999999999999623, (-17)); (99999999999980216, (-17)); ((-57693580336486558), (-23)); ((-25070458121359189), (-23)); (57693580336565713, (-23)); (99999999999983358, (-17)); (30849190751018438, (-28)); (25070458121177034, (-23)); ((-32295277563321179), (-28)); (99999999999996847, (-17)); (99999999999977573, (-17)); ((-64771859251844585), (-23)); ((-17014242881758236), (-23)); (64771859814396699, (-23)); (99999999999978961, (-17)); (33063545940492082, (-24)); (17014240740167314, (-23)); ((-33063656113132394), (-24)); (9999999999999849, (-16))];
  [(2451545679856102, (-9)); (73762597387594364, (-17)); (99999999999999423, (-17)); ((-7078279744199198), (-23)); (80562171469761338, (-24)); (70782794778573375, (-24)); (99999999999999689, (-17)); (33060414542221364, (-24)); ((-80562173809869717), (-24)); ((-33060408839805517), (-24)); (99999999999999623, (-17)); (99999999999955247, (-17)); ((-8677741484742762), (-22)); ((-37708693368162778), (-23)); (86777414847606683, (-23)); (99999999999962352, (-17)); (45851926210056224, (-28)); (37708693367750686, (-23)); ((-49124593282101614), (-28)); (99999999999992895, (-17)); (99999999999951572, (-17)); ((-93855693344958566), (-23)); ((-29652479090087414), (-23)); (93855694325423915, (-23)); (99999999999955902, (-17)); (33065069644599667, (-24)); (29652475986729299, (-23)); ((-33065347990399421), (-24)); (99999999999995559, (-17))];
  [(24515457202604124, (-10)); (72885281101066723, (-17)); (99999999999999423, (-17)); ((-7078279744199198), (-23)); (80562171469761338, (-24)); (70782794778573375, (-24)); (99999999999999689, (-17)); (33060414542221364, (-24)); ((-80562173809869717), (-24)); ((-33060408839805517), (-24)); (99999999999999623, (-17)); (99999999999953215, (-17)); ((-88713855029479735), (-23)); ((-38550163786303521), (-23)); (88713855029666897, (-23)); (99999999999960654, (-17)); (46838142121223327, (-28)); (38550163785872837, (-23)); ((-50258130990243899), (-28)); (99999999999992562, (-17)); (99999999999949463, (-17)); ((-95792133499191165), (-23)); ((-30493949572247839), (-23)); (95792134507483197, (-23)); (99999999999954059, (-17)); (33065169826228484, (-24)); (30493946404850666, (-23)); ((-33065461939786427), (-24)); (99999999999995293, (-17))];
  [(24515456116389334, (-10)); (99259821133593129, (-17)); (99999999999999423, (-17)); ((-7078279744199198), (-23)); (80562171469761338, (-24)); (70782794778573375, (-24)); (99999999999999689, (-17)); (33060414542221364, (-24)); ((-80562173809869717), (-24)); ((-33060408839805517), (-24)); (99999999999999623, (-17)); (99999999999942668, (-17)); ((-98210449931363089), (-23)); ((-42676861701372804), (-23)); (98210449931592444, (-23)); (99999999999951772, (-17)); (5164939315247919, (-27)); (42676861700844975, (-23)); ((-55840332358059186), (-28)); (99999999999990896, (-17)); (99999999999938582, (-17)); ((-10528872826464345), (-22)); ((-34620647801279317), (-23)); (10528872940940418, (-22)); (99999999999944511, (-17)); (33065658601991745, (-24)); (34620644319818966, (-23)); ((-33066023080914884), (-24)); (9999999999999396, (-16))];
  [(24515451049710396, (-10)); (2365492452939173, (-16)); (99999999999999423, (-17)); ((-7078279744199198), (-23)); (80562171469761338, (-24)); (70782794778573375, (-24)); (99999999999999689, (-17)); (33060414542221364, (-24)); ((-80562173809869717), (-24)); ((-33060408839805517), (-24)); (99999999999999623, (-17)); (99999999999997402, (-17)); ((-20907669789442484), (-23)); ((-90853239001836599), (-24)); (20907669789452881, (-23)); (99999999999997802, (-17)); (11346913922076003, (-28)); (90853239001597378, (-24)); ((-11537437671904627), (-28)); (99999999999999578, (-17)); (99999999999996081, (-17)); ((-2798594923327691), (-22)); ((-10291074444239306), (-24)); (27985949267300799, (-23)); (99999999999996014, (-17)); (33061566077285631, (-24)); (10291065191645817, (-24)); ((-33061569014418982), (-24)); (99999999999999933, (-17))];
  [(24515453185706306, (-10)); (3181851231844034, (-16)); (99999999999999423, (-17)); ((-7078279744199198), (-23)); (80562171469761338, (-24)); (70782794778573375, (-24)); (99999999999999689, (-17)); (33060414542221364, (-24)); ((-80562173809869717), (-24)); ((-33060408839805517), (-24)); (99999999999999623, (-17)); (99999999999990963, (-17)); ((-38981810626218517), (-23)); ((-16939351818986631), (-23)); (38981810626254654, (-23)); (99999999999992395, (-17)); (21003044663065176, (-28)); (16939351818903471, (-23)); ((-2166378187951068), (-27)); (99999999999998557, (-17)); (99999999999988987, (-17)); ((-46060089810395059), (-23)); ((-8883135960765981), (-23)); (46060090104094305, (-23)); (9999999999998932, (-16)); (3306254625127827, (-23)); (88831344379011841, (-24)); ((-33062587208140076), (-24)); (99999999999999545, (-17))];
  [(2451545136156891, (-9)); (14071480473296716, (-17)); (99999999999999423, (-17)); ((-7078279744199198), (-23)); (80562171469761338, (-24)); (70782794778573375, (-24)); (99999999999999689, (-17)); (33060414542221364, (-24)); ((-80562173809869717), (-24)); ((-33060408839805517), (-24)); (99999999999999623, (-17)); (99999999999998301, (-17)); ((-16949921401301277), (-23)); ((-73655040329648209), (-24)); (16949921401308108, (-23)); (99999999999998568, (-17)); (92134714133928336, (-29)); (73655040329490979, (-24)); ((-93375307486098791), (-29)); (99999999999999711, (-17)); (99999999999997113, (-17)); ((-24028200901993732), (-23)); (69071255363977623, (-25)); (24028200879157824, (-23)); (99999999999997058, (-17)); (33061349544586972, (-24)); ((-69071334804450183), (-25)); ((-33061347806390085), (-24)); (99999999999999922, (-17))];
  [(24515451394111561, (-10)); (96697041166773412, (-17)); (99999999999999423, (-17)); ((-7078279744199198), (-23)); (80562171469761338, (-24)); (70782794778573375, (-24)); (99999999999999689, (-17)); (33060414542221364, (-24)); ((-80562173809869717), (-24)); ((-33060408839805517), (-24)); (99999999999999623, (-17)); (99999999999972722, (-17)); ((-67732025448729186), (-23)); ((-29432614402717557), (-23)); (67732025448838273, (-23)); (99999999999977052, (-17)); (36069600999406654, (-28)); (29432614402466502, (-23)); ((-38063996399273492), (-28)); (9999999999999567, (-16)); (99999999999969724, (-17)); ((-74810304219871976), (-23)); ((-21376399494992348), (-23)); (74810304926664537, (-23)); (99999999999971945, (-17)); (33064076068704201, (-24)); (2137639702145277, (-22)); ((-33064236072671847), (-24)); (99999999999997669, (-17))];
  [(24515458008942767, (-10)); (84141622129957039, (-17)); (99999999999999423, (-17)); ((-7078279744199198), (-23)); (80562171469761338, (-24)); (70782794778573375, (-24)); (99999999999999689, (-17)); (33060414542221364, (-24)); ((-80562173809869717), (-24)); ((-33060408839805517), (-24)); (99999999999999623, (-17)); (99999999999939915, (-17)); ((-10054127814838939), (-22)); ((-43689711466654803), (-23)); (10054127814862975, (-22)); (99999999999949452, (-17)); (52824469691817431, (-28)); (43689711466101616, (-23)); ((-5721700890859438), (-27)); (99999999999990452, (-17)); (9999999999993574, (-16)); ((-10761955644818429), (-22)); ((-35633497643619678), (-23)); (10761955762644039, (-22)); (99999999999942024, (-17)); (33065777987410736, (-24)); (35633494085074659, (-23)); ((-33066161465493191), (-24)); (99999999999993594, (-17))];
  [(24515457417147001, (-10)); (17317460822128428, (-17)); (99999999999999423, (-17)); ((-7078279744199198), (-23)); (80562171469761338, (-24)); (70782794778573375, (-24)); (99999999999999689, (-17)); (33060414542221364, (-24)); ((-80562173809869717), (-24)); ((-33060408839805517), (-24)); (99999999999999623, (-17)); (99999999999981348, (-17)); ((-56008982456445236), (-23)); ((-2433842450841543), (-22)); (56008982456519838, (-23)); (99999999999984301, (-17)); (29969148566477739, (-28)); (24338424508243758, (-23)); ((-31332714200971168), (-28)); (99999999999997036, (-17)); (99999999999978773, (-17)); ((-63087261396004688), (-23)); ((-16282209213120889), (-23)); (63087261934351597, (-23)); (99999999999980027, (-17)); (33063456579125309, (-24)); (16282207127234705, (-23)); ((-33063559338642355), (-24)); (99999999999998623, (-17))];
  [(24515456196712251, (-10)); (91379090615499481, (-17)); (99999999999999423, (-17)); ((-7078279744199198), (-23)); (80562171469761338, (-24)); (70782794778573375, (-24)); (99999999999999689, (-17)); (33060414542221364, (-24)); ((-80562173809869717), (-24)); ((-33060408839805517), (-24)); (99999999999999623, (-17)); (99999999999947609, (-17)); ((-93877645375203592), (-23)); ((-4079406310969371), (-22)); (93877645375413169, (-23)); (99999999999955935, (-17)); (49458650765011557, (-28)); (40794063109211425, (-23)); ((-53289039847470576), (-28)); (99999999999991673, (-17)); (99999999999943667, (-17)); ((-10095592377073037), (-22)); ((-32737849066355517), (-23)); (100955924853227, (-20)); (99999999999948974, (-17)); (33065436037152942, (-24)); (32737845728187173, (-23)); ((-33065766618966571), (-24)); (99999999999994582, (-17))];
  [(24515459295808636, (-10)); (22954782658596851, (-17)); (99999999999999423, (-17)); ((-7078279744199198), (-23)); (80562171469761338, (-24)); (70782794778573375, (-24)); (99999999999999689, (-17)); (33060414542221364, (-24)); ((-80562173809869717), (-24)); ((-33060408839805517), (-24)); (99999999999999623, (-17)); (99999999999970068, (-17)); ((-70961173128395259), (-23)); ((-30835824425155182), (-23)); (70961173128515009, (-23)); (9999999999997482, (-16)); (3773815636886491, (-27)); (30835824424879626, (-23)); ((-39926395523082192), (-28)); (99999999999995248, (-17)); (9999999999996696, (-16)); ((-78039451853147156), (-23)); ((-22779609624187141), (-23)); (78039452606339758, (-23)); (99999999999969491, (-17)); (33064245525711898, (-24)); (22779607043864596, (-23)); ((-33064423305815399), (-24)); (99999999999997358, (-17))];
  [(24515450058443965, (-10)); (44545902954191363, (-18)); (99999999999999423, (-17)); ((-7078279744199198), (-23)); (80562171469761338, (-24)); (70782794778573375, (-24)); (99999999999999689, (-17)); (33060414542221364, (-24)); ((-80562173809869717), (-24)); ((-33060408839805517), (-24)); (99999999999999623, (-17)); (99999999999999944, (-17)); ((-30848643156242403), (-24)); ((-13405124479686027), (-24)); (30848643156244666, (-24)); (99999999999999944, (-17)); (16858831244320896, (-29)); (13405124479680819, (-24)); ((-16903145549918008), (-29)); (1, 0); (99999999999999256, (-17)); ((-10163144015505535), (-23)); (67157045970206389, (-24)); (10163143793480424, (-23)); (99999999999999412, (-17)); (33060585615767466, (-24)); ((-67157049330200935), (-24)); ((-33060578820113226), (-24)); (99999999999999734, (-17))];
  [(24515452119384455, (-10)); (99177063286042122, (-17)); (99999999999999423, (-17)); ((-7078279744199198), (-23)); (80562171469761338, (-24)); (70782794778573375, (-24)); (99999999999999689, (-17)); (33060414542221364, (-24)); ((-80562173809869717), (-24)); ((-33060408839805517), (-24)); (99999999999999623, (-17)); (99999999999967715, (-17)); ((-73690358162977774), (-23)); ((-32021778171546426), (-23)); (73690358163106915, (-23)); (99999999999972844, (-17)); (39147421888343647, (-28)); (32021778171249255, (-23)); ((-41506797998636102), (-28)); (99999999999994871, (-17)); (99999999999964495, (-17)); ((-80768636848521373), (-23)); ((-23965563460806558), (-23)); (80768637640930362, (-23)); (99999999999967315, (-17)); (33064388650953921, (-24)); (2396556079023313, (-22)); ((-33064582185514063), (-24)); (99999999999997069, (-17))];
  [(24515459990435005, (-10)); (42855772809118908, (-17)); (99999999999999423, (-17)); ((-7078279744199198), (-23)); (80562171469761338, (-24)); (70782794778573375, (-24)); (99999999999999689, (-17)); (33060414542221364, (-24)); ((-80562173809869717), (-24)); ((-33060408839805517), (-24)); (99999999999999623, (-17)); (99999999999954603, (-17)); ((-87396903404917579), (-23)); ((-379778890296112), (-21)); (87396903405099236, (-23)); (99999999999961808, (-17)); (46168447047794837, (-28)); (37977889029193194, (-23)); ((-4948763621115404), (-27)); (99999999999992795, (-17)); (99999999999950906, (-17)); ((-9447518189354875), (-22)); ((-29921674772016436), (-23)); (94475182882916172, (-23)); (99999999999955314, (-17)); (33065101795756697, (-24)); (29921671648171558, (-23)); ((-33065384485236517), (-24)); (99999999999995481, (-17))];
  [(24515453927074214, (-10)); (37357721132568522, (-18)); (99999999999999423, (-17)); ((-7078279744199198), (-23)); (80562171469761338, (-24)); (70782794778573375, (-24)); (99999999999999689, (-17)); (33060414542221364, (-24)); ((-80562173809869717), (-24)); ((-33060408839805517), (-24)); (99999999999999623, (-17)); (9999999999999587, (-16)); ((-26328333612775178), (-23)); ((-11440846384799453), (-23)); (26328333612791663, (-23)); (99999999999996525, (-17)); (14256507931979829, (-28)); (1144084638476152, (-22)); ((-14557799410397365), (-28)); (99999999999999345, (-17)); (99999999999994349, (-17)); ((-33406612978734948), (-23)); ((-33846301082492305), (-24)); (33406613090637112, (-23)); (99999999999994349, (-17)); (33061861403690675, (-24)); (33846290037642307, (-24)); ((-33061872717897461), (-24)); (99999999999999889, (-17))];
  [(24515455447317599, (-10)); (98165076604658719, (-17)); (99999999999999423, (-17)); ((-7078279744199198), (-23)); (80562171469761338, (-24)); (70782794778573375, (-24)); (99999999999999689, (-17)); (33060414542221364, (-24)); ((-80562173809869717), (-24)); ((-33060408839805517), (-24)); (99999999999999623, (-17)); (99999999999948097, (-17)); ((-93444236119938079), (-23)); ((-40605727281074), (-20)); (93444236120145729, (-23)); (99999999999956335, (-17)); (49239856111179377, (-28)); (40605727280596151, (-23)); ((-53034243663319103), (-28)); (99999999999991751, (-17)); (99999999999944178, (-17)); ((-10052251452169139), (-22)); ((-32549513223407075), (-23)); (10052251559795976, (-22)); (99999999999949407, (-17)); (3306541380852378, (-23)); (32549509899572069, (-23)); ((-33065741006038815), (-24)); (99999999999994649, (-17))];
  [(24515450839304598, (-10)); (43784149468701072, (-17)); (99999999999999423, (-17)); ((-7078279744199198), (-23)); (80562171469761338, (-24)); (70782794778573375, (-24)); (99999999999999689, (-17)); (33060414542221364, (-24)); ((-80562173809869717), (-24)); ((-33060408839805517), (-24)); (99999999999999623, (-17)); (99999999999993938, (-17)); ((-31942570411034439), (-23)); ((-13880485036006515), (-23)); (31942570411058706, (-23)); (99999999999994893, (-17)); (1725832113880903, (-27)); (13880485035950679, (-23)); ((-17701395904623496), (-28)); (99999999999999045, (-17)); (99999999999992217, (-17)); ((-39020849696338599), (-23)); ((-58242689450654361), (-24)); (39020849888901593, (-23)); (99999999999992317, (-17)); (33062166107961908, (-24)); (58242676549511741, (-24)); ((-33062188804391266), (-24)); (99999999999999789, (-17))];
  [(24515457942611524, (-10)); (88748243665322335, (-17)); (99999999999999423, (-17)); ((-7078279744199198), (-23)); (80562171469761338, (-24)); (70782794778573375, (-24)); (99999999999999689, (-17)); (33060414542221364, (-24)); ((-80562173809869717), (-24)); ((-33060408839805517), (-24)); (99999999999999623, (-17)); (99999999999936995, (-17)); ((-10295534871210734), (-22)); ((-44738733776964644), (-23)); (1029553487123594, (-21)); (99999999999946998, (-17)); (54039542097158698, (-28)); (4473873377638457, (-22)); ((-58645310829774644), (-28)); (99999999999989997, (-17)); (99999999999932743, (-17)); ((-11003362697722095), (-22)); ((-36682520033739923), (-23)); (11003362819016885, (-22)); (99999999999939404, (-17)); (33065901439478126, (-24)); (36682516395356633, (-23)); ((-3306630503821249), (-23)); (99999999999993228, (-17))];
  [(24515450151931699, (-10)); (13235942033874826, (-17)); (99999999999999423, (-17)); ((-7078279744199198), (-23)); (80562171469761338, (-24)); (70782794778573375, (-24)); (99999999999999689, (-17)); (33060414542221364, (-24)); ((-80562173809869717), (-24)); ((-33060408839805517), (-24)); (99999999999999623, (-17)); (99999999999999512, (-17)); ((-90330822670741892), (-24)); ((-39252809741410443), (-24)); (90330822670761294, (-24)); (99999999999999589, (-17)); (49255855749824084, (-29)); (39252809741365782, (-24)); ((-4961031585537512), (-28)); (99999999999999922, (-17)); (99999999999998601, (-17)); ((-16111361881501932), (-23)); (41309358741976203, (-24)); (16111361744929418, (-23)); (99999999999998634, (-17)); (33060914378025947, (-24)); ((-41309364068539213), (-24)); ((-33060907721387727), (-24)); (99999999999999856, (-17))];
  [(24515452351779724, (-10)); (5748026203226414, (-16)); (99999999999999423, (-17)); ((-7078279744199198), (-23)); (80562171469761338, (-24)); (70782794778573375, (-24)); (99999999999999689, (-17)); (33060414542221364, (-24)); ((-80562173809869717), (-24)); ((-33060408839805517), (-24)); (99999999999999623, (-17)); (99999999999985378, (-17)); ((-49586532875573857), (-23)); ((-21547581046526965), (-23)); (49586532875632323, (-23)); (9999999999998771, (-16)); (26601167864917472, (-28)); (21547581046392406, (-23)); ((-27670088442732776), (-28)); (99999999999997669, (-17)); (99999999999983025, (-17)); ((-56664811907400025), (-23)); ((-1349136553890326), (-22)); (56664812353467078, (-23)); (99999999999983891, (-17)); (3306311460699144, (-23)); (13491363665385913, (-23)); ((-33063191100629666), (-24)); (99999999999999023, (-17))];
  [(2451545960815738, (-9)); (92179988159208082, (-17)); (99999999999999423, (-17)); ((-7078279744199198), (-23)); (80562171469761338, (-24)); (70782794778573375, (-24)); (99999999999999689, (-17)); (33060414542221364, (-24)); ((-80562173809869717), (-24)); ((-33060408839805517), (-24)); (99999999999999623, (-17)); (99999999999921041, (-17)); ((-11525261590819815), (-22)); ((-50082449820171747), (-23)); (115252615908514, (-20)); (99999999999933575, (-17)); (60185629056206064, (-28)); (50082449819444824, (-23)); ((-65957239669955925), (-28)); (99999999999987454, (-17)); (99999999999916334, (-17)); ((-12233089399664512), (-22)); ((-42026236483501046), (-23)); (12233089538631748, (-22)); (99999999999925104, (-17)); (33066525955115071, (-24)); (42026232438411895, (-23)); ((-33067040013527375), (-24)); (99999999999991107, (-17))];
  [(24515454630899546, (-10)); (26538189367816045, (-18)); (99999999999999423, (-17)); ((-7078279744199198), (-23)); (80562171469761338, (-24)); (70782794778573375, (-24)); (99999999999999689, (-17)); (33060414542221364, (-24)); ((-80562173809869717), (-24)); ((-33060408839805517), (-24)); (99999999999999623, (-17)); (9999999999999466, (-16)); ((-29974745335131945), (-23)); ((-13025376446458327), (-23)); (29974745335153312, (-23)); (99999999999995504, (-17)); (16207929017855342, (-28)); (13025376446409159, (-23)); ((-16598389329658403), (-28)); (99999999999999156, (-17)); (99999999999993017, (-17)); ((-37053024648706397), (-23)); ((-49691602904600792), (-24)); (37053024812997103, (-23)); (99999999999993072, (-17)); (33062059483427396, (-24)); (49691590654104307, (-24)); ((-3306207789846403), (-23)); (99999999999999833, (-17))];
  [(24515459499103217, (-10)); (66946157026838049, (-17)); (99999999999999423, (-17)); ((-7078279744199198), (-23)); (80562171469761338, (-24)); (70782794778573375, (-24)); (99999999999999689, (-17)); (33060414542221364, (-24)); ((-80562173809869717), (-24)); ((-33060408839805517), (-24)); (99999999999999623, (-17)); (9999999999994158, (-16)); ((-99136990226178657), (-23)); ((-43079485160955543), (-23)); (99136990226412375, (-23)); (99999999999950862, (-17)); (52117533951162164, (-28)); (43079485160417698, (-23)); ((-56387672309199388), (-28)); (99999999999990719, (-17)); (99999999999937461, (-17)); ((-106215268546148), (-20)); ((-35023271291493944), (-23)); (10621526970422367, (-22)); (99999999999943534, (-17)); (33065706162512296, (-24)); (35023267779391313, (-23)); ((-33066078099898085), (-24)); (99999999999993816, (-17))];
  [(24515458747504056, (-10)); (55071145772758623, (-18)); (99999999999999423, (-17)); ((-7078279744199198), (-23)); (80562171469761338, (-24)); (70782794778573375, (-24)); (99999999999999689, (-17)); (33060414542221364, (-24)); ((-80562173809869717), (-24)); ((-33060408839805517), (-24)); (99999999999999623, (-17)); (99999999999980738, (-17)); ((-56923125548634564), (-23)); ((-24735660833220388), (-23)); (56923125548711623, (-23)); (99999999999983802, (-17)); (30446091995796414, (-28)); (24735660833043067, (-23)); ((-31854519022544991), (-28)); (99999999999996936, (-17)); (99999999999978118, (-17)); ((-64001404475061162), (-23)); ((-16679445568147839), (-23)); (64001405026542958, (-23)); (99999999999979461, (-17)); (33063505009921603, (-24)); (16679443452033654, (-23)); ((-33063611800299462), (-24)); (99999999999998546, (-17))];
  [(24515453759357128, (-10)); (77772967727277098, (-17)); (99999999999999423, (-17)); ((-7078279744199198), (-23)); (80562171469761338, (-24)); (70782794778573375, (-24)); (99999999999999689, (-17)); (33060414542221364, (-24)); ((-80562173809869717), (-24)); ((-33060408839805517), (-24)); (99999999999999623, (-17)); (99999999999970346, (-17)); ((-70626713126116462), (-23)); ((-30690486499007023), (-23)); (70626713126235089, (-23)); (99999999999975053, (-17)); (37566579829507202, (-28)); (30690486498734045, (-23)); ((-3973432693982204), (-27)); (99999999999995293, (-17)); (99999999999967248, (-17)); ((-777049918556733), (-21)); ((-22634271686981576), (-23)); (77704992604059986, (-23)); (99999999999969746, (-17)); (330642280986098, (-22)); (22634269117719153, (-23)); ((-33064403996082837), (-24)); (99999999999997391, (-17))];
  [(24515452064734339, (-10)); (13508318879064563, (-17)); (99999999999999423, (-17)); ((-7078279744199198), (-23)); (80562171469761338, (-24)); (70782794778573375, (-24)); (99999999999999689, (-17)); (33060414542221364, (-24)); ((-80562173809869717), (-24)); ((-33060408839805517), (-24)); (99999999999999623, (-17)); (99999999999997402, (-17)); ((-20909894368091583), (-23)); ((-90862905797646265), (-24)); (20909894368101983, (-23)); (99999999999997813, (-17)); (11348579349102965, (-28)); (90862905797406978, (-24)); ((-11538547894929252), (-28)); (99999999999999578, (-17)); (99999999999996081, (-17)); ((-27988173811894052), (-23)); ((-10300741240784436), (-24)); (27988173845949901, (-23)); (99999999999996025, (-17)); (33061566245620506, (-24)); (10300731987455404, (-24)); ((-33061569126125529), (-24)); (99999999999999933, (-17))];
  [(245154504289784, (-8)); (80974340116194943, (-17)); (99999999999999423, (-17)); ((-7078279744199198), (-23)); (80562171469761338, (-24)); (70782794778573375, (-24)); (99999999999999689, (-17)); (33060414542221364, (-24)); ((-80562173809869717), (-24)); ((-33060408839805517), (-24)); (99999999999999623, (-17)); (99999999999983813, (-17)); ((-52198192567424406), (-23)); ((-22682464752549859), (-23)); (52198192567489204, (-23)); (99999999999986389, (-17)); (27974222927838166, (-28)); (22682464752400749, (-23)); ((-29157232184218174), (-28)); (99999999999997424, (-17)); (9999999999998137, (-16)); ((-59276471561730742), (-23)); ((-14626249331268828), (-23)); (59276472045322742, (-23)); (99999999999982381, (-17)); (33063254016507049, (-24)); (14626247371393216, (-23)); ((-33063340618306164), (-24)); (99999999999998879, (-17))];
  [(24515450414980724, (-10)); (70118807982654963, (-17)); (99999999999999423, (-17)); ((-7078279744199198), (-23)); (80562171469761338, (-24)); (70782794778573375, (-24)); (99999999999999689, (-17)); (33060414542221364, (-24)); ((-80562173809869717), (-24)); ((-33060408839805517), (-24)); (99999999999999623, (-17)); (9999999999998771, (-16)); ((-45466807005366639), (-23)); ((-19757374694134858), (-23)); (45466807005415793, (-23)); (99999999999989653, (-17)); (24431957852305572, (-28)); (19757374694021729, (-23)); ((-25330293418335259), (-28)); (99999999999998046, (-17)); (999999999999855, (-15)); ((-52545086096377943), (-23)); ((-11701159050311128), (-23)); (52545086483252448, (-23)); (99999999999986122, (-17)); (33062894367050196, (-24)); (1170115731301687, (-22)); ((-33062955853969213), (-24)); (99999999999999256, (-17))];
  [(24515455706359562, (-10)); (4171528919135834, (-16)); (99999999999999423, (-17)); ((-7078279744199198), (-23)); (80562171469761338, (-24)); (70782794778573375, (-24)); (99999999999999689, (-17)); (33060414542221364, (-24)); ((-80562173809869717), (-24)); ((-33060408839805517), (-24)); (99999999999999623, (-17)); (99999999999978273, (-17)); ((-60471849212768647), (-23)); ((-26277741013755339), (-23)); (60471849212855606, (-23)); (99999999999981715, (-17)); (32298913309997159, (-28)); (26277741013555217, (-23)); ((-33887337380633653), (-28)); (99999999999996536, (-17)); (99999999999975531, (-17)); ((-67550128088213253), (-23)); ((-1822152586600526), (-22)); (67550128690685278, (-23)); (99999999999977118, (-17)); (3306369315098117, (-23)); (18221523632544385, (-23)); ((-33063816173662631), (-24)); (99999999999998279, (-17))];
  [(24515454786468828, (-10)); (33920530619084677, (-17)); (99999999999999423, (-17)); ((-7078279744199198), (-23)); (80562171469761338, (-24)); (70782794778573375, (-24)); (99999999999999689, (-17)); (33060414542221364, (-24)); ((-80562173809869717), (-24)); ((-33060408839805517), (-24)); (99999999999999623, (-17)); (99999999999985101, (-17)); ((-50068427350669039), (-23)); ((-21756985889655314), (-23)); (50068427350728649, (-23)); (99999999999987477, (-17)); (26855456683596537, (-28)); (21756985889518126, (-23)); ((-27944868641327503), (-28)); (99999999999997646, (-17)); (99999999999982736, (-17)); ((-57146706375572174), (-23)); ((-13700770397963263), (-23)); (57146706828563182, (-23)); (99999999999983624, (-17)); (33063140424097877, (-24)); (13700768508511437, (-23)); ((-33063218726872118), (-24)); (99999999999999023, (-17))];
  [(24515450280908807, (-10)); (59555360735570551, (-18)); (99999999999999423, (-17)); ((-7078279744199198), (-23)); (80562171469761338, (-24)); (70782794778573375, (-24)); (99999999999999689, (-17)); (33060414542221364, (-24)); ((-80562173809869717), (-24)); ((-33060408839805517), (-24)); (99999999999999623, (-17)); (99999999999999833, (-17)); ((-53656510372363636), (-24)); ((-23316169747427404), (-24)); (53656510372370485, (-24)); (99999999999999856, (-17)); (29304622977660624, (-29)); (23316169747411648, (-24)); ((-29426461267689774), (-29)); (99999999999999978, (-17)); (99999999999999067, (-17)); ((-12443930704351324), (-23)); (57245999948427415, (-24)); (12443930515091982, (-23)); (99999999999999167, (-17)); (33060711911136088, (-24)); ((-57246004062479019), (-24)); ((-33060704754801904), (-24)); (99999999999999789, (-17))];
  [(24515452867355673, (-10)); (61298082314927738, (-17)); (99999999999999423, (-17)); ((-7078279744199198), (-23)); (80562171469761338, (-24)); (70782794778573375, (-24)); (99999999999999689, (-17)); (33060414542221364, (-24)); ((-80562173809869717), (-24)); ((-33060408839805517), (-24)); (99999999999999623, (-17)); (99999999999981959, (-17)); ((-55080105385849986), (-23)); ((-23934785606553816), (-23)); (55080105385922132, (-23)); (99999999999984823, (-17)); (29482768289158276, (-28)); (23934785606387792, (-23)); ((-3080147248368803), (-27)); (99999999999997136, (-17)); (99999999999979416, (-17)); ((-62158384338753944), (-23)); ((-15878570280550163), (-23)); (62158384863754324, (-23)); (99999999999980616, (-17)); (33063407192774214, (-24)); (15878568225379112, (-23)); ((-33063505928763754), (-24)); (9999999999999869, (-16))];
  [(24515453119896953, (-10)); (13151329032134063, (-17)); (99999999999999423, (-17)); ((-7078279744199198), (-23)); (80562171469761338, (-24)); (70782794778573375, (-24)); (99999999999999689, (-17)); (33060414542221364, (-24)); ((-80562173809869717), (-24)); ((-33060408839805517), (-24)); (99999999999999623, (-17)); (99999999999995626, (-17)); ((-27150990417451345), (-23)); ((-11798327804216348), (-23)); (27150990417468874, (-23)); (99999999999996314, (-17)); (14697310214149641, (-28)); (11798327804176008, (-23)); ((-1501743174259218), (-27)); (99999999999999289, (-17)); (99999999999994083, (-17)); ((-34229269771592608), (-23)); ((-37421115548635199), (-24)); (34229269895313952, (-23)); (99999999999994083, (-17)); (33061906146669021, (-24)); (37421104231783957, (-24)); ((-33061918934166018), (-24)); (99999999999999867, (-17))];
  [(24515454580428558, (-10)); (65140743558326464, (-17)); (99999999999999423, (-17)); ((-7078279744199198), (-23)); (80562171469761338, (-24)); (70782794778573375, (-24)); (99999999999999689, (-17)); (33060414542221364, (-24)); ((-80562173809869717), (-24)); ((-33060408839805517), (-24)); (99999999999999623, (-17)); (99999999999972589, (-17)); ((-67919890900428573), (-23)); ((-29514250398042037), (-23)); (67919890900538274, (-23)); (99999999999976952, (-17)); (36166770851234344, (-28)); (29514250397789584, (-23)); ((-38170577809637507), (-28)); (99999999999995648, (-17)); (9999999999996958, (-16)); ((-7499816966887243), (-22)); ((-2145803549652775), (-22)); (74998170378364453, (-23)); (99999999999971834, (-17)); (33064085937037842, (-24)); (21458033016775772, (-23)); ((-3306424678859712), (-23)); (99999999999997646, (-17))];
  [(24515456749452958, (-10)); (95696357001277865, (-17)); (99999999999999423, (-17)); ((-7078279744199198), (-23)); (80562171469761338, (-24)); (70782794778573375, (-24)); (99999999999999689, (-17)); (33060414542221364, (-24)); ((-80562173809869717), (-24)); ((-33060408839805517), (-24)); (99999999999999623, (-17)); (99999999999940681, (-17)); ((-99904496363248123), (-23)); ((-43413001121099159), (-23)); (99904496363485504, (-23)); (99999999999950107, (-17)); (52504043446559694, (-28)); (4341300112055296, (-22)); ((-56840088191734139), (-28)); (99999999999990574, (-17)); (99999999999936529, (-17)); ((-10698277467219124), (-22)); ((-35356787277011703), (-23)); (10698277584129646, (-22)); (99999999999942724, (-17)); (33065745431781187, (-24)); (35356783739526263, (-23)); ((-33066123577558219), (-24)); (99999999999993694, (-17))];
  [(24515452785522225, (-10)); (13597286659127095, (-17)); (99999999999999423, (-17)); ((-7078279744199198), (-23)); (80562171469761338, (-24)); (70782794778573375, (-24)); (99999999999999689, (-17)); (33060414542221364, (-24)); ((-80562173809869717), (-24)); ((-33060408839805517), (-24)); (99999999999999623, (-17)); (9999999999999617, (-16)); ((-25376980730136687), (-23)); ((-11027440725163565), (-23)); (25376980730152003, (-23)); (9999999999999678, (-16)); (137474217688797, (-26)); (11027440725128324, (-23)); ((-14026557693114228), (-28)); (999999999999994, (-15)); (99999999999994682, (-17)); ((-32455260109763832), (-23)); ((-29712244171612018), (-24)); (32455260207997891, (-23)); (99999999999994671, (-17)); (33061809728643917, (-24)); (29712233441314072, (-24)); ((-33061819301105661), (-24)); (99999999999999911, (-17))];
  [(2451545474607823, (-9)); (44212253501209053, (-17)); (99999999999999423, (-17)); ((-7078279744199198), (-23)); (80562171469761338, (-24)); (70782794778573375, (-24)); (99999999999999689, (-17)); (33060414542221364, (-24)); ((-80562173809869717), (-24)); ((-33060408839805517), (-24)); (99999999999999623, (-17)); (99999999999981282, (-17)); ((-56121690426162745), (-23)); ((-24387401194951305), (-23)); (56121690426237654, (-23)); (99999999999984257, (-17)); (30027447840346938, (-28)); (24387401194778944, (-23)); ((-31395996913374802), (-28)); (99999999999997025, (-17)); (99999999999978695, (-17)); ((-63199969364102987), (-23)); ((-1633118590338294), (-22)); (63199969904069359, (-23)); (99999999999979972, (-17)); (33063462499852669, (-24)); (16331183813769844, (-23)); ((-33063565701580656), (-24)); (99999999999998612, (-17))];
  [(24515458769974327, (-10)); (82174262091666983, (-17)); (99999999999999423, (-17)); ((-7078279744199198), (-23)); (80562171469761338, (-24)); (70782794778573375, (-24)); (99999999999999689, (-17)); (33060414542221364, (-24)); ((-80562173809869717), (-24)); ((-33060408839805517), (-24)); (99999999999999623, (-17)); (99999999999935707, (-17)); ((-10399586224229069), (-22)); ((-45190883735991064), (-23)); (10399586224254787, (-22)); (99999999999945921, (-17)); (54561005898340295, (-28)); (45190883735399211, (-23)); ((-59260929496929293), (-28)); (99999999999989786, (-17)); (9999999999993141, (-16)); ((-11107414049245592), (-22)); ((-37134670027166257), (-23)); (11107414172035683, (-22)); (99999999999938249, (-17)); (33065954424118176, (-24)); (37134666354370856, (-23)); ((-3306636692012353), (-23)); (9999999999999305, (-16))];
  [(24515458879703241, (-10)); (60053719084595503, (-17)); (99999999999999423, (-17)); ((-7078279744199198), (-23)); (80562171469761338, (-24)); (70782794778573375, (-24)); (99999999999999689, (-17)); (33060414542221364, (-24)); ((-80562173809869717), (-24)); ((-33060408839805517), (-24)); (99999999999999623, (-17)); (99999999999950639, (-17)); ((-91125550303202538), (-23)); ((-395981539319232), (-21)); (91125550303400002, (-23)); (99999999999958478, (-17)); (48064259552703763, (-28)); (39598153931468767, (-23)); ((-51672555123616348), (-28)); (99999999999992162, (-17)); (99999999999946798, (-17)); ((-98203828738266805), (-23)); ((-31541939797599365), (-23)); (98203829781215148, (-23)); (99999999999951716, (-17)); (33065294380885001, (-24)); (31541936550445622, (-23)); ((-33065604123996372), (-24)); (99999999999994971, (-17))];
  [(24515457588085653, (-10)); (33386544329284573, (-17)); (99999999999999423, (-17)); ((-7078279744199198), (-23)); (80562171469761338, (-24)); (70782794778573375, (-24)); (99999999999999689, (-17)); (33060414542221364, (-24)); ((-80562173809869717), (-24)); ((-33060408839805517), (-24)); (99999999999999623, (-17)); (99999999999973399, (-17)); ((-66892856776475242), (-23)); ((-29067957840262368), (-23)); (6689285677658165, (-22)); (99999999999977629, (-17)); (35634281253019092, (-28)); (29067957840017496, (-23)); ((-37578828937512299), (-28)); (9999999999999577, (-16)); (99999999999970435, (-17)); ((-73971135559673767), (-23)); ((-21011742904793841), (-23)); (73971136254408316, (-23)); (99999999999972589, (-17)); (33064031860677243, (-24)); (21011740459004097, (-23)); ((-3306418729781159), (-23)); (99999999999997735, (-17))];
  [(24515454350686488, (-10)); (57137050220634999, (-17)); (99999999999999423, (-17)); ((-7078279744199198), (-23)); (80562171469761338, (-24)); (70782794778573375, (-24)); (99999999999999689, (-17)); (33060414542221364, (-24)); ((-80562173809869717), (-24)); ((-33060408839805517), (-24)); (99999999999999623, (-17)); (9999999999997744, (-16)); ((-61613609733194373), (-23)); ((-26773887356553439), (-23)); (61613609733284656, (-23)); (99999999999981015, (-17)); (32893576327391691, (-28)); (26773887356345693, (-23)); ((-34542924076674808), (-28)); (99999999999996414, (-17)); (99999999999974654, (-17)); ((-68691888592236111), (-23)); ((-18717672246550499), (-23)); (68691889211113789, (-23)); (99999999999976341, (-17)); (33063753537109754, (-24)); (18717669975334404, (-23)); ((-33063882083518454), (-24)); (9999999999999819, (-16))];
  [(24515458377290401, (-10)); (28157108699475975, (-17)); (99999999999999423, (-17)); ((-7078279744199198), (-23)); (80562171469761338, (-24)); (70782794778573375, (-24)); (99999999999999689, (-17)); (33060414542221364, (-24)); ((-80562173809869717), (-24)); ((-33060408839805517), (-24)); (99999999999999623, (-17)); (99999999999972089, (-17)); ((-68522892020320808), (-23)); ((-29776281528033755), (-23)); (68522892020432478, (-23)); (99999999999976519, (-17)); (36478825321278305, (-28)); (29776281527776803, (-23)); ((-38519742950882119), (-28)); (9999999999999557, (-16)); (99999999999969058, (-17)); ((-75601170780101783), (-23)); ((-21720066646454976), (-23)); (75601171498258371, (-23)); (99999999999971356, (-17)); (3306411762827549, (-23)); (21720064146762755, (-23)); ((-33064281890584183), (-24)); (99999999999997591, (-17))];
  [(24515455973710408, (-10)); (49354642850255381, (-17)); (99999999999999423, (-17)); ((-7078279744199198), (-23)); (80562171469761338, (-24)); (70782794778573375, (-24)); (99999999999999689, (-17)); (33060414542221364, (-24)); ((-80562173809869717), (-24)); ((-33060408839805517), (-24)); (99999999999999623, (-17)); (99999999999973488, (-17)); ((-66785322479749807), (-23)); ((-29021229347773279), (-23)); (66785322479855866, (-23)); (99999999999977707, (-17)); (35578755809791766, (-28)); (29021229347529195, (-23)); ((-3751665644813329), (-27)); (99999999999995792, (-17)); (99999999999970524, (-17)); ((-73863601264493204), (-23)); ((-20965014408749617), (-23)); (73863601957682585, (-23)); (99999999999972666, (-17)); (33064026221500988, (-24)); (20965011966515839, (-23)); ((-33064181047486923), (-24)); (99999999999997757, (-17))];
  [(24515456262045763, (-10)); (10922779325664345, (-17)); (99999999999999423, (-17)); ((-7078279744199198), (-23)); (80562171469761338, (-24)); (70782794778573375, (-24)); (99999999999999689, (-17)); (33060414542221364, (-24)); ((-80562173809869717), (-24)); ((-33060408839805517), (-24)); (99999999999999623, (-17)); (99999999999987954, (-17)); ((-45022734717484897), (-23)); ((-19564405293604349), (-23)); (45022734717533094, (-23)); (99999999999989875, (-17)); (2419821595359185, (-27)); (19564405293493419, (-23)); ((-25078272791745349), (-28)); (99999999999998079, (-17)); (99999999999985767, (-17)); ((-52101013814875868), (-23)); ((-11508189635099385), (-23)); (52101014195369961, (-23)); (99999999999986378, (-17)); (33062870635106119, (-24)); (11508187912488738, (-23)); ((-33062930515317429), (-24)); (99999999999999278, (-17))];
  [(24515457136383681, (-10)); (74176085451458373, (-17)); (99999999999999423, (-17)); ((-7078279744199198), (-23)); (80562171469761338, (-24)); (70782794778573375, (-24)); (99999999999999689, (-17)); (33060414542221364, (-24)); ((-80562173809869717), (-24)); ((-33060408839805517), (-24)); (99999999999999623, (-17)); (99999999999952804, (-17)); ((-89098680185737956), (-23)); ((-38717387637561959), (-23)); (89098680185926749, (-23)); (99999999999960287, (-17)); (47034164516521642, (-28)); (38717387637127521, (-23)); ((-50483506264242806), (-28)); (99999999999992495, (-17)); (99999999999949041, (-17)); ((-96176958649920866), (-23)); ((-3066117343622878), (-22)); (9617695966374288, (-22)); (9999999999995367, (-16)); (33065189738491395, (-24)); (30661170256105196, (-23)); ((-33065484595679527), (-24)); (99999999999995237, (-17))];
  [(24515451752604833, (-10)); (3710439795149727, (-16)); (99999999999999423, (-17)); ((-7078279744199198), (-23)); (80562171469761338, (-24)); (70782794778573375, (-24)); (99999999999999689, (-17)); (33060414542221364, (-24)); ((-80562173809869717), (-24)); ((-33060408839805517), (-24)); (99999999999999623, (-17)); (9999999999999335, (-16)); ((-33444436064922556), (-23)); ((-14533113278062278), (-23)); (33444436064949153, (-23)); (99999999999994404, (-17)); (18059444687116809, (-28)); (14533113278001064, (-23)); ((-18545165403338615), (-28)); (99999999999998945, (-17)); (99999999999991573, (-17)); ((-40522715328650511), (-23)); ((-64768972367735457), (-24)); (40522715542791357, (-23)); (99999999999991729, (-17)); (3306224743025215, (-23)); (6476895897000966, (-23)); ((-33062273643289634), (-24)); (99999999999999734, (-17))];
  [(24515458916985746, (-10)); (35741816865879261, (-17)); (99999999999999423, (-17)); ((-7078279744199198), (-23)); (80562171469761338, (-24)); (70782794778573375, (-24)); (99999999999999689, (-17)); (33060414542221364, (-24)); ((-80562173809869717), (-24)); ((-33060408839805517), (-24)); (99999999999999623, (-17)); (99999999999965239, (-17)); ((-76470188598201053), (-23)); ((-33229739622683887), (-23)); (76470188598340125, (-23)); (99999999999970757, (-17)); (40577804154450751, (-28)); (33229739622363873, (-23)); ((-4311884183039183), (-27)); (99999999999994471, (-17)); (99999999999961919, (-17)); ((-83548467243808784), (-23)); ((-2517352500384656), (-22)); (83548468076162248, (-23)); (99999999999965028, (-17)); (33064533928671603, (-24)); (25173522241346636, (-23)); ((-33064744244926019), (-24)); (99999999999996769, (-17))];
  [(24515454029257819, (-10)); (67692767134435516, (-17)); (99999999999999423, (-17)); ((-7078279744199198), (-23)); (80562171469761338, (-24)); (70782794778573375, (-24)); (99999999999999689, (-17)); (33060414542221364, (-24)); ((-80562173809869717), (-24)); ((-33060408839805517), (-24)); (99999999999999623, (-17)); (99999999999974021, (-17)); ((-66107989949775239), (-23)); ((-28726897873917326), (-23)); (6610798994987916, (-22)); (99999999999978151, (-17)); (35227835840724484, (-28)); (28726897873678166, (-23)); ((-3712696816648986), (-27)); (9999999999999587, (-16)); (99999999999971079, (-17)); ((-73186268744249414), (-23)); ((-20670682912500731), (-23)); (73186269427706196, (-23)); (99999999999973166, (-17)); (33063990583830423, (-24)); (20670680492665084, (-23)); ((-33064141870322733), (-24)); (99999999999997802, (-17))];
  [(24515457930467036, (-10)); (11129569019374641, (-17)); (99999999999999423, (-17)); ((-7078279744199198), (-23)); (80562171469761338, (-24)); (70782794778573375, (-24)); (99999999999999689, (-17)); (33060414542221364, (-24)); ((-80562173809869717), (-24)); ((-33060408839805517), (-24)); (99999999999999623, (-17)); (99999999999981781, (-17)); ((-5536330657706659), (-22)); ((-2405784927284966), (-22)); (55363306577139477, (-23)); (99999999999984679, (-17)); (2963156927163925, (-27)); (24057849272681926, (-23)); ((-30963009933770991), (-28)); (99999999999997113, (-17)); (99999999999979228, (-17)); ((-62441585525902006), (-23)); ((-16001633956208771), (-23)); (62441586054971543, (-23)); (99999999999980449, (-17)); (33063422301025443, (-24)); (16001631891673133, (-23)); ((-33063522169616658), (-24)); (99999999999998679, (-17))];
  [(24515459461575248, (-10)); (17262729825115675, (-17)); (99999999999999423, (-17)); ((-7078279744199198), (-23)); (80562171469761338, (-24)); (70782794778573375, (-24)); (99999999999999689, (-17)); (33060414542221364, (-24)); ((-80562173809869717), (-24)); ((-33060408839805517), (-24)); (99999999999999623, (-17)); (99999999999972122, (-17)); ((-68491345414826506), (-23)); ((-29762573107914297), (-23)); (68491345414938071, (-23)); (99999999999976541, (-17)); (36462167678530589, (-28)); (29762573107657583, (-23)); ((-38500314047951179), (-28)); (9999999999999557, (-16)); (99999999999969091, (-17)); ((-75569624175060687), (-23)); ((-21706358225292572), (-23)); (75569624892763985, (-23)); (99999999999971378, (-17)); (33064115937096595, (-24)); (21706355726643546, (-23)); ((-33064279937990684), (-24)); (99999999999997591, (-17))];
  [(24515457512201024, (-10)); (76244456744565203, (-17)); (99999999999999423, (-17)); ((-7078279744199198), (-23)); (80562171469761338, (-24)); (70782794778573375, (-24)); (99999999999999689, (-17)); (33060414542221364, (-24)); ((-80562173809869717), (-24)); ((-33060408839805517), (-24)); (99999999999999623, (-17)); (99999999999948963, (-17)); ((-92665656475549287), (-23)); ((-40267399382599468), (-23)); (92665656475753485, (-23)); (99999999999957068, (-17)); (48845582873214366, (-28)); (40267399382129556, (-23)); ((-52576276665661226), (-28)); (99999999999991895, (-17)); (99999999999945066, (-17)); ((-997439348884879), (-21)); ((-32211185299192308), (-23)); (99743935953567901, (-23)); (99999999999950195, (-17)); (33065373753959553, (-24)); (32211182001105786, (-23)); ((-33065694969861143), (-24)); (9999999999999476, (-16))];
  [(2451545475358089, (-9)); (64733746248740109, (-17)); (99999999999999423, (-17)); ((-7078279744199198), (-23)); (80562171469761338, (-24)); (70782794778573375, (-24)); (99999999999999689, (-17)); (33060414542221364, (-24)); ((-80562173809869717), (-24)); ((-33060408839805517), (-24)); (99999999999999623, (-17)); (99999999999971922, (-17)); ((-68730757896040029), (-23)); ((-29866608607859031), (-23)); (68730757896152367, (-23)); (99999999999976386, (-17)); (36586545320291528, (-28)); (29866608607600517, (-23)); ((-38639091926029323), (-28)); (99999999999995537, (-17)); (99999999999968892, (-17)); ((-75809036652834737), (-23)); ((-21810393733152395), (-23)); (75809037373978165, (-23)); (99999999999971212, (-17)); (33064128567736616, (-24)); (21810391226586382, (-23)); ((-33064293889417716), (-24)); (99999999999997569, (-17))];
  [(24515453245118442, (-10)); (64711447220616558, (-17)); (99999999999999423, (-17)); ((-7078279744199198), (-23)); (80562171469761338, (-24)); (70782794778573375, (-24)); (99999999999999689, (-17)); (33060414542221364, (-24)); ((-80562173809869717), (-24)); ((-33060408839805517), (-24)); (99999999999999623, (-17)); (99999999999978961, (-17)); ((-59482388567552427), (-23)); ((-25847775822346443), (-23)); (59482388567636559, (-23)); (99999999999982292, (-17)); (31782541598673815, (-28)); (25847775822152817, (-23)); ((-33320013415050198), (-28)); (99999999999996647, (-17)); (99999999999976263, (-17)); ((-66560667457211919), (-23)); ((-17791560641884333), (-23)); (66560668045466708, (-23)); (99999999999977773, (-17)); (33063640716679244, (-24)); (17791558441142382, (-23)); ((-33063759136924712), (-24)); (99999999999998357, (-17))];
  [(24515454074084084, (-10)); (97423589032666236, (-17)); (99999999999999423, (-17)); ((-7078279744199198), (-23)); (80562171469761338, (-24)); (70782794778573375, (-24)); (99999999999999689, (-17)); (33060414542221364, (-24)); ((-80562173809869717), (-24)); ((-33060408839805517), (-24)); (99999999999999623, (-17)); (99999999999957478, (-17)); ((-84583447286319923), (-23)); ((-36755315711624653), (-23)); (84583447286490049, (-23)); (99999999999964218, (-17)); (44733557835733856, (-28)); (36755315711233139, (-23)); ((-47842285688659558), (-28)); (99999999999993239, (-17)); (99999999999953881, (-17)); ((-91661725815370076), (-23)); ((-28699101361015635), (-23)); (91661726764308329, (-23)); (99999999999957923, (-17)); (33064956040254947, (-24)); (28699098330212635, (-23)); ((-33065219084812812), (-24)); (99999999999995826, (-17))];
  [(24515455599315264, (-10)); (74468955250517921, (-17)); (99999999999999423, (-17)); ((-7078279744199198), (-23)); (80562171469761338, (-24)); (70782794778573375, (-24)); (99999999999999689, (-17)); (33060414542221364, (-24)); ((-80562173809869717), (-24)); ((-33060408839805517), (-24)); (99999999999999623, (-17)); (99999999999962086, (-17)); ((-79868131250026967), (-23)); ((-34706298652588852), (-23)); (7986813125017866, (-22)); (99999999999968114, (-17)); (42321937575350904, (-28)); (34706298652239769, (-23)); ((-45093373479687671), (-28)); (99999999999993983, (-17)); (99999999999958655, (-17)); ((-86946409846818814), (-23)); ((-26650084146089169), (-23)); (86946410727999185, (-23)); (99999999999962152, (-17)); (33064711079469203, (-24)); (26650081271221166, (-23)); ((-33064942743240567), (-24)); (99999999999996403, (-17))];
  [(24515452053453778, (-10)); (17520783214934221, (-17)); (99999999999999423, (-17)); ((-7078279744199198), (-23)); (80562171469761338, (-24)); (70782794778573375, (-24)); (99999999999999689, (-17)); (33060414542221364, (-24)); ((-80562173809869717), (-24)); ((-33060408839805517), (-24)); (99999999999999623, (-17)); (99999999999996769, (-17)); ((-23297242377263445), (-23)); ((-10123700775528769), (-23)); (23297242377276351, (-23)); (9999999999999728, (-16)); (12631546983275143, (-28)); (10123700775499068, (-23)); ((-12867484855405564), (-28)); (99999999999999489, (-17)); (99999999999995348, (-17)); ((-30375521786768655), (-23)); ((-2067484398769348), (-23)); (30375521855123187, (-23)); (99999999999995315, (-17)); (33061696465683141, (-24)); (20674833945029704, (-24)); ((-330617027541295), (-22)); (99999999999999922, (-17))];
  [(24515453666837025, (-10)); (54242472786540319, (-17)); (99999999999999423, (-17)); ((-7078279744199198), (-23)); (80562171469761338, (-24)); (70782794778573375, (-24)); (99999999999999689, (-17)); (33060414542221364, (-24)); ((-80562173809869717), (-24)); ((-33060408839805517), (-24)); (99999999999999623, (-17)); (99999999999981581, (-17)); ((-55655080519133325), (-23)); ((-24184638185287876), (-23)); (55655080519206986, (-23)); (99999999999984501, (-17)); (29783702031326397, (-28)); (24184638185118369, (-23)); ((-31130098498977077), (-28)); (99999999999997069, (-17)); (99999999999979006, (-17)); ((-62733359463777018), (-23)); ((-16128422878293167), (-23)); (62733359997038913, (-23)); (99999999999980249, (-17)); (33063437749360771, (-24)); (16128420804109461, (-23)); ((-33063538968217907), (-24)); (99999999999998634, (-17))];
  [(24515451301590139, (-10)); (74090782237025532, (-17)); (99999999999999423, (-17)); ((-7078279744199198), (-23)); (80562171469761338, (-24)); (70782794778573375, (-24)); (99999999999999689, (-17)); (33060414542221364, (-24)); ((-80562173809869717), (-24)); ((-33060408839805517), (-24)); (99999999999999623, (-17)); (99999999999983102, (-17)); ((-53326196610347591), (-23)); ((-23172633288493493), (-23)); (53326196610415216, (-23)); (99999999999985789, (-17)); (28564424810395059, (-28)); (23172633288337877, (-23)); ((-29800051315476139), (-28)); (99999999999997313, (-17)); (99999999999980616, (-17)); ((-60404475588448694), (-23)); ((-151164179045048), (-21)); (60404476088248234, (-23)); (99999999999981704, (-17)); (3306331394543966, (-23)); (15116415907329893, (-23)); ((-33063405247174262), (-24)); (99999999999998801, (-17))];
  [(24515452735615256, (-10)); (18408418848620323, (-18)); (99999999999999423, (-17)); ((-7078279744199198), (-23)); (80562171469761338, (-24)); (70782794778573375, (-24)); (99999999999999689, (-17)); (33060414542221364, (-24)); ((-80562173809869717), (-24)); ((-33060408839805517), (-24)); (99999999999999623, (-17)); (99999999999998102, (-17)); ((-17874227258047772), (-23)); ((-7767156543694039), (-23)); (17874227258055372, (-23)); (99999999999998401, (-17)); (97119935540183612, (-29)); (77671565436765544, (-24)); ((-98515640090113266), (-29)); (99999999999999689, (-17)); (9999999999999688, (-16)); ((-24952506745461411), (-23)); (28906001235260712, (-25)); (24952506735904666, (-23)); (99999999999996825, (-17)); (33061400141441846, (-24)); ((-2890608373174106), (-24)); ((-33061399494016997), (-24)); (99999999999999933, (-17))];
  [(245154559341955, (-8)); (8750918169018278, (-16)); (99999999999999423, (-17)); ((-7078279744199198), (-23)); (80562171469761338, (-24)); (70782794778573375, (-24)); (99999999999999689, (-17)); (33060414542221364, (-24)); ((-80562173809869717), (-24)); ((-33060408839805517), (-24)); (99999999999999623, (-17)); (99999999999951961, (-17)); ((-89901397920253763), (-23)); ((-390662046231967), (-21)); (89901397920445955, (-23)); (99999999999959588, (-17)); (47442314334553363, (-28)); (39066204622754396, (-23)); ((-50954795938196185), (-28)); (99999999999992362, (-17)); (99999999999948164, (-17)); ((-96979676372904594), (-23)); ((-31009990448401768), (-23)); (96979677398261694, (-23)); (99999999999952915, (-17)); (33065231200159804, (-24)); (31009987241731743, (-23)); ((-33065531971549298), (-24)); (99999999999995126, (-17))];
  [(24515450872987327, (-10)); (46840904826832219, (-17)); (99999999999999423, (-17)); ((-7078279744199198), (-23)); (80562171469761338, (-24)); (70782794778573375, (-24)); (99999999999999689, (-17)); (33060414542221364, (-24)); ((-80562173809869717), (-24)); ((-33060408839805517), (-24)); (99999999999999623, (-17)); (99999999999993117, (-17)); ((-3402010164450414), (-22)); ((-14783265889290661), (-23)); (34020101644531664, (-23)); (99999999999994205, (-17)); (18365349743384814, (-28)); (14783265889227327, (-23)); ((-18868795415016848), (-28)); (99999999999998901, (-17)); (99999999999991318, (-17)); ((-4109838089996193), (-22)); ((-67270498670336898), (-24)); (41098381122373597, (-23)); (99999999999991485, (-17)); (33062278484526408, (-24)); (67270485082270026, (-24)); ((-33062306183355806), (-24)); (99999999999999711, (-17))];
  [(24515454951979257, (-10)); (18159612252107504, (-17)); (99999999999999423, (-17)); ((-7078279744199198), (-23)); (80562171469761338, (-24)); (70782794778573375, (-24)); (99999999999999689, (-17)); (33060414542221364, (-24)); ((-80562173809869717), (-24)); ((-33060408839805517), (-24)); (99999999999999623, (-17)); (99999999999989797, (-17)); ((-41432931343425016), (-23)); ((-18004474118742005), (-23)); (41432931343465837, (-23)); (99999999999991407, (-17)); (22300536236393863, (-28)); (18004474118648064, (-23)); ((-23046564656681312), (-28)); (99999999999998368, (-17)); (99999999999987743, (-17)); ((-48511210492388095), (-23)); ((-99482583415565098), (-24)); (48511210821304361, (-23)); (99999999999988165, (-17)); (33062677975111359, (-24)); (99482567376448066, (-24)); ((-33062726240341087), (-24)); (99999999999999445, (-17))];
  [(24515458445150554, (-10)); (22360363506979675, (-17)); (99999999999999423, (-17)); ((-7078279744199198), (-23)); (80562171469761338, (-24)); (70782794778573375, (-24)); (99999999999999689, (-17)); (33060414542221364, (-24)); ((-80562173809869717), (-24)); ((-33060408839805517), (-24)); (99999999999999623, (-17)); (99999999999974587, (-17)); ((-65389594705234813), (-23)); ((-28414722802076783), (-23)); (65389594705336489, (-23)); (99999999999978628, (-17)); (34855262094107262, (-28)); (28414722801842791, (-23)); ((-36712854978304676), (-28)); (99999999999995959, (-17)); (99999999999971667, (-17)); ((-72467873510029661), (-23)); ((-20358507816909697), (-23)); (72467874183163853, (-23)); (99999999999973688, (-17)); (33063952747701118, (-24)); (20358505420829992, (-23)); ((-33064100238037695), (-24)); (99999999999997868, (-17))];
  [(24515451594377826, (-10)); (26949712461757913, (-17)); (99999999999999423, (-17)); ((-7078279744199198), (-23)); (80562171469761338, (-24)); (70782794778573375, (-24)); (99999999999999689, (-17)); (33060414542221364, (-24)); ((-80562173809869717), (-24)); ((-33060408839805517), (-24)); (99999999999999623, (-17)); (99999999999995892, (-17)); ((-26259141272252859), (-23)); ((-11410779197647794), (-23)); (26259141272269254, (-23)); (99999999999996547, (-17)); (14219866954501926, (-28)); (1141077919761006, (-22)); ((-14519496716047797), (-28)); (99999999999999345, (-17)); (99999999999994382, (-17)); ((-3333742063920666), (-22)); ((-3354562918810044), (-23)); (33337420750114735, (-23)); (99999999999994382, (-17)); (33061857683850097, (-24)); (33545618166127982, (-24)); ((-33061868866345629), (-24)); (99999999999999889, (-17))];
  [(24515455467824456, (-10)); (41330597514986744, (-17)); (99999999999999423, (-17)); ((-7078279744199198), (-23)); (80562171469761338, (-24)); (70782794778573375, (-24)); (99999999999999689, (-17)); (33060414542221364, (-24)); ((-80562173809869717), (-24)); ((-33060408839805517), (-24)); (99999999999999623, (-17)); (99999999999979461, (-17)); ((-58776045413989429), (-23)); ((-25540837925615354), (-23)); (58776045414071581, (-23)); (99999999999982714, (-17)); (31414974728650639, (-28)); (25540837925426307, (-23)); ((-32915892234086641), (-28)); (99999999999996747, (-17)); (99999999999976774, (-17)); ((-65854324313796449), (-23)); ((-17484622721801207), (-23)); (65854324891902047, (-23)); (9999999999997824, (-16)); (33063603390946998, (-24)); (1748462054441615, (-22)); ((-33063718507547423), (-24)); (99999999999998423, (-17))];
  [(2451545636361008, (-9)); (27140018977368496, (-17)); (99999999999999423, (-17)); ((-7078279744199198), (-23)); (80562171469761338, (-24)); (70782794778573375, (-24)); (99999999999999689, (-17)); (33060414542221364, (-24)); ((-80562173809869717), (-24)); ((-33060408839805517), (-24)); (99999999999999623, (-17)); (99999999999981637, (-17)); ((-55572603741669176), (-23)); ((-24148798312674473), (-23)); (55572603741742624, (-23)); (99999999999984557, (-17)); (29740394212613179, (-28)); (24148798312505464, (-23)); ((-31082358908918195), (-28)); (99999999999997091, (-17)); (99999999999979072, (-17)); ((-62650882687497762), (-23)); ((-16092583002953044), (-23)); (62650883219574594, (-23)); (99999999999980316, (-17)); (3306343335213383, (-23)); (16092580931496586, (-23)); ((-33063534168890443), (-24)); (99999999999998657, (-17))];
  [(24515452572904374, (-10)); (60783534674160222, (-17)); (99999999999999423, (-17)); ((-7078279744199198), (-23)); (80562171469761338, (-24)); (70782794778573375, (-24)); (99999999999999689, (-17)); (33060414542221364, (-24)); ((-80562173809869717), (-24)); ((-33060408839805517), (-24)); (99999999999999623, (-17)); (99999999999983324, (-17)); ((-52962488906443734), (-23)); ((-23014585918166209), (-23)); (52962488906510428, (-23)); (99999999999985967, (-17)); (28373428015254981, (-28)); (23014585918012708, (-23)); ((-29592994721383548), (-28)); (99999999999997358, (-17)); (99999999999980849, (-17)); ((-60040767889769961), (-23)); ((-14958370522153171), (-23)); (60040768384343605, (-23)); (99999999999981903, (-17)); (3306329455274938, (-23)); (1495836853700487, (-22)); ((-33063384429644512), (-24)); (99999999999998834, (-17))];
  [(24515451424349169, (-10)); (94040333211354421, (-17)); (99999999999999423, (-17)); ((-7078279744199198), (-23)); (80562171469761338, (-24)); (70782794778573375, (-24)); (99999999999999689, (-17)); (33060414542221364, (-24)); ((-80562173809869717), (-24)); ((-33060408839805517), (-24)); (99999999999999623, (-17)); (99999999999973876, (-17)); ((-66290717384824295), (-23)); ((-28806301169784516), (-23)); (66290717384928797, (-23)); (99999999999978029, (-17)); (35322783962532703, (-28)); (28806301169544032, (-23)); ((-3723243935382925), (-27)); (99999999999995848, (-17)); (99999999999970923, (-17)); ((-73368996176673355), (-23)); ((-2075008621440897), (-22)); (73368996862755738, (-23)); (99999999999973022, (-17)); (33064000225851757, (-24)); (20750083788530877, (-23)); ((-33064152473645339), (-24)); (99999999999997791, (-17))];
  [(24515455014234851, (-10)); (19107726789159574, (-17)); (99999999999999423, (-17)); ((-7078279744199198), (-23)); (80562171469761338, (-24)); (70782794778573375, (-24)); (99999999999999689, (-17)); (33060414542221364, (-24)); ((-80562173809869717), (-24)); ((-33060408839805517), (-24)); (99999999999999623, (-17)); (9999999999998932, (-16)); ((-4239448652495153), (-22)); ((-18422313133480692), (-23)); (42394486524994274, (-23)); (99999999999991018, (-17)); (22809098521298424, (-28)); (18422313133382341, (-23)); ((-23590018827235326), (-28)); (99999999999998301, (-17)); (99999999999987232, (-17)); ((-49472765660100636), (-23)); ((-10366097388084649), (-23)); (49472766002832348, (-23)); (9999999999998771, (-16)); (33062729605989452, (-24)); (10366095752378702, (-23)); ((-33062780881516266), (-24)); (99999999999999412, (-17))];
  [(24515451994511997, (-10)); (865946730075837, (-15)); (99999999999999423, (-17)); ((-7078279744199198), (-23)); (80562171469761338, (-24)); (70782794778573375, (-24)); (99999999999999689, (-17)); (33060414542221364, (-24)); ((-80562173809869717), (-24)); ((-33060408839805517), (-24)); (99999999999999623, (-17)); (9999999999997472, (-16)); ((-65223031343632746), (-23)); ((-28342343523706139), (-23)); (65223031343733913, (-23)); (99999999999978739, (-17)); (34768643068505873, (-28)); (28342343523473342, (-23)); ((-366168206866746), (-26)); (99999999999995981, (-17)); (99999999999971811, (-17)); ((-72301310150820483), (-23)); ((-2028612853303239), (-22)); (72301310821561352, (-23)); (9999999999997381, (-16)); (33063943951611535, (-24)); (2028612614246061, (-22)); ((-33064090583376459), (-24)); (99999999999997891, (-17))];
  [(24515458343811459, (-10)); (44824863178538144, (-17)); (99999999999999423, (-17)); ((-7078279744199198), (-23)); (80562171469761338, (-24)); (70782794778573375, (-24)); (99999999999999689, (-17)); (33060414542221364, (-24)); ((-80562173809869717), (-24)); ((-33060408839805517), (-24)); (99999999999999623, (-17)); (99999999999963352, (-17)); ((-78521836772610284), (-23)); ((-34121273103222381), (-23)); (78521836772756905, (-23)); (99999999999969169, (-17)); (41631166846015307, (-28)); (34121273102884971, (-23)); ((-44310111135814623), (-28)); (99999999999994182, (-17)); (99999999999959965, (-17)); ((-85600115388743397), (-23)); ((-26065058552213546), (-23)); (85600116250578065, (-23)); (99999999999963296, (-17)); (33064640917792554, (-24)); (26065055721866908, (-23)); ((-33064864002908799), (-24)); (99999999999996558, (-17))];
  [(24515450834390628, (-10)); (56842519486380916, (-17)); (99999999999999423, (-17)); ((-7078279744199198), (-23)); (80562171469761338, (-24)); (70782794778573375, (-24)); (99999999999999689, (-17)); (33060414542221364, (-24)); ((-80562173809869717), (-24)); ((-33060408839805517), (-24)); (99999999999999623, (-17)); (9999999999999053, (-16)); ((-39906744301890146), (-23)); ((-17341277141221307), (-23)); (39906744301928014, (-23)); (9999999999999204, (-16)); (21492725562640106, (-28)); (17341277141134155, (-23)); ((-22184476478059878), (-28)); (9999999999999849, (-16)); (99999999999988531, (-17)); ((-46985023472778838), (-23)); ((-92850613135793782), (-24)); (46985023779767237, (-23)); (99999999999988909, (-17)); (33062595964514766, (-24)); (92850597601315025, (-24)); ((-330626395620939), (-22)); (99999999999999512, (-17))];
  [(24515458657953413, (-10)); (44580276640110594, (-17)); (99999999999999423, (-17)); ((-7078279744199198), (-23)); (80562171469761338, (-24)); (70782794778573375, (-24)); (99999999999999689, (-17)); (33060414542221364, (-24)); ((-80562173809869717), (-24)); ((-33060408839805517), (-24)); (99999999999999623, (-17)); (99999999999961675, (-17)); ((-80295260832858241), (-23)); ((-34891905682058222), (-23)); (80295260833011554, (-23)); (99999999999967759, (-17)); (42540164415112739, (-28)); (34891905681705396, (-23)); ((-45341508325691393), (-28)); (99999999999993916, (-17)); (99999999999958222, (-17)); ((-873735394235138), (-21)); ((-26835691189679652), (-23)); (87373540310831867, (-23)); (99999999999961764, (-17)); (33064733246257931, (-24)); (26835688300686618, (-23)); ((-33064967688102995), (-24)); (99999999999996347, (-17))];
  [(24515455359285888, (-10)); (94709162032372862, (-17)); (99999999999999423, (-17)); ((-7078279744199198), (-23)); (80562171469761338, (-24)); (70782794778573375, (-24)); (99999999999999689, (-17)); (33060414542221364, (-24)); ((-80562173809869717), (-24)); ((-33060408839805517), (-24)); (99999999999999623, (-17)); (99999999999951006, (-17)); ((-90789620678994285), (-23)); ((-39452177390251751), (-23)); (90789620679190309, (-23)); (99999999999958789, (-17)); (47894334672281701, (-28)); (39452177389800664, (-23)); ((-51476045648257696), (-28)); (99999999999992217, (-17)); (99999999999947176, (-17)); ((-97867899118884596), (-23)); ((-31395963244821911), (-23)); (97867900157005614, (-23)); (99999999999952049, (-17)); (33065277117764854, (-24)); (31395960008777651, (-23)); ((-33065584369722575), (-24)); (99999999999995015, (-17))];
  [(24515459002937595, (-10)); (66825443703473986, (-17)); (99999999999999423, (-17)); ((-7078279744199198), (-23)); (80562171469761338, (-24)); (70782794778573375, (-24)); (99999999999999689, (-17)); (33060414542221364, (-24)); ((-80562173809869717), (-24)); ((-33060408839805517), (-24)); (99999999999999623, (-17)); (99999999999945188, (-17)); ((-96025593586466444), (-23)); ((-41727443283386038), (-23)); (96025593586685719, (-23)); (99999999999953892, (-17)); (50545964651716535, (-28)); (41727443282881429, (-23)); ((-54553028761006317), (-28)); (99999999999991285, (-17)); (9999999999994118, (-16)); ((-10310387195113514), (-22)); ((-33671229311060091), (-23)); (10310387306449851, (-22)); (99999999999946787, (-17)); (33065546498974649, (-24)); (33671225901856304, (-23)); ((-33065893678530395), (-24)); (99999999999994271, (-17))];
  [(24515453648268599, (-10)); (73027219863476645, (-17)); (99999999999999423, (-17)); ((-7078279744199198), (-23)); (80562171469761338, (-24)); (70782794778573375, (-24)); (99999999999999689, (-17)); (33060414542221364, (-24)); ((-80562173809869717), (-24)); ((-33060408839805517), (-24)); (99999999999999623, (-17)); (99999999999973277, (-17)); ((-67041316900276788), (-23)); ((-29132470446852363), (-23)); (67041316900383662, (-23)); (99999999999977518, (-17)); (35711461522316044, (-28)); (29132470446606401, (-23)); ((-37665426333433061), (-28)); (99999999999995759, (-17)); (99999999999970302, (-17)); ((-74119595681342505), (-23)); ((-21076255516291998), (-23)); (74119596378210254, (-23)); (99999999999972466, (-17)); (33064039698306839, (-24)); (21076253065592941, (-23)); ((-33064196003215), (-21)); (99999999999997724, (-17))];
  [(24515453506036904, (-10)); (45489379650483441, (-17)); (99999999999999423, (-17)); ((-7078279744199198), (-23)); (80562171469761338, (-24)); (70782794778573375, (-24)); (99999999999999689, (-17)); (33060414542221364, (-24)); ((-80562173809869717), (-24)); ((-33060408839805517), (-24)); (99999999999999623, (-17)); (99999999999985545, (-17)); ((-49312079787839915), (-23)); ((-21428318824685365), (-23)); (49312079787897736, (-23)); (99999999999987843, (-17)); (2645736699683587, (-27)); (21428318824552294, (-23)); ((-27514102107772942), (-28)); (99999999999997702, (-17)); (99999999999983202, (-17)); ((-56390358823608958), (-23)); ((-13372103307988113), (-23)); (56390359265732617, (-23)); (99999999999984046, (-17)); (33063100005799305, (-24)); (13372101443545906, (-23)); ((-3306317541757904), (-23)); (99999999999999045, (-17))];
  [(24515454557541879, (-10)); (84277249305042212, (-18)); (99999999999999423, (-17)); ((-7078279744199198), (-23)); (80562171469761338, (-24)); (70782794778573375, (-24)); (99999999999999689, (-17)); (33060414542221364, (-24)); ((-80562173809869717), (-24)); ((-33060408839805517), (-24)); (99999999999999623, (-17)); (99999999999993505, (-17)); ((-33060405146088284), (-23)); ((-14366234554429163), (-23)); (33060405146114272, (-23)); (99999999999994527, (-17)); (17854583146481448, (-28)); (14366234554369352, (-23)); ((-18329782136561334), (-28)); (99999999999998967, (-17)); (9999999999999174, (-16)); ((-40138684415333335), (-23)); ((-63100185004441985), (-24)); (4013868462395665, (-22)); (99999999999991873, (-17)); (33062226634714485, (-24)); (63100171733694063, (-24)); ((-33062251986841531), (-24)); (99999999999999745, (-17))];
  [(24515454085179404, (-10)); (6913967508472767, (-16)); (99999999999999423, (-17)); ((-7078279744199198), (-23)); (80562171469761338, (-24)); (70782794778573375, (-24)); (99999999999999689, (-17)); (33060414542221364, (-24)); ((-80562173809869717), (-24)); ((-33060408839805517), (-24)); (99999999999999623, (-17)); (99999999999973044, (-17)); ((-67336127092232506), (-23)); ((-2926057874585823), (-22)); (67336127092340333, (-23)); (99999999999977329, (-17)); (35864156575320876, (-28)); (29260578745610103, (-23)); ((-37834735344688397), (-28)); (99999999999995715, (-17)); (99999999999970057, (-17)); ((-74414405869062889), (-23)); ((-21204363825044432), (-23)); (74414406570166777, (-23)); (99999999999972256, (-17)); (33064055205317569, (-24)); (21204361364596523, (-23)); ((-33064213024794755), (-24)); (99999999999997691, (-17))];
  [(24515453594454285, (-10)); (91717606110632455, (-17)); (99999999999999423, (-17)); ((-7078279744199198), (-23)); (80562171469761338, (-24)); (70782794778573375, (-24)); (99999999999999689, (-17)); (33060414542221364, (-24)); ((-80562173809869717), (-24)); ((-33060408839805517), (-24)); (99999999999999623, (-17)); (99999999999963696, (-17)); ((-78154012923348711), (-23)); ((-33961437084298564), (-23)); (78154012923493966, (-23)); (99999999999969469, (-17)); (41442926747044682, (-28)); (33961437083964299, (-23)); ((-44096948315086593), (-28)); (99999999999994227, (-17)); (99999999999960321, (-17)); ((-85232291544766103), (-23)); ((-25905222521129296), (-23)); (85232292401315306, (-23)); (99999999999963629, (-17)); (33064621797455877, (-24)); (25905219702946384, (-23)); ((-33064842573490342), (-24)); (99999999999996581, (-17))];
  [(24515451691381079, (-10)); (45113404983696848, (-17)); (99999999999999423, (-17)); ((-7078279744199198), (-23)); (80562171469761338, (-24)); (70782794778573375, (-24)); (99999999999999689, (-17)); (33060414542221364, (-24)); ((-80562173809869717), (-24)); ((-33060408839805517), (-24)); (99999999999999623, (-17)); (99999999999991429, (-17)); ((-37972694619922221), (-23)); ((-16500845484044078), (-23)); (3797269461995651, (-22)); (99999999999992784, (-17)); (2046728484566921, (-27)); (16500845483965166, (-23)); ((-21094237467877974), (-28)); (99999999999998634, (-17)); (99999999999989497, (-17)); ((-45050973818595997), (-23)); ((-84446295924615963), (-24)); (45050974097796628, (-23)); (99999999999989786, (-17)); (33062491862330895, (-24)); (84446281029632774, (-24)); ((-33062529943311889), (-24)); (99999999999999589, (-17))];
  [(24515457934205616, (-10)); (44582440148948876, (-17)); (99999999999999423, (-17)); ((-7078279744199198), (-23)); (80562171469761338, (-24)); (70782794778573375, (-24)); (99999999999999689, (-17)); (33060414542221364, (-24)); ((-80562173809869717), (-24)); ((-33060408839805517), (-24)); (99999999999999623, (-17)); (99999999999965794, (-17)); ((-7586584404227129), (-22)); ((-32967124710223215), (-23)); (75865844042408171, (-23)); (99999999999971223, (-17)); (40266295064242553, (-28)); (3296712470990824, (-22)); ((-42767456243097968), (-28)); (9999999999999456, (-16)); (99999999999962497, (-17)); ((-82944122696561215), (-23)); ((-24910910071405963), (-23)); (82944123520230601, (-23)); (99999999999965539, (-17)); (33064502290889635, (-24)); (24910907328891247, (-23)); ((-33064708920481131), (-24)); (99999999999996836, (-17))];
  [(24515451132199718, (-10)); (49441635530860673, (-17)); (99999999999999423, (-17)); ((-7078279744199198), (-23)); (80562171469761338, (-24)); (70782794778573375, (-24)); (99999999999999689, (-17)); (33060414542221364, (-24)); ((-80562173809869717), (-24)); ((-33060408839805517), (-24)); (99999999999999623, (-17)); (99999999999991773, (-17)); ((-37199136535967704), (-23)); ((-16164699670992791), (-23)); (37199136536000617, (-23)); (99999999999993061, (-17)); (20056444512246753, (-28)); (16164699670917061, (-23)); ((-20657919819200288), (-28)); (9999999999999869, (-16)); (99999999999989864, (-17)); ((-44277415745754627), (-23)); ((-81084837538361335), (-24)); (44277416013841089, (-23)); (99999999999990119, (-17)); (33062450155102459, (-24)); (81084822899154806, (-24)); ((-33062486073613633), (-24)); (99999999999999611, (-17))];
  [(24515459640265051, (-10)); (89738755450469032, (-17)); (99999999999999423, (-17)); ((-7078279744199198), (-23)); (80562171469761338, (-24)); (70782794778573375, (-24)); (99999999999999689, (-17)); (33060414542221364, (-24)); ((-80562173809869717), (-24)); ((-33060408839805517), (-24)); (99999999999999623, (-17)); (99999999999922817, (-17)); ((-11395466891684959), (-22)); ((-49518433438913283), (-23)); (1139546689171584, (-21)); (99999999999935074, (-17)); (59539738588214403, (-28)); (49518433438202654, (-23)); ((-65182303998767566), (-28)); (99999999999987743, (-17)); (99999999999918154, (-17)); ((-12103294702394332), (-22)); ((-4146222005933177), (-22)); (12103294839496251, (-22)); (99999999999926692, (-17)); (33066460320414493, (-24)); (41462216057170239, (-23)); ((-33066962120733782), (-24)); (99999999999991351, (-17))];
  [(24515459645252004, (-10)); (70241557014809053, (-18)); (99999999999999423, (-17)); ((-7078279744199198), (-23)); (80562171469761338, (-24)); (70782794778573375, (-24)); (99999999999999689, (-17)); (33060414542221364, (-24)); ((-80562173809869717), (-24)); ((-33060408839805517), (-24)); (99999999999999623, (-17)); (99999999999976141, (-17)); ((-63347809065987359), (-23)); ((-2752747503162618), (-22)); (63347809066082788, (-23)); (99999999999979927, (-17)); (33794737768879114, (-28)); (27527475031406576, (-23)); ((-35539349241275886), (-28)); (99999999999996214, (-17)); (99999999999973299, (-17)); ((-70426087900115085), (-23)); ((-1947125997895669), (-22)); (70426088543911116, (-23)); (99999999999975131, (-17)); (33063845050362181, (-24)); (19471257650394593, (-23)); ((-33063982259445284), (-24)); (99999999999998057, (-17))];
  [(24515458256588136, (-10)); (17957620307915911, (-17)); (99999999999999423, (-17)); ((-7078279744199198), (-23)); (80562171469761338, (-24)); (70782794778573375, (-24)); (99999999999999689, (-17)); (33060414542221364, (-24)); ((-80562173809869717), (-24)); ((-33060408839805517), (-24)); (99999999999999623, (-17)); (99999999999977496, (-17)); ((-61539893341690815), (-23)); ((-26741854266088803), (-23)); (61539893341780886, (-23)); (99999999999981071, (-17)); (32854709495504397, (-28)); (2674185426588155, (-22)); ((-34500735601739052), (-28)); (99999999999996425, (-17)); (9999999999997472, (-16)); ((-68618172201791598), (-23)); ((-18685639153648767), (-23)); (6861817281961005, (-22)); (99999999999976408, (-17)); (3306374959103905, (-23)); (18685636884870293, (-23)); ((-33063877841997047), (-24)); (99999999999998201, (-17))];
  [(24515455859161066, (-10)); (5036030870309649, (-16)); (99999999999999423, (-17)); ((-7078279744199198), (-23)); (80562171469761338, (-24)); (70782794778573375, (-24)); (99999999999999689, (-17)); (33060414542221364, (-24)); ((-80562173809869717), (-24)); ((-33060408839805517), (-24)); (99999999999999623, (-17)); (99999999999973554, (-17)); ((-66699720865754401), (-23)); ((-28984031593209177), (-23)); (66699720865860196, (-23)); (99999999999977751, (-17)); (35534335528241685, (-28)); (28984031592965713, (-23)); ((-37467806635049783), (-28)); (99999999999995803, (-17)); (9999999999997059, (-16)); ((-73777999651727584), (-23)); ((-20927816651355485), (-23)); (73778000343686946, (-23)); (99999999999972722, (-17)); (33064021710510328, (-24)); (20927814211952388, (-23)); ((-33064176136176005), (-24)); (99999999999997757, (-17))];
  [(24515450229276465, (-10)); (60488386755240386, (-17)); (99999999999999423, (-17)); ((-7078279744199198), (-23)); (80562171469761338, (-24)); (70782794778573375, (-24)); (99999999999999689, (-17)); (33060414542221364, (-24)); ((-80562173809869717), (-24)); ((-33060408839805517), (-24)); (99999999999999623, (-17)); (99999999999991218, (-17)); ((-38434249557245203), (-23)); ((-16701411883449966), (-23)); (38434249557280334, (-23)); (99999999999992617, (-17)); (20712124085148258, (-28)); (16701411883369127, (-23)); ((-21354029655640261), (-28)); (99999999999998612, (-17)); (99999999999989264, (-17)); ((-45512528749288151), (-23)); ((-86451960071266996), (-24)); (4551252903512024, (-22)); (99999999999989586, (-17)); (3306251671809347, (-23)); (86451945023670572, (-24)); ((-33062556064497165), (-24)); (99999999999999578, (-17))];
  [(24515450270449049, (-10)); (41782616134124206, (-17)); (99999999999999423, (-17)); ((-7078279744199198), (-23)); (80562171469761338, (-24)); (70782794778573375, (-24)); (99999999999999689, (-17)); (33060414542221364, (-24)); ((-80562173809869717), (-24)); ((-33060408839805517), (-24)); (99999999999999623, (-17)); (99999999999995592, (-17)); ((-27234743503050821), (-23)); ((-11834722290646413), (-23)); (2723474350306846, (-22)); (99999999999996292, (-17)); (14742833886861776, (-28)); (11834722290605823, (-23)); ((-15065171332651062), (-28)); (99999999999999301, (-17)); (99999999999994038, (-17)); ((-34313022855988868), (-23)); ((-37785060440624987), (-24)); (34313022980913496, (-23)); (99999999999994049, (-17)); (33061910766509581, (-24)); (37785049096081763, (-24)); ((-33061923733886055), (-24)); (99999999999999878, (-17))];
  [(24515453709269045, (-10)); (70296664651678697, (-17)); (99999999999999423, (-17)); ((-7078279744199198), (-23)); (80562171469761338, (-24)); (70782794778573375, (-24)); (99999999999999689, (-17)); (33060414542221364, (-24)); ((-80562173809869717), (-24)); ((-33060408839805517), (-24)); (99999999999999623, (-17)); (99999999999974309, (-17)); ((-65743128255088156), (-23)); ((-2856834904358037), (-22)); (65743128255190943, (-23)); (99999999999978395, (-17)); (35039050096853743, (-28)); (28568349043343847, (-23)); ((-36916580903323393), (-28)); (99999999999995925, (-17)); (99999999999971378, (-17)); ((-72821407054804035), (-23)); ((-20512134070101274), (-23)); (72821407733018149, (-23)); (99999999999973432, (-17)); (33063971411315624, (-24)); (20512131662330908, (-23)); ((-33064120719371135), (-24)); (99999999999997846, (-17))];
  [(24515451128640915, (-10)); (40048374251053431, (-17)); (99999999999999423, (-17)); ((-7078279744199198), (-23)); (80562171469761338, (-24)); (70782794778573375, (-24)); (99999999999999689, (-17)); (33060414542221364, (-24)); ((-80562173809869717), (-24)); ((-33060408839805517), (-24)); (99999999999999623, (-17)); (99999999999994127, (-17)); ((-31426850737716477), (-23)); ((-1365638161964811), (-22)); (31426850737739966, (-23)); (9999999999999506, (-16)); (16984063559376441, (-28)); (13656381619594061, (-23)); ((-17412737918220955), (-28)); (99999999999999067, (-17)); (99999999999992428, (-17)); ((-38505130030429603), (-23)); ((-56001655116571129), (-24)); (38505130215583091, (-23)); (99999999999992528, (-17)); (33062138266729047, (-24)); (5600164238594761, (-23)); ((-33062159779965967), (-24)); (99999999999999789, (-17))];
  [(2451545849533665, (-9)); (80138037255580397, (-17)); (99999999999999423, (-17)); ((-7078279744199198), (-23)); (80562171469761338, (-24)); (70782794778573375, (-24)); (99999999999999689, (-17)); (33060414542221364, (-24)); ((-80562173809869717), (-24)); ((-33060408839805517), (-24)); (99999999999999623, (-17)); (99999999999939282, (-17)); ((-10106798176222987), (-22)); ((-43918587892383229), (-23)); (10106798176247277, (-22)); (99999999999948919, (-17)); (53089918569413591, (-28)); (4391858789182423, (-22)); ((-57528981578514049), (-28)); (99999999999990363, (-17)); (99999999999935096, (-17)); ((-10814626005445797), (-22)); ((-35862374086761196), (-23)); (10814626124028313, (-22)); (99999999999941458, (-17)); (33065804956622193, (-24)); (35862370510797061, (-23)); ((-33066192824765293), (-24)); (99999999999993527, (-17))];
  [(24515454449020755, (-10)); (18851889985831094, (-17)); (99999999999999423, (-17)); ((-7078279744199198), (-23)); (80562171469761338, (-24)); (70782794778573375, (-24)); (99999999999999689, (-17)); (33060414542221364, (-24)); ((-80562173809869717), (-24)); ((-33060408839805517), (-24)); (99999999999999623, (-17)); (99999999999991063, (-17)); ((-38777657458019238), (-23)); ((-16850638076484493), (-23)); (38777657458054998, (-23)); (99999999999992484, (-17)); (20893671911883018, (-28)); (16850638076402204, (-23)); ((-21547208461925038), (-28)); (99999999999998579, (-17)); (99999999999989098, (-17)); ((-45855936645128695), (-23)); ((-87944222115144462), (-24)); (45855936935894746, (-23)); (99999999999989431, (-17)); (33062535149532957, (-24)); (87944206953999976, (-24)); ((-33062575488004258), (-24)); (99999999999999556, (-17))];
  [(24515450714757838, (-10)); (15742996186594027, (-19)); (99999999999999423, (-17)); ((-7078279744199198), (-23)); (80562171469761338, (-24)); (70782794778573375, (-24)); (99999999999999689, (-17)); (33060414542221364, (-24)); ((-80562173809869717), (-24)); ((-33060408839805517), (-24)); (99999999999999623, (-17)); (99999999999999878, (-17)); ((-4472082880805294), (-23)); ((-19433213764981383), (-24)); (44720828808057698, (-24)); (999999999999999, (-15)); (24425105384277325, (-29)); (19433213764970441, (-24)); ((-24513724383723456), (-29)); (99999999999999978, (-17)); (99999999999999134, (-17)); ((-1155036256075747), (-22)); (61128956226290798, (-24)); (11550362358661107, (-23)); (99999999999999267, (-17)); (33060662396082253, (-24)); ((-61128960044916733), (-24)); ((-33060655352586583), (-24)); (99999999999999756, (-17))];
  [(24515457185555366, (-10)); (13900365724491659, (-17)); (99999999999999423, (-17)); ((-7078279744199198), (-23)); (80562171469761338, (-24)); (70782794778573375, (-24)); (99999999999999689, (-17)); (33060414542221364, (-24)); ((-80562173809869717), (-24)); ((-33060408839805517), (-24)); (99999999999999623, (-17)); (99999999999983624, (-17)); ((-52499266721857678), (-23)); ((-22813295026114057), (-23)); (52499266721923217, (-23)); (99999999999986211, (-17)); (28131905937114769, (-28)); (22813295025963227, (-23)); ((-2932876164152276), (-27)); (99999999999997391, (-17)); (99999999999981171, (-17)); ((-59577545711838703), (-23)); ((-14757079614786677), (-23)); (59577546199756606, (-23)); (99999999999982181, (-17)); (33063270027359789, (-24)); (14757077644955575, (-23)); ((-3306335786385722), (-23)); (99999999999998856, (-17))];
  [(24515450069430526, (-10)); (91527045896049586, (-17)); (99999999999999423, (-17)); ((-7078279744199198), (-23)); (80562171469761338, (-24)); (70782794778573375, (-24)); (99999999999999689, (-17)); (33060414542221364, (-24)); ((-80562173809869717), (-24)); ((-33060408839805517), (-24)); (99999999999999623, (-17)); (9999999999998106, (-16)); ((-56457365851742258), (-23)); ((-24533267278209722), (-23)); (56457365851818057, (-23)); (99999999999984068, (-17)); (30203455761654983, (-28)); (24533267278035292, (-23)); ((-31588620608147266), (-28)); (9999999999999698, (-16)); (99999999999978462, (-17)); ((-63535644784860088), (-23)); ((-16477051997738945), (-23)); (63535645329649604, (-23)); (99999999999979761, (-17)); (33063480371072148, (-24)); (16477049897026059, (-23)); ((-33063585067198215), (-24)); (99999999999998579, (-17))];
  [(24515454123334265, (-10)); (65798016360298028, (-17)); (99999999999999423, (-17)); ((-7078279744199198), (-23)); (80562171469761338, (-24)); (70782794778573375, (-24)); (99999999999999689, (-17)); (33060414542221364, (-24)); ((-80562173809869717), (-24)); ((-33060408839805517), (-24)); (99999999999999623, (-17)); (99999999999974476, (-17)); ((-6552396516505331), (-22)); ((-28473112815473338), (-23)); (65523965165155409, (-23)); (99999999999978528, (-17)); (34925223634017722, (-28)); (28473112815238382, (-23)); ((-3679112570154075), (-27)); (99999999999995959, (-17)); (99999999999971556, (-17)); ((-72602243967917748), (-23)); ((-20416897834748606), (-23)); (7260224464298271, (-22)); (99999999999973577, (-17)); (33063959852106834, (-24)); (20416895434225531, (-23)); ((-33064108106440105), (-24)); (99999999999997879, (-17))];
  [(24515458355191192, (-10)); (46528163702157554, (-17)); (99999999999999423, (-17)); ((-7078279744199198), (-23)); (80562171469761338, (-24)); (70782794778573375, (-24)); (99999999999999689, (-17)); (33060414542221364, (-24)); ((-80562173809869717), (-24)); ((-33060408839805517), (-24)); (99999999999999623, (-17)); (99999999999962308, (-17)); ((-79634253347429528), (-23)); ((-34604668176707238), (-23)); (79634253347580331, (-23)); (99999999999968292, (-17)); (4220144128854098, (-27)); (34604668176360198, (-23)); ((-44957371159171089), (-28)); (99999999999994016, (-17)); (99999999999958877, (-17)); ((-86712531947581332), (-23)); ((-26548453662475436), (-23)); (86712532825400973, (-23)); (99999999999962341, (-17)); (33064698841423467, (-24)); (26548450795341685, (-23)); ((-33064929071071635), (-24)); (99999999999996425, (-17))];
  [(24515453051919341, (-10)); (73521693739421834, (-17)); (99999999999999423, (-17)); ((-7078279744199198), (-23)); (80562171469761338, (-24)); (70782794778573375, (-24)); (99999999999999689, (-17)); (33060414542221364, (-24)); ((-80562173809869717), (-24)); ((-33060408839805517), (-24)); (99999999999999623, (-17)); (99999999999975886, (-17)); ((-63693215955813444), (-23)); ((-27677569873673028), (-23)); (63693215955909931, (-23)); (99999999999979716, (-17)); (33975192637905244, (-28)); (27677569873451021, (-23)); ((-35737524051171476), (-28)); (9999999999999617, (-16)); (99999999999973033, (-17)); ((-70771494784978954), (-23)); ((-19621354832422853), (-23)); (7077149543373809, (-22)); (99999999999974898, (-17)); (33063863374116305, (-24)); (19621352492438903, (-23)); ((-33064002183167591), (-24)); (99999999999998024, (-17))];
  [(24515456877483563, (-10)); (22626542319642329, (-17)); (99999999999999423, (-17)); ((-7078279744199198), (-23)); (80562171469761338, (-24)); (70782794778573375, (-24)); (99999999999999689, (-17)); (33060414542221364, (-24)); ((-80562173809869717), (-24)); ((-33060408839805517), (-24)); (99999999999999623, (-17)); (99999999999981382, (-17)); ((-55955383094911643), (-23)); ((-24315133172984288), (-23)); (55955383094986097, (-23)); (99999999999984346, (-17)); (29940831912769038, (-28)); (24315133172812939, (-23)); ((-31302183067793976), (-28)); (99999999999997047, (-17)); (99999999999978795, (-17)); ((-63033662035241111), (-23)); ((-16258917875917725), (-23)); (63033662572817877, (-23)); (99999999999980071, (-17)); (33063453704279141, (-24)); (16258915791803907, (-23)); ((-33063556269042779), (-24)); (99999999999998623, (-17))];
  [(24515454288070002, (-10)); (80105439494411235, (-17)); (99999999999999423, (-17)); ((-7078279744199198), (-23)); (80562171469761338, (-24)); (70782794778573375, (-24)); (99999999999999689, (-17)); (33060414542221364, (-24)); ((-80562173809869717), (-24)); ((-33060408839805517), (-24)); (99999999999999623, (-17)); (99999999999966305, (-17)); ((-75291387552476652), (-23)); ((-3271749750775954), (-22)); (75291387552611457, (-23)); (99999999999971656, (-17)); (39971444519391806, (-28)); (32717497507449314, (-23)); ((-42435499558735046), (-28)); (9999999999999466, (-16)); (9999999999996303, (-16)); ((-82369666215019388), (-23)); ((-2466128284995048), (-22)); (82369667030434152, (-23)); (99999999999966016, (-17)); (33064472343040676, (-24)); (24661280126432542, (-23)); ((-3306467554811961), (-23)); (99999999999996914, (-17))];
  [(2451545289125727, (-9)); (33507617106719745, (-17)); (99999999999999423, (-17)); ((-7078279744199198), (-23)); (80562171469761338, (-24)); (70782794778573375, (-24)); (99999999999999689, (-17)); (33060414542221364, (-24)); ((-80562173809869717), (-24)); ((-33060408839805517), (-24)); (99999999999999623, (-17)); (99999999999991318, (-17)); ((-38213271000405621), (-23)); ((-16605386752084615), (-23)); (38213271000440344, (-23)); (99999999999992695, (-17)); (20594423604793728, (-28)); (16605386752004705, (-23)); ((-21229129565369931), (-28)); (99999999999998612, (-17)); (99999999999989364, (-17)); ((-45291550195623216), (-23)); ((-85491708684556975), (-24)); (4529155047828035, (-22)); (99999999999989675, (-17)); (33062504770020338, (-24)); (85491693710027228, (-24)); ((-33062543506518866), (-24)); (99999999999999567, (-17))];
  [(24515456406633118, (-10)); (40960546384224905, (-17)); (99999999999999423, (-17)); ((-7078279744199198), (-23)); (80562171469761338, (-24)); (70782794778573375, (-24)); (99999999999999689, (-17)); (33060414542221364, (-24)); ((-80562173809869717), (-24)); ((-33060408839805517), (-24)); (99999999999999623, (-17)); (99999999999975431, (-17)); ((-64296833463683752), (-23)); ((-27939868852498534), (-23)); (64296833463782061, (-23)); (99999999999979339, (-17)); (34287242118855037, (-28)); (27939868852272302, (-23)); ((-36084468746366838), (-28)); (99999999999996092, (-17)); (99999999999972555, (-17)); ((-71375112284177519), (-23)); ((-19883653831204243), (-23)); (71375112941609944, (-23)); (99999999999974476, (-17)); (3306389506535165, (-23)); (19883651471259943, (-23)); ((-33064037063299638), (-24)); (99999999999997968, (-17))];
  [(24515459142124169, (-10)); (82643080544657421, (-17)); (99999999999999423, (-17)); ((-7078279744199198), (-23)); (80562171469761338, (-24)); (70782794778573375, (-24)); (99999999999999689, (-17)); (33060414542221364, (-24)); ((-80562173809869717), (-24)); ((-33060408839805517), (-24)); (99999999999999623, (-17)); (99999999999932498, (-17)); ((-10656114950620781), (-22)); ((-46305616506551194), (-23)); (10656114950647784, (-22)); (99999999999943234, (-17)); (55848846513024498, (-28)); (46305616505929774, (-23)); ((-6078249015217807), (-27)); (99999999999989286, (-17)); (99999999999928113, (-17)); ((-11363942771951929), (-22)); ((-38249402882536101), (-23)); (11363942898428556, (-22)); (99999999999935385, (-17)); (33066085274829882, (-24)); (38249399124900376, (-23)); ((-33066519865227933), (-24)); (99999999999992639, (-17))];
  [(24515456013992871, (-10)); (42048594256092986, (-17)); (99999999999999423, (-17)); ((-7078279744199198), (-23)); (80562171469761338, (-24)); (70782794778573375, (-24)); (99999999999999689, (-17)); (33060414542221364, (-24)); ((-80562173809869717), (-24)); ((-33060408839805517), (-24)); (99999999999999623, (-17)); (99999999999976741, (-17)); ((-62559209545989792), (-23)); ((-27184793041458573), (-23)); (62559209546082871, (-23)); (99999999999980438, (-17)); (33384411644252063, (-28)); (271847930412444, (-21)); ((-35084712912691884), (-28)); (99999999999996303, (-17)); (99999999999973921, (-17)); ((-69637488391446785), (-23)); ((-19128577962717612), (-23)); (69637489023911569, (-23)); (99999999999975697, (-17)); (33063803382436988, (-24)); (19128575660232732, (-23)); ((-33063936553252556), (-24)); (99999999999998113, (-17))];
  [(24515450984986532, (-10)); (17369070922771912, (-17)); (99999999999999423, (-17)); ((-7078279744199198), (-23)); (80562171469761338, (-24)); (70782794778573375, (-24)); (99999999999999689, (-17)); (33060414542221364, (-24)); ((-80562173809869717), (-24)); ((-33060408839805517), (-24)); (99999999999999623, (-17)); (99999999999998357, (-17)); ((-16663271722829543), (-23)); ((-72409418415108882), (-24)); (16663271722836145, (-23)); (99999999999998612, (-17)); (90585857218019948, (-29)); (72409418414956932, (-24)); ((-91793239676007943), (-29)); (99999999999999734, (-17)); (99999999999997191, (-17)); ((-23741551227640074), (-23)); (81527475457046976, (-25)); (23741551200685992, (-23)); (99999999999997125, (-17)); (33061333825086619, (-24)); ((-81527553949779665), (-25)); ((-33061331897543385), (-24)); (99999999999999944, (-17))];
  [(24515450341639831, (-10)); (14996956551308538, (-17)); (99999999999999423, (-17)); ((-7078279744199198), (-23)); (80562171469761338, (-24)); (70782794778573375, (-24)); (99999999999999689, (-17)); (33060414542221364, (-24)); ((-80562173809869717), (-24)); ((-33060408839805517), (-24)); (99999999999999623, (-17)); (99999999999999245, (-17)); ((-11272546892659923), (-23)); ((-48984291869346515), (-24)); (11272546892662944, (-23)); (99999999999999356, (-17)); (61413249985349125, (-29)); (48984291869276979, (-24)); ((-61961547004329987), (-29)); (99999999999999867, (-17)); (99999999999998268, (-17)); ((-18350826474914964), (-23)); (31577875873663666, (-24)); (18350826370515223, (-23)); (99999999999998246, (-17)); (33061037756129559, (-24)); ((-31577881940636777), (-24)); ((-33061031922520723), (-24)); (99999999999999889, (-17))];
  [(24515451611310164, (-10)); (96372775529061316, (-17)); (99999999999999423, (-17)); ((-7078279744199198), (-23)); (80562171469761338, (-24)); (70782794778573375, (-24)); (99999999999999689, (-17)); (33060414542221364, (-24)); ((-80562173809869717), (-24)); ((-33060408839805517), (-24)); (99999999999999623, (-17)); (99999999999971811, (-17)); ((-68863188963941471), (-23)); ((-29924155868078406), (-23)); (68863188964054242, (-23)); (99999999999976286, (-17)); (3665484215281221, (-27)); (29924155867818891, (-23)); ((-38716252426240771), (-28)); (99999999999995526, (-17)); (99999999999968769, (-17)); ((-75941467718833637), (-23)); ((-21867940997750005), (-23)); (75941468441879966, (-23)); (99999999999971101, (-17)); (33064135504109175, (-24)); (21867938486804697, (-23)); ((-33064301646201294), (-24)); (99999999999997558, (-17))];
  [(24515452684190017, (-10)); (13373312121467096, (-17)); (99999999999999423, (-17)); ((-7078279744199198), (-23)); (80562171469761338, (-24)); (70782794778573375, (-24)); (99999999999999689, (-17)); (33060414542221364, (-24)); ((-80562173809869717), (-24)); ((-33060408839805517), (-24)); (99999999999999623, (-17)); (99999999999996392, (-17)); ((-24619515057047516), (-23)); ((-10698287787202304), (-23)); (24619515057061926, (-23)); (99999999999996969, (-17)); (13341042489641536, (-28)); (10698287787169135, (-23)); ((-13604672943756668), (-28)); (99999999999999423, (-17)); (99999999999994937, (-17)); ((-31697794447556615), (-23)); ((-26420714541577941), (-24)); (31697794534908158, (-23)); (99999999999994915, (-17)); (33061768480485263, (-24)); (26420704061725177, (-24)); ((-33061776879647074), (-24)); (99999999999999911, (-17))];
  [(2451545382655737, (-9)); (53600218600518335, (-18)); (99999999999999423, (-17)); ((-7078279744199198), (-23)); (80562171469761338, (-24)); (70782794778573375, (-24)); (99999999999999689, (-17)); (33060414542221364, (-24)); ((-80562173809869717), (-24)); ((-33060408839805517), (-24)); (99999999999999623, (-17)); (99999999999995759, (-17)); ((-26707331524524603), (-23)); ((-11605538040775505), (-23)); (26707331524541565, (-23)); (99999999999996436, (-17)); (14459698729966763, (-28)); (11605538040736472, (-23)); ((-14769296896588457), (-28)); (99999999999999323, (-17)); (99999999999994227, (-17)); ((-33785610885039583), (-23)); ((-35493217767551206), (-24)); (3378561100238685, (-22)); (99999999999994238, (-17)); (33061882028099396, (-24)); (35493206597390333, (-24)); ((-33061893984219433), (-24)); (99999999999999878, (-17))];
  [(24515458610468148, (-10)); (32531241516382936, (-17)); (99999999999999423, (-17)); ((-7078279744199198), (-23)); (80562171469761338, (-24)); (70782794778573375, (-24)); (99999999999999689, (-17)); (33060414542221364, (-24)); ((-80562173809869717), (-24)); ((-33060408839805517), (-24)); (99999999999999623, (-17)); (99999999999968647, (-17)); ((-726282106948444), (-21)); ((-3156022728635291), (-22)); (72628210694969845, (-23)); (99999999999973621, (-17)); (38599372311201012, (-28)); (31560227286064247, (-23)); ((-40891179331481453), (-28)); (99999999999995026, (-17)); (99999999999965472, (-17)); ((-79706489395647138), (-23)); ((-23504012540497931), (-23)); (7970649017279379, (-22)); (9999999999996817, (-16)); (33064332990307396, (-24)); (23504009905048555, (-23)); ((-33064520296948778), (-24)); (99999999999997191, (-17))];
  [(24515450055423738, (-10)); (39381563860536006, (-17)); (99999999999999423, (-17)); ((-7078279744199198), (-23)); (80562171469761338, (-24)); (70782794778573375, (-24)); (99999999999999689, (-17)); (33060414542221364, (-24)); ((-80562173809869717), (-24)); ((-33060408839805517), (-24)); (99999999999999623, (-17)); (99999999999996447, (-17)); ((-24448461259979576), (-23)); ((-1062395721108949), (-22)); (24448461259993796, (-23)); (99999999999997002, (-17)); (13249440745250555, (-28)); (10623957211056782, (-23)); ((-13508638652126592), (-28)); (99999999999999434, (-17)); (99999999999994993, (-17)); ((-31526740652946076), (-23)); ((-25677408723898666), (-24)); (31526740737840107, (-23)); (9999999999999496, (-16)); (3306175918250618, (-23)); (25677398300602318, (-24)); ((-33061767223604658), (-24)); (99999999999999911, (-17))];
  [(24515451647241577, (-10)); (56912457648374903, (-17)); (99999999999999423, (-17)); ((-7078279744199198), (-23)); (80562171469761338, (-24)); (70782794778573375, (-24)); (99999999999999689, (-17)); (33060414542221364, (-24)); ((-80562173809869717), (-24)); ((-33060408839805517), (-24)); (99999999999999623, (-17)); (99999999999987998, (-17)); ((-44925785490706068), (-23)); ((-19522276490059814), (-23)); (44925785490754063, (-23)); (99999999999989908, (-17)); (24146026801312992, (-28)); (19522276489949366, (-23)); ((-25023316752026403), (-28)); (9999999999999809, (-16)); (99999999999985822, (-17)); ((-5200406458948983), (-22)); ((-11466060828349665), (-23)); (52004064968590977, (-23)); (99999999999986422, (-17)); (330628653380865, (-22)); (11466059108944723, (-23)); ((-33062924989893516), (-24)); (99999999999999289, (-17))];
  [(24515454223042815, (-10)); (58698783127518417, (-18)); (99999999999999423, (-17)); ((-7078279744199198), (-23)); (80562171469761338, (-24)); (70782794778573375, (-24)); (99999999999999689, (-17)); (33060414542221364, (-24)); ((-80562173809869717), (-24)); ((-33060408839805517), (-24)); (99999999999999623, (-17)); (99999999999994849, (-17)); ((-29446723079499656), (-23)); ((-12795927003998815), (-23)); (29446723079520276, (-23)); (9999999999999567, (-16)); (15926456286225337, (-28)); (12795927003951365, (-23)); ((-16303070005108111), (-28)); (99999999999999178, (-17)); (99999999999993217, (-17)); ((-36525002400659823), (-23)); ((-47397108305439213), (-24)); (36525002557364306, (-23)); (99999999999993272, (-17)); (33062030910768098, (-24)); (47397096229528447, (-24)); ((-33062048204120849), (-24)); (99999999999999833, (-17))];
  [(24515451269719051, (-10)); (66066363483868629, (-17)); (99999999999999423, (-17)); ((-7078279744199198), (-23)); (80562171469761338, (-24)); (70782794778573375, (-24)); (99999999999999689, (-17)); (33060414542221364, (-24)); ((-80562173809869717), (-24)); ((-33060408839805517), (-24)); (99999999999999623, (-17)); (99999999999986178, (-17)); ((-48218581953697572), (-23)); ((-20953144788945035), (-23)); (48218581953752862, (-23)); (99999999999988376, (-17)); (25882720547467232, (-28)); (209531447888178, (-21)); ((-26892932325495167), (-28)); (99999999999997813, (-17)); (9999999999998388, (-16)); ((-55296861005176112), (-23)); ((-12896929236096242), (-23)); (55296861431588252, (-23)); (99999999999984657, (-17)); (33063041660208938, (-24)); (1289692740781185, (-22)); ((-33063112964259381), (-24)); (99999999999999123, (-17))];
  [(24515455281209596, (-10)); (8331441555528315, (-16)); (99999999999999423, (-17)); ((-7078279744199198), (-23)); (80562171469761338, (-24)); (70782794778573375, (-24)); (99999999999999689, (-17)); (33060414542221364, (-24)); ((-80562173809869717), (-24)); ((-33060408839805517), (-24)); (99999999999999623, (-17)); (99999999999958711, (-17)); ((-83335845705230588), (-23)); ((-36213176669233464), (-23)); (83335845705395738, (-23)); (99999999999965272, (-17)); (44096081533276926, (-28)); (36213176668853411, (-23)); ((-47114534496017768), (-28)); (99999999999993439, (-17)); (99999999999955158, (-17)); ((-90414124252204181), (-23)); ((-28156962277378122), (-23)); (90414125183214622, (-23)); (99999999999959066, (-17)); (33064891287530125, (-24)); (28156959287833415, (-23)); ((-33065145925952438), (-24)); (99999999999995981, (-17))];
  [(24515452459984957, (-10)); (62159436350320174, (-17)); (99999999999999423, (-17)); ((-7078279744199198), (-23)); (80562171469761338, (-24)); (70782794778573375, (-24)); (99999999999999689, (-17)); (33060414542221364, (-24)); ((-80562173809869717), (-24)); ((-33060408839805517), (-24)); (99999999999999623, (-17)); (99999999999983236, (-17)); ((-53113521788302321), (-23)); ((-23080216504364027), (-23)); (53113521788369395, (-23)); (99999999999985889, (-17)); (284522697785065, (-26)); (2308021650420965, (-22)); ((-29678481894279685), (-28)); (99999999999997324, (-17)); (99999999999980749, (-17)); ((-60191800769458767), (-23)); ((-15024001113344203), (-23)); (60191801266202498, (-23)); (99999999999981815, (-17)); (33063302558601043, (-24)); (15023999123201754, (-23)); ((-33063393024816953), (-24)); (99999999999998801, (-17))];
  [(24515450846674298, (-10)); (6747729808885915, (-16)); (99999999999999423, (-17)); ((-7078279744199198), (-23)); (80562171469761338, (-24)); (70782794778573375, (-24)); (99999999999999689, (-17)); (33060414542221364, (-24)); ((-80562173809869717), (-24)); ((-33060408839805517), (-24)); (99999999999999623, (-17)); (99999999999987144, (-17)); ((-46492492802959125), (-23)); ((-20203081347822062), (-23)); (46492492803010524, (-23)); (99999999999989175, (-17)); (24972730242385625, (-28)); (20203081347703768, (-23)); ((-25912050283238841), (-28)); (99999999999997957, (-17)); (99999999999984912, (-17)); ((-53570771879235131), (-23)); ((-12146865737907974), (-23)); (53570772280846708, (-23)); (99999999999985578, (-17)); (33062949270603796, (-24)); (12146863966698503, (-23)); ((-33063014345139311), (-24)); (99999999999999212, (-17))];
  [(24515453926152149, (-10)); (52227282847142698, (-17)); (99999999999999423, (-17)); ((-7078279744199198), (-23)); (80562171469761338, (-24)); (70782794778573375, (-24)); (99999999999999689, (-17)); (33060414542221364, (-24)); ((-80562173809869717), (-24)); ((-33060408839805517), (-24)); (99999999999999623, (-17)); (99999999999981348, (-17)); ((-56008905016740519), (-23)); ((-24338390857377682), (-23)); (56008905016815121, (-23)); (99999999999984301, (-17)); (29969148557853177, (-28)); (2433839085720601, (-22)); ((-31332714200971168), (-28)); (99999999999997036, (-17)); (99999999999978773, (-17)); ((-63087183956301082), (-23)); ((-16282175562080578), (-23)); (63087184494646879, (-23)); (99999999999980027, (-17)); (3306345657906206, (-23)); (16282173476196957, (-23)); ((-33063559338618533), (-24)); (99999999999998623, (-17))];
  [(24515456092580501, (-10)); (74616005688343112, (-17)); (99999999999999423, (-17)); ((-7078279744199198), (-23)); (80562171469761338, (-24)); (70782794778573375, (-24)); (99999999999999689, (-17)); (33060414542221364, (-24)); ((-80562173809869717), (-24)); ((-33060408839805517), (-24)); (99999999999999623, (-17)); (99999999999959066, (-17)); ((-82977895314548868), (-23)); ((-36057631112830636), (-23)); (82977895314712599, (-23)); (9999999999996555, (-16)); (43913945769020478, (-28)); (36057631112453833, (-23)); ((-46905812567388239), (-28)); (99999999999993494, (-17)); (99999999999955524, (-17)); ((-90056173866664893), (-23)); ((-28001416709141281), (-23)); (90056174792531652, (-23)); (99999999999959366, (-17)); (33064872785581188, (-24)); (28001413731433975, (-23)); ((-33065124943660095), (-24)); (99999999999996025, (-17))];
  [(24515458007567935, (-10)); (89997255192818426, (-18)); (99999999999999423, (-17)); ((-7078279744199198), (-23)); (80562171469761338, (-24)); (70782794778573375, (-24)); (99999999999999689, (-17)); (33060414542221364, (-24)); ((-80562173809869717), (-24)); ((-33060408839805517), (-24)); (99999999999999623, (-17)); (99999999999982325, (-17)); ((-54531436119530949), (-23)); ((-23696364111149929), (-23)); (54531436119601665, (-23)); (99999999999985123, (-17)); (29195715843915925, (-28)); (23696364110987198, (-23)); ((-30487834479231424), (-28)); (9999999999999718, (-16)); (99999999999979794, (-17)); ((-61609715080317237), (-23)); ((-15640148767007013), (-23)); (61609715597434112, (-23)); (99999999999980949, (-17)); (33063378045509913, (-24)); (15640146729978735, (-23)); ((-33063474396201919), (-24)); (99999999999998712, (-17))];
  [(24515450310407691, (-10)); (29694717282411043, (-17)); (99999999999999423, (-17)); ((-7078279744199198), (-23)); (80562171469761338, (-24)); (70782794778573375, (-24)); (99999999999999689, (-17)); (33060414542221364, (-24)); ((-80562173809869717), (-24)); ((-33060408839805517), (-24)); (99999999999999623, (-17)); (99999999999997602, (-17)); ((-2007922775632464), (-22)); ((-87253285375082278), (-24)); (20079227756334228, (-23)); (99999999999997979, (-17)); (10900570506708534, (-28)); (87253285374861639, (-24)); ((-11076140005172874), (-28)); (99999999999999623, (-17)); (99999999999996303, (-17)); ((-27157507212060676), (-23)); ((-66911205435984705), (-25)); (27157507234182525, (-23)); (99999999999996247, (-17)); (33061520775533263, (-24)); (66911115649133205, (-25)); ((-33061522629837535), (-24)); (99999999999999944, (-17))];
  [(24515455186087396, (-10)); (36857674269511009, (-17)); (99999999999999423, (-17)); ((-7078279744199198), (-23)); (80562171469761338, (-24)); (70782794778573375, (-24)); (99999999999999689, (-17)); (33060414542221364, (-24)); ((-80562173809869717), (-24)); ((-33060408839805517), (-24)); (99999999999999623, (-17)); (9999999999998247, (-16)); ((-54312970595157524), (-23)); ((-23601431006232341), (-23)); (54312970595227669, (-23)); (99999999999985256, (-17)); (29082449453894021, (-28)); (2360143100607091, (-22)); ((-30363489500473406), (-28)); (99999999999997213, (-17)); (99999999999979949, (-17)); ((-61391249559082355), (-23)); ((-15545215654866852), (-23)); (61391250073060211, (-23)); (99999999999981104, (-17)); (33063366542870378, (-24)); (15545213625062537, (-23)); ((-33063461894507749), (-24)); (99999999999998734, (-17))];
  [(24515457179272398, (-10)); (11418407559825039, (-18)); (99999999999999423, (-17)); ((-7078279744199198), (-23)); (80562171469761338, (-24)); (70782794778573375, (-24)); (99999999999999689, (-17)); (33060414542221364, (-24)); ((-80562173809869717), (-24)); ((-33060408839805517), (-24)); (99999999999999623, (-17)); (99999999999988143, (-17)); ((-4465010918166005), (-22)); ((-19402482723234066), (-23)); (44650109181707458, (-23)); (99999999999990019, (-17)); (24001118145133845, (-28)); (19402482723124966, (-23)); ((-24868440640091194), (-28)); (99999999999998113, (-17)); (99999999999985967, (-17)); ((-51728388284404269), (-23)); ((-11346267052409933), (-23)); (517283886595445, (-21)); (99999999999986544, (-17)); (33062850625130096, (-24)); (11346265342120433, (-23)); ((-33062909417488951), (-24)); (99999999999999301, (-17))];
  [(24515453020217167, (-10)); (71478624540581126, (-17)); (99999999999999423, (-17)); ((-7078279744199198), (-23)); (80562171469761338, (-24)); (70782794778573375, (-24)); (99999999999999689, (-17)); (33060414542221364, (-24)); ((-80562173809869717), (-24)); ((-33060408839805517), (-24)); (99999999999999623, (-17)); (99999999999976963, (-17)); ((-62248382226046109), (-23)); ((-27049724579048011), (-23)); (62248382226138245, (-23)); (99999999999980627, (-17)); (33223390736018176, (-28)); (27049724578835956, (-23)); ((-34907632340264172), (-28)); (99999999999996347, (-17)); (99999999999974154, (-17)); ((-69326661075968532), (-23)); ((-18993509490030953), (-23)); (69326661703967081, (-23)); (99999999999975908, (-17)); (33063787029936989, (-24)); (18993507197824418, (-23)); ((-33063918749590096), (-24)); (99999999999998146, (-17))];
  [(2451545892386694, (-9)); (28145933299782699, (-17)); (99999999999999423, (-17)); ((-7078279744199198), (-23)); (80562171469761338, (-24)); (70782794778573375, (-24)); (99999999999999689, (-17)); (33060414542221364, (-24)); ((-80562173809869717), (-24)); ((-33060408839805517), (-24)); (99999999999999623, (-17)); (99999999999969302, (-17)); ((-71862159796304923), (-23)); ((-3122734368865942), (-22)); (71862159796427711, (-23)); (99999999999974176, (-17)); (38204022866589676, (-28)); (31227343688376818, (-23)); ((-40447645233143703), (-28)); (99999999999995126, (-17)); (9999999999996616, (-16)); ((-7894043850811297), (-22)); ((-23171128917478437), (-23)); (78940439274252026, (-23)); (99999999999968781, (-17)); (33064292838215881, (-24)); (23171126307361429, (-23)); ((-33064475707914655), (-24)); (99999999999997269, (-17))];
  [(24515452082028617, (-10)); (27263793201918862, (-17)); (99999999999999423, (-17)); ((-7078279744199198), (-23)); (80562171469761338, (-24)); (70782794778573375, (-24)); (99999999999999689, (-17)); (33060414542221364, (-24)); ((-80562173809869717), (-24)); ((-33060408839805517), (-24)); (99999999999999623, (-17)); (99999999999994849, (-17)); ((-29436788951414961), (-23)); ((-12791610178095505), (-23)); (29436788951435565, (-23)); (9999999999999567, (-16)); (15920349478007445, (-28)); (12791610178048087, (-23)); ((-16298074001497298), (-28)); (99999999999999178, (-17)); (99999999999993217, (-17)); ((-36515068272717842), (-23)); ((-47353940043121848), (-24)); (365150684292796, (-21)); (99999999999993272, (-17)); (3306203029208413, (-23)); (47353927970495717, (-24)); ((-33062047701464916), (-24)); (99999999999999833, (-17))];
  [(24515457284794697, (-10)); (41751889759936311, (-17)); (99999999999999423, (-17)); ((-7078279744199198), (-23)); (80562171469761338, (-24)); (70782794778573375, (-24)); (99999999999999689, (-17)); (33060414542221364, (-24)); ((-80562173809869717), (-24)); ((-33060408839805517), (-24)); (99999999999999623, (-17)); (99999999999970746, (-17)); ((-70157342516075217), (-23)); ((-30486523840972735), (-23)); (70157342516192256, (-23)); (99999999999975386, (-17)); (37324485511783643, (-28)); (30486523840703373, (-23)); ((-39463432521813502), (-28)); (99999999999995359, (-17)); (99999999999967659, (-17)); ((-7723562125237518), (-22)); ((-22430309013429668), (-23)); (77235621994017376, (-23)); (99999999999970113, (-17)); (33064203511042981, (-24)); (22430306459688669, (-23)); ((-33064376762270583), (-24)); (99999999999997435, (-17))];
  [(24515452721605287, (-10)); (60537639665538057, (-17)); (99999999999999423, (-17)); ((-7078279744199198), (-23)); (80562171469761338, (-24)); (70782794778573375, (-24)); (99999999999999689, (-17)); (33060414542221364, (-24)); ((-80562173809869717), (-24)); ((-33060408839805517), (-24)); (99999999999999623, (-17)); (99999999999982847, (-17)); ((-53722291640234936), (-23)); ((-23344754409906365), (-23)); (53722291640303567, (-23)); (99999999999985567, (-17)); (28772078672658205, (-28)); (23344754409748428, (-23)); ((-30025981700987359), (-28)); (9999999999999728, (-16)); (99999999999980338, (-17)); ((-60800570612645629), (-23)); ((-15288539039012759), (-23)); (60800571118136395, (-23)); (99999999999981448, (-17)); (33063335029928566, (-24)); (15288537028740289, (-23)); ((-33063427962044944), (-24)); (99999999999998779, (-17))];
  [(2451545217390005, (-9)); (78555779485277477, (-17)); (99999999999999423, (-17)); ((-7078279744199198), (-23)); (80562171469761338, (-24)); (70782794778573375, (-24)); (99999999999999689, (-17)); (33060414542221364, (-24)); ((-80562173809869717), (-24)); ((-33060408839805517), (-24)); (99999999999999623, (-17)); (99999999999977596, (-17)); ((-61399871280431226), (-23)); ((-2668100837735076), (-22)); (61399871280520885, (-23)); (99999999999981148, (-17)); (32781972772483592, (-28)); (26681008377144455, (-23)); ((-34420244432453728), (-28)); (99999999999996436, (-17)); (99999999999974831, (-17)); ((-68478150142543608), (-23)); ((-18624793260281528), (-23)); (68478150758350134, (-23)); (99999999999976497, (-17)); (33063742204561965, (-24)); (18624790996133253, (-23)); ((-33063869749811702), (-24)); (99999999999998213, (-17))];
  [(24515452330879271, (-10)); (28818704439458831, (-17)); (99999999999999423, (-17)); ((-7078279744199198), (-23)); (80562171469761338, (-24)); (70782794778573375, (-24)); (99999999999999689, (-17)); (33060414542221364, (-24)); ((-80562173809869717), (-24)); ((-33060408839805517), (-24)); (99999999999999623, (-17)); (99999999999993949, (-17)); ((-31912145405976839), (-23)); ((-13867264001541222), (-23)); (31912145406001064, (-23)); (99999999999994915, (-17)); (17242776084890481, (-28)); (13867264001485492, (-23)); ((-17685297670766431), (-28)); (99999999999999034, (-17)); (9999999999999224, (-16)); ((-38990424691718089), (-23)); ((-58110479095942786), (-24)); (38990424883843966, (-23)); (99999999999992351, (-17)); (33062164528945475, (-24)); (58110466204860019, (-24)); ((-33062187185209662), (-24)); (99999999999999778, (-17))];
  [(24515456215771474, (-10)); (67669412666597439, (-17)); (99999999999999423, (-17)); ((-7078279744199198), (-23)); (80562171469761338, (-24)); (70782794778573375, (-24)); (99999999999999689, (-17)); (33060414542221364, (-24)); ((-80562173809869717), (-24)); ((-33060408839805517), (-24)); (99999999999999623, (-17)); (99999999999962452, (-17)); ((-79479399945207275), (-23)); ((-34537377403246551), (-23)); (79479399945357507, (-23)); (99999999999968414, (-17)); (42123146068314772, (-28)); (34537377402900856, (-23)); ((-44867998205688764), (-28)); (99999999999994038, (-17)); (99999999999959033, (-17)); ((-86557678547583747), (-23)); ((-26481162883895218), (-23)); (86557679423178222, (-23)); (99999999999962474, (-17)); (33064690887148222, (-24)); (26481160021882406, (-23)); ((-33064920086146003), (-24)); (99999999999996447, (-17))];
  [(24515458324631271, (-10)); (13909272824485819, (-17)); (99999999999999423, (-17)); ((-7078279744199198), (-23)); (80562171469761338, (-24)); (70782794778573375, (-24)); (99999999999999689, (-17)); (33060414542221364, (-24)); ((-80562173809869717), (-24)); ((-33060408839805517), (-24)); (99999999999999623, (-17)); (99999999999978972, (-17)); ((-59478074982769418), (-23)); ((-25845901375579635), (-23)); (59478074982853539, (-23)); (99999999999982303, (-17)); (31780320642440561, (-28)); (2584590137538604, (-22)); ((-33317792969000948), (-28)); (99999999999996647, (-17)); (99999999999976275, (-17)); ((-6655635387249088), (-22)); ((-17789686194974916), (-23)); (66556354460683688, (-23)); (99999999999977784, (-17)); (33063640491108507, (-24)); (17789683994375606, (-23)); ((-33063758913553323), (-24)); (99999999999998357, (-17))];
  [(24515451148014222, (-10)); (36818991860584183, (-17)); (99999999999999423, (-17)); ((-7078279744199198), (-23)); (80562171469761338, (-24)); (70782794778573375, (-24)); (99999999999999689, (-17)); (33060414542221364, (-24)); ((-80562173809869717), (-24)); ((-33060408839805517), (-24)); (99999999999999623, (-17)); (99999999999994804, (-17)); ((-2956844417317123), (-22)); ((-12848820299277965), (-23)); (29568444173192019, (-23)); (99999999999995626, (-17)); (1599030125209971, (-27)); (12848820299230121, (-23)); ((-16370793609610246), (-28)); (99999999999999167, (-17)); (99999999999993161, (-17)); ((-36646723492582718), (-23)); ((-47926041298472234), (-24)); (36646723651035996, (-23)); (99999999999993217, (-17)); (33062037393325814, (-24)); (47926029182315545, (-24)); ((-33062055013920645), (-24)); (99999999999999822, (-17))];
  [(24515453108870704, (-10)); (89434553898587588, (-17)); (99999999999999423, (-17)); ((-7078279744199198), (-23)); (80562171469761338, (-24)); (70782794778573375, (-24)); (99999999999999689, (-17)); (33060414542221364, (-24)); ((-80562173809869717), (-24)); ((-33060408839805517), (-24)); (99999999999999623, (-17)); (99999999999967637, (-17)); ((-73783627833605783), (-23)); ((-3206230804175762), (-22)); (73783627833735241, (-23)); (99999999999972777, (-17)); (39195175153825702, (-28)); (32062308041459698, (-23)); ((-41561198926842735), (-28)); (9999999999999486, (-16)); (99999999999964428, (-17)); ((-80861906517809449), (-23)); ((-24006093334101291), (-23)); (80861907311558656, (-23)); (99999999999967248, (-17)); (33064393501420516, (-24)); (24006090660443535, (-23)); ((-33064587654295056), (-24)); (99999999999997069, (-17))];
  [(24515457163047553, (-10)); (66274597482254294, (-17)); (99999999999999423, (-17)); ((-7078279744199198), (-23)); (80562171469761338, (-24)); (70782794778573375, (-24)); (99999999999999689, (-17)); (33060414542221364, (-24)); ((-80562173809869717), (-24)); ((-33060408839805517), (-24)); (99999999999999623, (-17)); (99999999999957634, (-17)); ((-84424670550600607), (-23)); ((-36686320073321518), (-23)); (84424670550770098, (-23)); (99999999999964362, (-17)); (44652484875377855, (-28)); (3668632007293147, (-22)); ((-4775013717761567), (-27)); (99999999999993272, (-17)); (99999999999954037, (-17)); ((-91502949081931799), (-23)); ((-28630105717463266), (-23)); (91502950028588452, (-23)); (99999999999958078, (-17)); (33064947805044973, (-24)); (28630102691911029, (-23)); ((-3306520982112468), (-23)); (99999999999995848, (-17))];
  [(24515458735620733, (-10)); (38411954595578579, (-17)); (99999999999999423, (-17)); ((-7078279744199198), (-23)); (80562171469761338, (-24)); (70782794778573375, (-24)); (99999999999999689, (-17)); (33060414542221364, (-24)); ((-80562173809869717), (-24)); ((-33060408839805517), (-24)); (99999999999999623, (-17)); (99999999999964762, (-17)); ((-7699452524824729), (-22)); ((-33457587498642867), (-23)); (76994525248388257, (-23)); (99999999999970346, (-17)); (40847113240404869, (-28)); (33457587498318448, (-23)); ((-43423042939139123), (-28)); (99999999999994393, (-17)); (99999999999961431, (-17)); ((-8407280388632223), (-22)); ((-2540137289714037), (-22)); (84072804726210148, (-23)); (99999999999964584, (-17)); (33064561281997049, (-24)); (25401370117300999, (-23)); ((-33064774826313965), (-24)); (99999999999996714, (-17))];
  [(2451545368369183, (-9)); (28161598966901225, (-17)); (99999999999999423, (-17)); ((-7078279744199198), (-23)); (80562171469761338, (-24)); (70782794778573375, (-24)); (99999999999999689, (-17)); (33060414542221364, (-24)); ((-80562173809869717), (-24)); ((-33060408839805517), (-24)); (99999999999999623, (-17)); (99999999999990585, (-17)); ((-39791707830660369), (-23)); ((-17291288615583987), (-23)); (39791707830698019, (-23)); (99999999999992073, (-17)); (21432209292464051, (-28)); (17291288615497335, (-23)); ((-22120638654143931), (-28)); (99999999999998512, (-17)); (99999999999988576, (-17)); ((-46869987003201706), (-23)); ((-92350727841389014), (-24)); (468699873085373, (-21)); (99999999999988942, (-17)); (33062589820211882, (-24)); (92350712344947264, (-24)); ((-33062633142928235), (-24)); (99999999999999523, (-17))];
  [(24515450026023658, (-10)); (18114451870429416, (-17)); (99999999999999423, (-17)); ((-7078279744199198), (-23)); (80562171469761338, (-24)); (70782794778573375, (-24)); (99999999999999689, (-17)); (33060414542221364, (-24)); ((-80562173809869717), (-24)); ((-33060408839805517), (-24)); (99999999999999623, (-17)); (99999999999999245, (-17)); ((-11248875546274405), (-23)); ((-48881429211215944), (-24)); (11248875546277414, (-23)); (99999999999999378, (-17)); (61291120152250543, (-29)); (48881429211146693, (-24)); ((-61839422471621219), (-29)); (99999999999999889, (-17)); (99999999999998257, (-17)); ((-18327155128869513), (-23)); (31680738539620081, (-24)); (18327155024129707, (-23)); (99999999999998268, (-17)); (33061036515761087, (-24)); ((-3168074459876699), (-23)); ((-33061030693994499), (-24)); (999999999999999, (-15))];
  [(24515450694405944, (-10)); (45452824482651533, (-18)); (99999999999999423, (-17)); ((-7078279744199198), (-23)); (80562171469761338, (-24)); (70782794778573375, (-24)); (99999999999999689, (-17)); (33060414542221364, (-24)); ((-80562173809869717), (-24)); ((-33060408839805517), (-24)); (99999999999999623, (-17)); (999999999999997, (-15)); ((-70337071180747562), (-24)); ((-30564624482195193), (-24)); (70337071180759328, (-24)); (99999999999999745, (-17)); (38380901840004348, (-29)); (30564624482168121, (-24)); ((-38596903451093567), (-29)); (99999999999999956, (-17)); (99999999999998868, (-17)); ((-14111986761226011), (-23)); (49997544662193287, (-24)); (1411198659593012, (-22)); (99999999999998934, (-17)); (33060804017746867, (-24)); ((-49997549327729052), (-24)); ((-3306079697228964), (-23)); (99999999999999822, (-17))];
  [(24515459479022315, (-10)); (99798834830952521, (-17)); (99999999999999423, (-17)); ((-7078279744199198), (-23)); (80562171469761338, (-24)); (70782794778573375, (-24)); (99999999999999689, (-17)); (33060414542221364, (-24)); ((-80562173809869717), (-24)); ((-33060408839805517), (-24)); (99999999999999623, (-17)); (99999999999915645, (-17)); ((-11912627165130047), (-22)); ((-51765727570667456), (-23)); (11912627165163794, (-22)); (99999999999929046, (-17)); (62108327766340562, (-28)); (51765727569890854, (-23)); ((-68274830233860939), (-28)); (999999999999866, (-15)); (99999999999910816, (-17)); ((-1262045496840972), (-21)); ((-43709514362061853), (-23)); (12620455112943954, (-22)); (99999999999920308, (-17)); (33066721345685774, (-24)); (43709510188856343, (-23)); ((-33067272964054567), (-24)); (99999999999990397, (-17))];
  [(24515452389814407, (-10)); (84759322010240912, (-17)); (99999999999999423, (-17)); ((-7078279744199198), (-23)); (80562171469761338, (-24)); (70782794778573375, (-24)); (99999999999999689, (-17)); (33060414542221364, (-24)); ((-80562173809869717), (-24)); ((-33060408839805517), (-24)); (99999999999999623, (-17)); (99999999999973699, (-17)); ((-66519458303713439), (-23)); ((-28905699395633235), (-23)); (66519458303818662, (-23)); (99999999999977884, (-17)); (35441052918387308, (-28)); (2890569939539109, (-22)); ((-37364000782247331), (-28)); (99999999999995814, (-17)); (99999999999970746, (-17)); ((-7359773709227633), (-22)); ((-20849484447819976), (-23)); (73597737781645497, (-23)); (99999999999972866, (-17)); (33064012237025952, (-24)); (20849482014377839, (-23)); ((-33064165700145014), (-24)); (99999999999997768, (-17))];
  [(24515451538647753, (-10)); (89963919297530293, (-17)); (99999999999999423, (-17)); ((-7078279744199198), (-23)); (80562171469761338, (-24)); (70782794778573375, (-24)); (99999999999999689, (-17)); (33060414542221364, (-24)); ((-80562173809869717), (-24)); ((-33060408839805517), (-24)); (99999999999999623, (-17)); (99999999999975275, (-17)); ((-64494890045684605), (-23)); ((-28025933352817916), (-23)); (64494890045783528, (-23)); (99999999999979206, (-17)); (34389963109422009, (-28)); (28025933352590286, (-23)); ((-36198266606390916), (-28)); (9999999999999607, (-16)); (99999999999972389, (-17)); ((-7157316886333304), (-22)); ((-1996971833807147), (-22)); (71573169523611316, (-23)); (99999999999974332, (-17)); (33063905497009337, (-24)); (19969715971577845, (-23)); ((-33064048504004495), (-24)); (99999999999997946, (-17))];
  [(24515452468118323, (-10)); (96090747427529133, (-17)); (99999999999999423, (-17)); ((-7078279744199198), (-23)); (80562171469761338, (-24)); (70782794778573375, (-24)); (99999999999999689, (-17)); (33060414542221364, (-24)); ((-80562173809869717), (-24)); ((-33060408839805517), (-24)); (99999999999999623, (-17)); (99999999999967504, (-17)); ((-73935861968728348), (-23)); ((-32128460625939998), (-23)); (73935861968858346, (-23)); (99999999999972666, (-17)); (39273468235154212, (-28)); (32128460625640842, (-23)); ((-41648906545788122), (-28)); (99999999999994837, (-17)); (99999999999964284, (-17)); ((-81014140650744965), (-23)); ((-24072245923316607), (-23)); (81014141446681687, (-23)); (99999999999967126, (-17)); (33064401453371734, (-24)); (24072243244624621, (-23)); ((-33064596471881594), (-24)); (99999999999997047, (-17))];
  [(24515450042952513, (-10)); (49484675772812048, (-17)); (99999999999999423, (-17)); ((-7078279744199198), (-23)); (80562171469761338, (-24)); (70782794778573375, (-24)); (99999999999999689, (-17)); (33060414542221364, (-24)); ((-80562173809869717), (-24)); ((-33060408839805517), (-24)); (99999999999999623, (-17)); (99999999999994449, (-17)); ((-3055717853224194), (-22)); ((-13278469892590717), (-23)); (30557178532264149, (-23)); (99999999999995315, (-17)); (16519381628712618, (-28)); (1327846989253962, (-22)); ((-16924794898898199), (-28)); (99999999999999112, (-17)); (99999999999992772, (-17)); ((-37635457837449004), (-23)); ((-52222537558479704), (-24)); (3763545801010767, (-22)); (99999999999992839, (-17)); (33062091097909254, (-24)); (52222525115406626, (-24)); ((-33062110718167562), (-24)); (999999999999998, (-15))];
  [(24515455757400063, (-10)); (27094756857080737, (-18)); (99999999999999423, (-17)); ((-7078279744199198), (-23)); (80562171469761338, (-24)); (70782794778573375, (-24)); (99999999999999689, (-17)); (33060414542221364, (-24)); ((-80562173809869717), (-24)); ((-33060408839805517), (-24)); (99999999999999623, (-17)); (99999999999991906, (-17)); ((-3690518763054636), (-22)); ((-16036965637980563), (-23)); (36905187630578749, (-23)); (99999999999993194, (-17)); (19900436520065822, (-28)); (16036965637906026, (-23)); ((-20492496588531139), (-28)); (99999999999998723, (-17)); (99999999999990008, (-17)); ((-43983466844556223), (-23)); ((-79807497111058219), (-24)); (43983467108419364, (-23)); (99999999999990274, (-17)); (3306243431749166, (-23)); (79807482569045597, (-24)); ((-33062469440876846), (-24)); (99999999999999634, (-17))];
  [(24515457063763277, (-10)); (28239579102071166, (-17)); (99999999999999423, (-17)); ((-7078279744199198), (-23)); (80562171469761338, (-24)); (70782794778573375, (-24)); (99999999999999689, (-17)); (33060414542221364, (-24)); ((-80562173809869717), (-24)); ((-33060408839805517), (-24)); (99999999999999623, (-17)); (99999999999978229, (-17)); ((-60532044453592864), (-23)); ((-26303898555605794), (-23)); (60532044453680003, (-23)); (99999999999981681, (-17)); (32331117019523966, (-28)); (26303898555405275, (-23)); ((-33922309405909346), (-28)); (99999999999996536, (-17)); (99999999999975486, (-17)); ((-67610323328172692), (-23)); ((-18247683409845798), (-23)); (67610323931509644, (-23)); (99999999999977085, (-17)); (3306369641984671, (-23)); (18247681174394417, (-23)); ((-330638196893802), (-22)); (99999999999998279, (-17))];
  [(24515455421718657, (-10)); (92816213556895255, (-17)); (99999999999999423, (-17)); ((-7078279744199198), (-23)); (80562171469761338, (-24)); (70782794778573375, (-24)); (99999999999999689, (-17)); (33060414542221364, (-24)); ((-80562173809869717), (-24)); ((-33060408839805517), (-24)); (99999999999999623, (-17)); (99999999999951839, (-17)); ((-90012978521220421), (-23)); ((-39114691416502413), (-23)); (900129785214131, (-21)); (99999999999959488, (-17)); (4749951077930447, (-27)); (39114691416059012, (-23)); ((-51020854208161381), (-28)); (99999999999992351, (-17)); (99999999999948042, (-17)); ((-97091256972268243), (-23)); ((-31058477245396394), (-23)); (97091257999228776, (-23)); (99999999999952804, (-17)); (33065237009696004, (-24)); (31058474035036317, (-23)); ((-330655386116966), (-22)); (99999999999995126, (-17))];
  [(24515450757091353, (-10)); (9113440175786347, (-16)); (99999999999999423, (-17)); ((-7078279744199198), (-23)); (80562171469761338, (-24)); (70782794778573375, (-24)); (99999999999999689, (-17)); (33060414542221364, (-24)); ((-80562173809869717), (-24)); ((-33060408839805517), (-24)); (99999999999999623, (-17)); (99999999999978306, (-17)); ((-60426810380548164), (-23)); ((-26258169613714398), (-23)); (60426810380634995, (-23)); (99999999999981748, (-17)); (32274482989752785, (-28)); (26258169613514577, (-23)); ((-33861247139554962), (-28)); (99999999999996547, (-17)); (99999999999975575, (-17)); ((-67505089256639807), (-23)); ((-18201954464475314), (-23)); (67505089858464689, (-23)); (99999999999977163, (-17)); (33063690671664898, (-24)); (18201952232503764, (-23)); ((-33063813550785345), (-24)); (9999999999999829, (-16))];
  [(24515452646305747, (-10)); (78666750103433025, (-17)); (99999999999999423, (-17)); ((-7078279744199198), (-23)); (80562171469761338, (-24)); (70782794778573375, (-24)); (99999999999999689, (-17)); (33060414542221364, (-24)); ((-80562173809869717), (-24)); ((-33060408839805517), (-24)); (99999999999999623, (-17)); (99999999999975386, (-17)); ((-6435984660828176), (-22)); ((-27967250900339423), (-23)); (64359846608380259, (-23)); (99999999999979294, (-17)); (34320001758341018, (-28)); (27967250900112741, (-23)); ((-36119995883154843), (-28)); (99999999999996081, (-17)); (99999999999972511, (-17)); ((-71438125427870271), (-23)); ((-19911035881128375), (-23)); (71438126086208111, (-23)); (99999999999974432, (-17)); (33063898392080339, (-24)); (19911033519100364, (-23)); ((-33064040635395092), (-24)); (99999999999997957, (-17))];
  [(24515452186072329, (-10)); (96519594218934801, (-17)); (99999999999999423, (-17)); ((-7078279744199198), (-23)); (80562171469761338, (-24)); (70782794778573375, (-24)); (99999999999999689, (-17)); (33060414542221364, (-24)); ((-80562173809869717), (-24)); ((-33060408839805517), (-24)); (99999999999999623, (-17)); (99999999999968781, (-17)); ((-72471730523818631), (-23)); ((-31492229608403904), (-23)); (72471730523943526, (-23)); (99999999999973743, (-17)); (38518858567758796, (-28)); (31492229608116485, (-23)); ((-40801251266486815), (-28)); (99999999999995037, (-17)); (99999999999965616, (-17)); ((-79550009226869416), (-23)); ((-23436014857375624), (-23)); (79550010001767545, (-23)); (99999999999968303, (-17)); (33064324812869271, (-24)); (23436012227100854, (-23)); ((-33064511256011617), (-24)); (99999999999997202, (-17))];
  [(24515456838104054, (-10)); (13534496424490283, (-17)); (99999999999999423, (-17)); ((-7078279744199198), (-23)); (80562171469761338, (-24)); (70782794778573375, (-24)); (99999999999999689, (-17)); (33060414542221364, (-24)); ((-80562173809869717), (-24)); ((-33060408839805517), (-24)); (99999999999999623, (-17)); (99999999999985045, (-17)); ((-50148207301616908), (-23)); ((-21791653869834086), (-23)); (50148207301676709, (-23)); (99999999999987421, (-17)); (2689654288464592, (-27)); (21791653869696465, (-23)); ((-27989832673824822), (-28)); (99999999999997624, (-17)); (99999999999982669, (-17)); ((-57226486325373902), (-23)); ((-13735438380779596), (-23)); (57226486779511199, (-23)); (99999999999983558, (-17)); (33063144596990425, (-24)); (13735436488689744, (-23)); ((-3306322324781433), (-23)); (99999999999999001, (-17))];
  [(24515452360622059, (-10)); (80737488341567243, (-18)); (99999999999999423, (-17)); ((-7078279744199198), (-23)); (80562171469761338, (-24)); (70782794778573375, (-24)); (99999999999999689, (-17)); (33060414542221364, (-24)); ((-80562173809869717), (-24)); ((-33060408839805517), (-24)); (99999999999999623, (-17)); (99999999999997768, (-17)); ((-19394289850169759), (-23)); ((-84276921789395411), (-24)); (19394289850178706, (-23)); (99999999999998124, (-17)); (10532504693040063, (-28)); (84276921789189556, (-24)); ((-10695333507726446), (-28)); (99999999999999645, (-17)); (99999999999996492, (-17)); ((-26472569315745788), (-23)); ((-37147567314681714), (-25)); (26472569328027315, (-23)); (99999999999996436, (-17)); (33061483417151093, (-24)); (3714747979243937, (-24)); ((-33061484338512452), (-24)); (99999999999999944, (-17))];
  [(24515458741514515, (-10)); (65383978522902964, (-17)); (99999999999999423, (-17)); ((-7078279744199198), (-23)); (80562171469761338, (-24)); (70782794778573375, (-24)); (99999999999999689, (-17)); (33060414542221364, (-24)); ((-80562173809869717), (-24)); ((-33060408839805517), (-24)); (99999999999999623, (-17)); (99999999999947986, (-17)); ((-93542720443362653), (-23)); ((-40648523152261122), (-23)); (93542720443570748, (-23)); (99999999999956246, (-17)); (49290389567690342, (-28)); (40648523151782268, (-23)); ((-53092530372111923), (-28)); (9999999999999174, (-16)); (99999999999944067, (-17)); ((-10062099884370108), (-22)); ((-32592309097850139), (-23)); (10062099992138474, (-22)); (99999999999949318, (-17)); (3306541894121051, (-23)); (32592305770758149, (-23)); ((-33065746865001803), (-24)); (99999999999994638, (-17))];
  [(24515454677183959, (-10)); (30845045529029691, (-17)); (99999999999999423, (-17)); ((-7078279744199198), (-23)); (80562171469761338, (-24)); (70782794778573375, (-24)); (99999999999999689, (-17)); (33060414542221364, (-24)); ((-80562173809869717), (-24)); ((-33060408839805517), (-24)); (99999999999999623, (-17)); (99999999999986577, (-17)); ((-47516598042296999), (-23)); ((-20648101177583209), (-23)); (47516598042350691, (-23)); (99999999999988709, (-17)); (25512394352006584, (-28)); (20648101177459651, (-23)); ((-26493807148142423), (-28)); (99999999999997868, (-17)); (99999999999984301, (-17)); ((-5459487710386044), (-22)); ((-12591885601526511), (-23)); (54594877520186398, (-23)); (99999999999985034, (-17)); (3306300406205602, (-23)); (12591883796453979, (-23)); ((-3306307283582326), (-23)); (99999999999999156, (-17))];
  [(24515455765437344, (-10)); (19599328832185592, (-17)); (99999999999999423, (-17)); ((-7078279744199198), (-23)); (80562171469761338, (-24)); (70782794778573375, (-24)); (99999999999999689, (-17)); (33060414542221364, (-24)); ((-80562173809869717), (-24)); ((-33060408839805517), (-24)); (99999999999999623, (-17)); (99999999999986711, (-17)); ((-47294259652267475), (-23)); ((-2055148513788207), (-22)); (47294259652320669, (-23)); (9999999999998882, (-16)); (25395799975969967, (-28)); (20551485137759669, (-23)); ((-26367241723335155), (-28)); (99999999999997891, (-17)); (99999999999984435, (-17)); ((-54372538717025082), (-23)); ((-12495269554474759), (-23)); (54372539130156487, (-23)); (99999999999985156, (-17)); (33062992223497816, (-24)); (12495267756754083, (-23)); ((-33063060110893251), (-24)); (99999999999999167, (-17))];
  [(24515451921845437, (-10)); (9003550616377427, (-16)); (99999999999999423, (-17)); ((-7078279744199198), (-23)); (80562171469761338, (-24)); (70782794778573375, (-24)); (99999999999999689, (-17)); (33060414542221364, (-24)); ((-80562173809869717), (-24)); ((-33060408839805517), (-24)); (99999999999999623, (-17)); (9999999999997341, (-16)); ((-66884628687162288), (-23)); ((-29064382365075758), (-23)); (66884628687268665, (-23)); (99999999999977629, (-17)); (35630394378054815, (-28)); (29064382364830945, (-23)); ((-37574388045413798), (-28)); (99999999999995781, (-17)); (99999999999970446, (-17)); ((-73962907470479038), (-23)); ((-21008167429335207), (-23)); (7396290816509533, (-22)); (99999999999972589, (-17)); (33064031465361024, (-24)); (21008164983817546, (-23)); ((-33064186851191559), (-24)); (99999999999997746, (-17))];
  [(24515456483596452, (-10)); (88144616533783071, (-17)); (99999999999999423, (-17)); ((-7078279744199198), (-23)); (80562171469761338, (-24)); (70782794778573375, (-24)); (99999999999999689, (-17)); (33060414542221364, (-24)); ((-80562173809869717), (-24)); ((-33060408839805517), (-24)); (99999999999999623, (-17)); (99999999999947864, (-17)); ((-93653807577526522), (-23)); ((-40696795511949268), (-23)); (93653807577735104, (-23)); (99999999999956135, (-17)); (49345921393904287, (-28)); (40696795511469275, (-23)); ((-53157478419052495), (-28)); (99999999999991718, (-17)); (99999999999943934, (-17)); ((-10073208597626905), (-22)); ((-32640581461210881), (-23)); (10073208705554905, (-22)); (99999999999949196, (-17)); (33065424583887301, (-24)); (32640578130445113, (-23)); ((-33065753393975012), (-24)); (99999999999994615, (-17))];
  [(24515459231571066, (-10)); (73287178866712499, (-17)); (99999999999999423, (-17)); ((-7078279744199198), (-23)); (80562171469761338, (-24)); (70782794778573375, (-24)); (99999999999999689, (-17)); (33060414542221364, (-24)); ((-80562173809869717), (-24)); ((-33060408839805517), (-24)); (99999999999999623, (-17)); (99999999999938904, (-17)); ((-10138111033451705), (-22)); ((-4405465635009152), (-22)); (10138111033476148, (-22)); (99999999999948608, (-17)); (53247078153671637, (-28)); (44054656349529054, (-23)); ((-57713278600601825), (-28)); (99999999999990297, (-17)); (99999999999934708, (-17)); ((-10845938862224664), (-22)); ((-35998442554821681), (-23)); (10845938981257169, (-22)); (99999999999941125, (-17)); (33065820924843685, (-24)); (35998438968501758, (-23)); ((-33066211350780534), (-24)); (99999999999993472, (-17))];
  [(24515454452449773, (-10)); (74132401696535599, (-17)); (99999999999999423, (-17)); ((-7078279744199198), (-23)); (80562171469761338, (-24)); (70782794778573375, (-24)); (99999999999999689, (-17)); (33060414542221364, (-24)); ((-80562173809869717), (-24)); ((-33060408839805517), (-24)); (99999999999999623, (-17)); (99999999999968636, (-17)); ((-72641052336926835), (-23)); ((-31565807557878049), (-23)); (72641052337052323, (-23)); (9999999999997361, (-16)); (38606035504072713, (-28)); (31565807557589279, (-23)); ((-40898950892653829), (-28)); (99999999999995015, (-17)); (99999999999965461, (-17)); ((-7971933103754509), (-22)); ((-23509592812447624), (-23)); (79719331814876268, (-23)); (99999999999968159, (-17)); (33064333666972193, (-24)); (23509590176573582, (-23)); ((-33064521078054756), (-24)); (9999999999999718, (-16))];
  [(24515458964052219, (-10)); (71502895907549258, (-17)); (99999999999999423, (-17)); ((-7078279744199198), (-23)); (80562171469761338, (-24)); (70782794778573375, (-24)); (99999999999999689, (-17)); (33060414542221364, (-24)); ((-80562173809869717), (-24)); ((-33060408839805517), (-24)); (99999999999999623, (-17)); (99999999999942146, (-17)); ((-98651048240957591), (-23)); ((-42868321497247568), (-23)); (98651048241189022, (-23)); (99999999999951339, (-17)); (51871523993065063, (-28)); (42868321496714985, (-23)); ((-56101234768846098), (-28)); (99999999999990807, (-17)); (99999999999938038, (-17)); ((-10572932656790816), (-22)); ((-3481210761172048), (-22)); (10572932771900057, (-22)); (99999999999944045, (-17)); (33065681170031224, (-24)); (34812104115688796, (-23)); ((-33066049306676536), (-24)); (99999999999993883, (-17))];
  [(24515452791528767, (-10)); (87267842923921202, (-17)); (99999999999999423, (-17)); ((-7078279744199198), (-23)); (80562171469761338, (-24)); (70782794778573375, (-24)); (99999999999999689, (-17)); (33060414542221364, (-24)); ((-80562173809869717), (-24)); ((-33060408839805517), (-24)); (99999999999999623, (-17)); (99999999999970446, (-17)); ((-70514431576768794), (-23)); ((-30641695111644148), (-23)); (70514431576887029, (-23)); (99999999999975131, (-17)); (37509387587696152, (-28)); (30641695111372033, (-23)); ((-39669378892881468), (-28)); (99999999999995304, (-17)); (99999999999967337, (-17)); ((-77592710307938712), (-23)); ((-22585480295906616), (-23)); (7759271105471199, (-22)); (99999999999969824, (-17)); (33064222288929194, (-24)); (22585477730357186, (-23)); ((-33064397466742234), (-24)); (99999999999997391, (-17))];
  [(2451545067416416, (-9)); (38512132653636355, (-17)); (99999999999999423, (-17)); ((-7078279744199198), (-23)); (80562171469761338, (-24)); (70782794778573375, (-24)); (99999999999999689, (-17)); (33060414542221364, (-24)); ((-80562173809869717), (-24)); ((-33060408839805517), (-24)); (99999999999999623, (-17)); (99999999999995437, (-17)); ((-27704092894172544), (-23)); ((-12038675732142857), (-23)); (27704092894190802, (-23)); (99999999999996159, (-17)); (14993769927219059, (-28)); (12038675732100857, (-23)); ((-15327739077974911), (-28)); (99999999999999267, (-17)); (9999999999999386, (-16)); ((-34782372240367796), (-23)); ((-39824595010758418), (-24)); (34782372372035626, (-23)); (99999999999993883, (-17)); (33061936238231637, (-24)); (3982458351103026, (-23)); ((-33061950135024529), (-24)); (99999999999999856, (-17))];
  [(24515457850688826, (-10)); (73587182840140164, (-17)); (99999999999999423, (-17)); ((-7078279744199198), (-23)); (80562171469761338, (-24)); (70782794778573375, (-24)); (99999999999999689, (-17)); (33060414542221364, (-24)); ((-80562173809869717), (-24)); ((-33060408839805517), (-24)); (99999999999999623, (-17)); (99999999999948463, (-17)); ((-93111091420847022), (-23)); ((-40460960914868385), (-23)); (93111091421053201, (-23)); (99999999999956657, (-17)); (49070485309071631, (-28)); (40460960914393941, (-23)); ((-52838289299472763), (-28)); (99999999999991807, (-17)); (99999999999944555, (-17)); ((-10018936982738639), (-22)); ((-32404746846187533), (-23)); (10018937089886739, (-22)); (99999999999949751, (-17)); (33065396603055072, (-24)); (32404743533369996, (-23)); ((-33065721308132766), (-24)); (99999999999994693, (-17))];
  [(24515459089653846, (-10)); (10672069796265016, (-17)); (99999999999999423, (-17)); ((-7078279744199198), (-23)); (80562171469761338, (-24)); (70782794778573375, (-24)); (99999999999999689, (-17)); (33060414542221364, (-24)); ((-80562173809869717), (-24)); ((-33060408839805517), (-24)); (99999999999999623, (-17)); (99999999999977018, (-17)); ((-62179701421113555), (-23)); ((-27019879677635064), (-23)); (62179701421205501, (-23)); (9999999999998066, (-16)); (33188410214254232, (-28)); (27019879677423475, (-23)); ((-34868219422889979), (-28)); (99999999999996347, (-17)); (99999999999974221, (-17)); ((-69257980272022666), (-23)); ((-18963664586347386), (-23)); (69257980899034379, (-23)); (99999999999975953, (-17)); (33063783476554075, (-24)); (18963662296411963, (-23)); ((-33063914787173304), (-24)); (99999999999998146, (-17))];
  [(24515457150359196, (-10)); (26597078048052747, (-17)); (99999999999999423, (-17)); ((-7078279744199198), (-23)); (80562171469761338, (-24)); (70782794778573375, (-24)); (99999999999999689, (-17)); (33060414542221364, (-24)); ((-80562173809869717), (-24)); ((-33060408839805517), (-24)); (99999999999999623, (-17)); (9999999999997855, (-16)); ((-60056650112097467), (-23)); ((-26097318314143845), (-23)); (6005665011218324, (-22)); (99999999999981959, (-17)); (32081814954230124, (-28)); (26097318313946466, (-23)); ((-33649194541851557), (-28)); (99999999999996592, (-17)); (99999999999975819, (-17)); ((-67134928993506942), (-23)); ((-18041103152667089), (-23)); (67134929590013103, (-23)); (99999999999977396, (-17)); (33063671106652263, (-24)); (18041100932935803, (-23)); ((-33063792231670536), (-24)); (99999999999998312, (-17))];
  [(24515456880285069, (-10)); (90913092924224814, (-17)); (99999999999999423, (-17)); ((-7078279744199198), (-23)); (80562171469761338, (-24)); (70782794778573375, (-24)); (99999999999999689, (-17)); (33060414542221364, (-24)); ((-80562173809869717), (-24)); ((-33060408839805517), (-24)); (99999999999999623, (-17)); (99999999999943179, (-17)); ((-97777156789183937), (-23)); ((-42488576329491519), (-23)); (97777156789411281, (-23)); (99999999999952205, (-17)); (51430039675709076, (-28)); (42488576328968333, (-23)); ((-555849810623954), (-26)); (99999999999990963, (-17)); (99999999999939104, (-17)); ((-1048554351286891), (-21)); ((-34432362415073138), (-23)); (10485543626722323, (-22)); (99999999999944977, (-17)); (33065636317573844, (-24)); (34432358947942504, (-23)); ((-33065997412511691), (-24)); (99999999999994005, (-17))];
  [(24515457211821955, (-10)); (99467777989188078, (-17)); (99999999999999423, (-17)); ((-7078279744199198), (-23)); (80562171469761338, (-24)); (70782794778573375, (-24)); (99999999999999689, (-17)); (33060414542221364, (-24)); ((-80562173809869717), (-24)); ((-33060408839805517), (-24)); (99999999999999623, (-17)); (99999999999934408, (-17)); ((-1050439337514754), (-21)); ((-45646317976834495), (-23)); (10504393375173779, (-22)); (99999999999944811, (-17)); (55087469434528422, (-28)); (45646317976230651, (-23)); ((-59882099279207068), (-28)); (99999999999989575, (-17)); (99999999999930067, (-17)); ((-11212221198658371), (-22)); ((-37590104302659466), (-23)); (11212221322954622, (-22)); (99999999999937061, (-17)); (33066007914820602, (-24)); (37590100595201867, (-23)); ((-33066429359470785), (-24)); (99999999999992872, (-17))];
  [(24515453140418483, (-10)); (54057570327057292, (-17)); (99999999999999423, (-17)); ((-7078279744199198), (-23)); (80562171469761338, (-24)); (70782794778573375, (-24)); (99999999999999689, (-17)); (33060414542221364, (-24)); ((-80562173809869717), (-24)); ((-33060408839805517), (-24)); (99999999999999623, (-17)); (99999999999983735, (-17)); ((-52319181120578334), (-23)); ((-22735039725442225), (-23)); (52319181120643418, (-23)); (99999999999986322, (-17)); (28037518212668162, (-28)); (22735039725292427, (-23)); ((-29227176234769559), (-28)); (99999999999997413, (-17)); (99999999999981282, (-17)); ((-59397460113146516), (-23)); ((-14678824308161135), (-23)); (59397460598476892, (-23)); (99999999999982303, (-17)); (33063260443506517, (-24)); (14678822344284843, (-23)); ((-33063347649925255), (-24)); (99999999999998868, (-17))];
  [(24515450189083274, (-10)); (97518304827067437, (-17)); (99999999999999423, (-17)); ((-7078279744199198), (-23)); (80562171469761338, (-24)); (70782794778573375, (-24)); (99999999999999689, (-17)); (33060414542221364, (-24)); ((-80562173809869717), (-24)); ((-33060408839805517), (-24)); (99999999999999623, (-17)); (99999999999977984, (-17)); ((-60857686226297357), (-23)); ((-2644540456472521), (-22)); (60857686226385427, (-23)); (99999999999981481, (-17)); (32499355109137439, (-28)); (26445404564522525, (-23)); ((-34109381985558684), (-28)); (99999999999996503, (-17)); (99999999999975231, (-17)); ((-67935965096198915), (-23)); ((-18389189429731084), (-23)); (6793596570421492, (-22)); (99999999999976863, (-17)); (33063713505999684, (-24)); (18389187183511535, (-23)); ((-33063838496800062), (-24)); (99999999999998257, (-17))];
  [(24515459382814951, (-10)); (90254792746627432, (-17)); (99999999999999423, (-17)); ((-7078279744199198), (-23)); (80562171469761338, (-24)); (70782794778573375, (-24)); (99999999999999689, (-17)); (33060414542221364, (-24)); ((-80562173809869717), (-24)); ((-33060408839805517), (-24)); (99999999999999623, (-17)); (99999999999924505, (-17)); ((-11269448958031936), (-22)); ((-48970828803066539), (-23)); (11269448958062137, (-22)); (99999999999936495, (-17)); (58912733723229924, (-28)); (48970828802371527, (-23)); ((-6443179323412096), (-27)); (9999999999998801, (-16)); (99999999999919897, (-17)); ((-11977276770551722), (-22)); ((-40914615381822848), (-23)); (11977276905842609, (-22)); (99999999999928213, (-17)); (3306639660470062, (-23)); (40914611421339631, (-23)); ((-33066886682047523), (-24)); (99999999999991573, (-17))];
  [(24515450171345719, (-10)); (69479237414676431, (-18)); (99999999999999423, (-17)); ((-7078279744199198), (-23)); (80562171469761338, (-24)); (70782794778573375, (-24)); (99999999999999689, (-17)); (33060414542221364, (-24)); ((-80562173809869717), (-24)); ((-33060408839805517), (-24)); (99999999999999623, (-17)); (99999999999999833, (-17)); ((-5302446153417713), (-23)); ((-23041516068320645), (-24)); (5302446153418382, (-23)); (99999999999999867, (-17)); (28954896021011453, (-29)); (23041516068305263, (-24)); ((-2907674101493285), (-28)); (99999999999999978, (-17)); (99999999999999067, (-17)); ((-12380725821440691), (-23)); (57520653648429967, (-24)); (12380725631273348, (-23)); (99999999999999178, (-17)); (33060708362947292, (-24)); ((-57520657741585156), (-24)); ((-33060701238158627), (-24)); (99999999999999789, (-17))];
  [(24515454572136775, (-10)); (56063319508965126, (-17)); (99999999999999423, (-17)); ((-7078279744199198), (-23)); (80562171469761338, (-24)); (70782794778573375, (-24)); (99999999999999689, (-17)); (33060414542221364, (-24)); ((-80562173809869717), (-24)); ((-33060408839805517), (-24)); (99999999999999623, (-17)); (99999999999976918, (-17)); ((-62311983708725326), (-23)); ((-27077362286295112), (-23)); (62311983708817674, (-23)); (99999999999980593, (-17)); (33256705303247977, (-28)); (27077362286082629, (-23)); ((-3494371458856449), (-27)); (99999999999996336, (-17)); (9999999999997411, (-16)); ((-69390262557734034), (-23)); ((-1902114719938075), (-22)); (69390263186646489, (-23)); (99999999999975875, (-17)); (33063790412632428, (-24)); (19021144905071061, (-23)); ((-33063922377377662), (-24)); (99999999999998135, (-17))];
  [(24515452385823387, (-10)); (97357680995152374, (-17)); (99999999999999423, (-17)); ((-7078279744199198), (-23)); (80562171469761338, (-24)); (70782794778573375, (-24)); (99999999999999689, (-17)); (33060414542221364, (-24)); ((-80562173809869717), (-24)); ((-33060408839805517), (-24)); (99999999999999623, (-17)); (9999999999996726, (-16)); ((-74207666476832496), (-23)); ((-32246571919358349), (-23)); (74207666476963458, (-23)); (99999999999972455, (-17)); (39413396369818679, (-28)); (3224657191905699, (-22)); ((-41806558215284895), (-28)); (99999999999994804, (-17)); (99999999999964029, (-17)); ((-81285945154944291), (-23)); ((-2419035722572095), (-22)); (81285945954786672, (-23)); (99999999999966893, (-17)); (3306441566515675, (-23)); (24190354538040658, (-23)); ((-33064612320651006), (-24)); (99999999999997025, (-17))];
  [(24515456985343094, (-10)); (51685949447261159, (-17)); (99999999999999423, (-17)); ((-7078279744199198), (-23)); (80562171469761338, (-24)); (70782794778573375, (-24)); (99999999999999689, (-17)); (33060414542221364, (-24)); ((-80562173809869717), (-24)); ((-33060408839805517), (-24)); (99999999999999623, (-17)); (99999999999967082, (-17)); ((-74405690160812586), (-23)); ((-32332622123613455), (-23)); (74405690160944236, (-23)); (99999999999972311, (-17)); (39515011035597141, (-28)); (32332622123310487, (-23)); ((-41920911186821286), (-28)); (99999999999994771, (-17)); (99999999999963851, (-17)); ((-81483968836079516), (-23)); ((-24276407436522816), (-23)); (81483969638767345, (-23)); (99999999999966738, (-17)); (33064425986155459, (-24)); (24276404742294076, (-23)); ((-33064623816856896), (-24)); (99999999999997002, (-17))];
  [(24515453508693352, (-10)); (93034312931157159, (-17)); (99999999999999423, (-17)); ((-7078279744199198), (-23)); (80562171469761338, (-24)); (70782794778573375, (-24)); (99999999999999689, (-17)); (33060414542221364, (-24)); ((-80562173809869717), (-24)); ((-33060408839805517), (-24)); (99999999999999623, (-17)); (99999999999963429, (-17)); ((-78435069699676533), (-23)); ((-34083568904491536), (-23)); (78435069699822837, (-23)); (99999999999969236, (-17)); (41586744384989388, (-28)); (34083568904154867, (-23)); ((-44260151099706491), (-28)); (99999999999994194, (-17)); (99999999999960043, (-17)); ((-85513348317056183), (-23)); ((-26027354350614139), (-23)); (85513349177644039, (-23)); (99999999999963374, (-17)); (33064636405645033, (-24)); (26027351523136835, (-23)); ((-33064858980217105), (-24)); (99999999999996558, (-17))];
  [(24515452324867295, (-10)); (32527531233906526, (-17)); (99999999999999423, (-17)); ((-7078279744199198), (-23)); (80562171469761338, (-24)); (70782794778573375, (-24)); (99999999999999689, (-17)); (33060414542221364, (-24)); ((-80562173809869717), (-24)); ((-33060408839805517), (-24)); (99999999999999623, (-17)); (99999999999993061, (-17)); ((-34145862280078603), (-23)); ((-14837914547277941), (-23)); (34145862280106327, (-23)); (99999999999994171, (-17)); (18432526759518754, (-28)); (14837914547214136, (-23)); ((-18939294577080545), (-28)); (99999999999998901, (-17)); (99999999999991263, (-17)); ((-41224141533729682), (-23)); ((-6781698529178672), (-23)); (41224141757948208, (-23)); (9999999999999144, (-16)); (33062285303543511, (-24)); (67816971662137611, (-24)); ((-33062313271953856), (-24)); (99999999999999722, (-17))];
  [(24515455989865623, (-10)); (28877989429590056, (-17)); (99999999999999423, (-17)); ((-7078279744199198), (-23)); (80562171469761338, (-24)); (70782794778573375, (-24)); (99999999999999689, (-17)); (33060414542221364, (-24)); ((-80562173809869717), (-24)); ((-33060408839805517), (-24)); (99999999999999623, (-17)); (99999999999982436, (-17)); ((-54348537501121616), (-23)); ((-23616886427975932), (-23)); (54348537501191866, (-23)); (99999999999985234, (-17)); (29100216864736097, (-28)); (23616886427814289, (-23)); ((-30384028626428972), (-28)); (99999999999997202, (-17)); (99999999999979905, (-17)); ((-61426816464535484), (-23)); ((-15560671077786302), (-23)); (61426816979024398, (-23)); (99999999999981071, (-17)); (3306336834826493, (-23)); (15560669046805898, (-23)); ((-33063463959360112), (-24)); (99999999999998723, (-17))];
  [(24515451670095744, (-10)); (16871121801818001, (-17)); (99999999999999423, (-17)); ((-7078279744199198), (-23)); (80562171469761338, (-24)); (70782794778573375, (-24)); (99999999999999689, (-17)); (33060414542221364, (-24)); ((-80562173809869717), (-24)); ((-33060408839805517), (-24)); (99999999999999623, (-17)); (99999999999997491, (-17)); ((-20552628289361785), (-23)); ((-89310423832362399), (-24)); (20552628289371833, (-23)); (99999999999997891, (-17)); (11155940926597108, (-28)); (89310423832131225, (-24)); ((-11339817973521349), (-28)); (999999999999996, (-15)); (99999999999996181, (-17)); ((-27630907738296832), (-23)); ((-87482591573868675), (-25)); (2763090776721991, (-22)); (99999999999996125, (-17)); (3306154669395697, (-23)); (87482500221810403, (-25)); ((-33061549143244376), (-24)); (99999999999999944, (-17))];
  [(24515454035775508, (-10)); (63575768920025588, (-19)); (99999999999999423, (-17)); ((-7078279744199198), (-23)); (80562171469761338, (-24)); (70782794778573375, (-24)); (99999999999999689, (-17)); (33060414542221364, (-24)); ((-80562173809869717), (-24)); ((-33060408839805517), (-24)); (99999999999999623, (-17)); (99999999999996259, (-17)); ((-25095986004522975), (-23)); ((-10905335865810658), (-23)); (25095986004537951, (-23)); (99999999999996858, (-17)); (13596972448198848, (-28)); (10905335865776192, (-23)); ((-13870571358154393), (-28)); (99999999999999412, (-17)); (99999999999994782, (-17)); ((-32174265388186968), (-23)); ((-28491195485184859), (-24)); (32174265482383972, (-23)); (99999999999994771, (-17)); (33061794457336424, (-24)); (28491184847793867, (-24)); ((-33061803616042935), (-24)); (99999999999999911, (-17))];
  [(24515458026972944, (-10)); (82875982996616315, (-17)); (99999999999999423, (-17)); ((-7078279744199198), (-23)); (80562171469761338, (-24)); (70782794778573375, (-24)); (99999999999999689, (-17)); (33060414542221364, (-24)); ((-80562173809869717), (-24)); ((-33060408839805517), (-24)); (99999999999999623, (-17)); (99999999999940714, (-17)); ((-99876841018680427), (-23)); ((-43400983629186658), (-23)); (99876841018917638, (-23)); (99999999999950129, (-17)); (52489605054143719, (-28)); (43400983628640767, (-23)); ((-56823989957877075), (-28)); (99999999999990585, (-17)); (99999999999936562, (-17)); ((-10695511932802084), (-22)); ((-35344769784184904), (-23)); (10695512049672859, (-22)); (99999999999942746, (-17)); (33065743965662208, (-24)); (3534476624761408, (-22)); ((-33066121959228525), (-24)); (99999999999993705, (-17))];
  [(24515457701958576, (-10)); (98195024212130977, (-17)); (99999999999999423, (-17)); ((-7078279744199198), (-23)); (80562171469761338, (-24)); (70782794778573375, (-24)); (99999999999999689, (-17)); (33060414542221364, (-24)); ((-80562173809869717), (-24)); ((-33060408839805517), (-24)); (99999999999999623, (-17)); (9999999999993161, (-16)); ((-10726534887608727), (-22)); ((-46611622826023538), (-23)); (10726534887636091, (-22)); (99999999999942479, (-17)); (56200936918062767, (-28)); (46611622825393881, (-23)); ((-61201044232461754), (-28)); (99999999999989131, (-17)); (99999999999927192, (-17)); ((-11434362707928199), (-22)); ((-38555409225289638), (-23)); (11434362835416828, (-22)); (99999999999934575, (-17)); (33066121051188446, (-24)); (38555405444364192, (-23)); ((-33066561937235739), (-24)); (99999999999992506, (-17))];
  [(24515454379038732, (-10)); (57093413437189955, (-17)); (99999999999999423, (-17)); ((-7078279744199198), (-23)); (80562171469761338, (-24)); (70782794778573375, (-24)); (99999999999999689, (-17)); (33060414542221364, (-24)); ((-80562173809869717), (-24)); ((-33060408839805517), (-24)); (99999999999999623, (-17)); (99999999999977329, (-17)); ((-61760466313897174), (-23)); ((-26837703151640412), (-23)); (61760466313987891, (-23)); (99999999999980926, (-17)); (32970199729795257, (-28)); (26837703151431666, (-23)); ((-3462730102654632), (-27)); (99999999999996392, (-17)); (99999999999974543, (-17)); ((-68838745170829144), (-23)); ((-18781488046492623), (-23)); (6883874579181695, (-22)); (99999999999976241, (-17)); (33063761317760808, (-24)); (18781485770420321, (-23)); ((-33063890566384041), (-24)); (99999999999998179, (-17))];
  [(24515452450575302, (-10)); (86625701816559597, (-17)); (99999999999999423, (-17)); ((-7078279744199198), (-23)); (80562171469761338, (-24)); (70782794778573375, (-24)); (99999999999999689, (-17)); (33060414542221364, (-24)); ((-80562173809869717), (-24)); ((-33060408839805517), (-24)); (99999999999999623, (-17)); (99999999999972489, (-17)); ((-68034019611446992), (-23)); ((-29563844460357163), (-23)); (68034019611557075, (-23)); (99999999999976852, (-17)); (362256280981995, (-26)); (29563844460103868, (-23)); ((-38237191191115016), (-28)); (99999999999995637, (-17)); (9999999999996948, (-16)); ((-75112298378251237), (-23)); ((-21507629562616026), (-23)); (75112299089383201, (-23)); (99999999999971723, (-17)); (33064091914707071, (-24)); (21507627079090011, (-23)); ((-33064253485039324), (-24)); (99999999999997646, (-17))];
  [(2451545547328006, (-9)); (7136365054807603, (-17)); (99999999999999423, (-17)); ((-7078279744199198), (-23)); (80562171469761338, (-24)); (70782794778573375, (-24)); (99999999999999689, (-17)); (33060414542221364, (-24)); ((-80562173809869717), (-24)); ((-33060408839805517), (-24)); (99999999999999623, (-17)); (99999999999991473, (-17)); ((-37875937271231022), (-23)); ((-16458800060029963), (-23)); (37875937271265131, (-23)); (99999999999992828, (-17)); (20415652178450236, (-28)); (16458800059951456, (-23)); ((-21039281428159029), (-28)); (99999999999998646, (-17)); (99999999999989542, (-17)); ((-44954216471294843), (-23)); ((-84025841652486426), (-24)); (44954216749105296, (-23)); (99999999999989841, (-17)); (33062486621114369, (-24)); (84025826789496055, (-24)); ((-33062524417946991), (-24)); (99999999999999589, (-17))];
  [(2451545625915884, (-9)); (31642905503303542, (-17)); (99999999999999423, (-17)); ((-7078279744199198), (-23)); (80562171469761338, (-24)); (70782794778573375, (-24)); (99999999999999689, (-17)); (33060414542221364, (-24)); ((-80562173809869717), (-24)); ((-33060408839805517), (-24)); (99999999999999623, (-17)); (99999999999980216, (-17)); ((-57689799947367097), (-23)); ((-25068815372108952), (-23)); (57689799947446231, (-23)); (99999999999983369, (-17)); (30848080094317469, (-28)); (25068815371926819, (-23)); ((-32293612228784241), (-28)); (99999999999996858, (-17)); (99999999999977573, (-17)); ((-64768078862779428), (-23)); ((-17012600132383017), (-23)); (64768079425277216, (-23)); (99999999999978972, (-17)); (33063545826380856, (-24)); (17012597990917099, (-23)); ((-33063655945436163), (-24)); (99999999999998501, (-17))];
  [(24515453501313538, (-10)); (37894864758320679, (-17)); (99999999999999423, (-17)); ((-7078279744199198), (-23)); (80562171469761338, (-24)); (70782794778573375, (-24)); (99999999999999689, (-17)); (33060414542221364, (-24)); ((-80562173809869717), (-24)); ((-33060408839805517), (-24)); (99999999999999623, (-17)); (99999999999988154, (-17)); ((-4463384649160241), (-22)); ((-19395415852280963), (-23)); (44633846491649785, (-23)); (9999999999999003, (-16)); (23992790028829988, (-28)); (19395415852171942, (-23)); ((-2485900374438188), (-27)); (99999999999998124, (-17)); (99999999999985978, (-17)); ((-51712125594580261), (-23)); ((-11339200180919177), (-23)); (51712125969486827, (-23)); (99999999999986555, (-17)); (330628497792169, (-22)); (11339198471167413, (-23)); ((-33062908468797247), (-24)); (99999999999999312, (-17))];
  [(24515453711343785, (-10)); (40462294929515841, (-17)); (99999999999999423, (-17)); ((-7078279744199198), (-23)); (80562171469761338, (-24)); (70782794778573375, (-24)); (99999999999999689, (-17)); (33060414542221364, (-24)); ((-80562173809869717), (-24)); ((-33060408839805517), (-24)); (99999999999999623, (-17)); (999999999999866, (-15)); ((-47491404823961908), (-23)); ((-20637153590068393), (-23)); (47491404824015547, (-23)); (9999999999998872, (-16)); (25499624407478071, (-28)); (20637153589944967, (-23)); ((-26479374248822296), (-28)); (99999999999997868, (-17)); (99999999999984324, (-17)); ((-54569683885887276), (-23)); ((-12580938013178794), (-23)); (54569684301851276, (-23)); (99999999999985045, (-17)); (33063002764765366, (-24)); (12580936208939305, (-23)); ((-3306307138478432), (-23)); (99999999999999156, (-17))];
  [(24515451146768709, (-10)); (20249311600444631, (-18)); (99999999999999423, (-17)); ((-7078279744199198), (-23)); (80562171469761338, (-24)); (70782794778573375, (-24)); (99999999999999689, (-17)); (33060414542221364, (-24)); ((-80562173809869717), (-24)); ((-33060408839805517), (-24)); (99999999999999623, (-17)); (99999999999999589, (-17)); ((-82601010517564166), (-24)); ((-35893858319994818), (-24)); (82601010517580405, (-24)); (99999999999999656, (-17)); (45059079814259255, (-29)); (35893858319957482, (-24)); ((-4535816167106077), (-28)); (99999999999999933, (-17)); (99999999999998712, (-17)); ((-15338380677288999), (-23)); (44668310418942674, (-24)); (15338380529611676, (-23)); (99999999999998757, (-17)); (33060871787536164, (-24)); ((-44668315489944494), (-24)); ((-3306086496208991), (-23)); (99999999999999845, (-17))];
  [(24515455112812943, (-10)); (69586480949724305, (-18)); (99999999999999423, (-17)); ((-7078279744199198), (-23)); (80562171469761338, (-24)); (70782794778573375, (-24)); (99999999999999689, (-17)); (33060414542221364, (-24)); ((-80562173809869717), (-24)); ((-33060408839805517), (-24)); (99999999999999623, (-17)); (99999999999992484, (-17)); ((-35560381617324207), (-23)); ((-15452586881724763), (-23)); (35560381617354276, (-23)); (99999999999993672, (-17)); (19185356002256199, (-28)); (15452586881655563, (-23)); ((-19735324485736783), (-28)); (99999999999998801, (-17)); (9999999999999063, (-16)); ((-42638660850653923), (-23)); ((-73963709103901352), (-24)); (426386610951955, (-21)); (99999999999990841, (-17)); (33062361726035112, (-24)); (73963695006546299, (-24)); ((-33062393310026967), (-24)); (99999999999999667, (-17))];
  [(24515459897906254, (-10)); (56136969776987322, (-17)); (99999999999999423, (-17)); ((-7078279744199198), (-23)); (80562171469761338, (-24)); (70782794778573375, (-24)); (99999999999999689, (-17)); (33060414542221364, (-24)); ((-80562173809869717), (-24)); ((-33060408839805517), (-24)); (99999999999999623, (-17)); (99999999999946398, (-17)); ((-94961118239641427), (-23)); ((-412648808348816), (-21)); (94961118239855874, (-23)); (99999999999954914, (-17)); (50007859470260161, (-28)); (41264880834388119, (-23)); ((-53926307863605416), (-28)); (99999999999991485, (-17)); (99999999999942424, (-17)); ((-10203939661960271), (-22)); ((-33208666827363568), (-23)); (10203939771766918, (-22)); (99999999999947886, (-17)); (33065491830892397, (-24)); (33208663453363422, (-23)); ((-33065830679026078), (-24)); (99999999999994427, (-17))];
  [(24515457404160756, (-10)); (52835927305701202, (-17)); (99999999999999423, (-17)); ((-7078279744199198), (-23)); (80562171469761338, (-24)); (70782794778573375, (-24)); (99999999999999689, (-17)); (33060414542221364, (-24)); ((-80562173809869717), (-24)); ((-33060408839805517), (-24)); (99999999999999623, (-17)); (99999999999964129, (-17)); ((-77673676807155224), (-23)); ((-33752709420970463), (-23)); (77673676807298701, (-23)); (99999999999969824, (-17)); (41195272595150129, (-28)); (337527094206403, (-21)); ((-43817172112881053), (-28)); (99999999999994305, (-17)); (99999999999960776, (-17)); ((-84751955435473267), (-23)); ((-25696494841921047), (-23)); (84751956285120274, (-23)); (99999999999964018, (-17)); (33064596645071595, (-24)); (25696492039622576, (-23)); ((-33064814448126863), (-24)); (99999999999996647, (-17))];
  [(24515458292312943, (-10)); (53419647814936166, (-17)); (99999999999999423, (-17)); ((-7078279744199198), (-23)); (80562171469761338, (-24)); (70782794778573375, (-24)); (99999999999999689, (-17)); (33060414542221364, (-24)); ((-80562173809869717), (-24)); ((-33060408839805517), (-24)); (99999999999999623, (-17)); (99999999999958589, (-17)); ((-83468242307724994), (-23)); ((-36270708952294498), (-23)); (83468242307890674, (-23)); (99999999999965172, (-17)); (44164382206028645, (-28)); (36270708951913233, (-23)); ((-47191694996229216), (-28)); (99999999999993427, (-17)); (99999999999955025, (-17)); ((-90546520852796522), (-23)); ((-28214494564816253), (-23)); (90546521785709483, (-23)); (99999999999958955, (-17)); (3306489822425894, (-23)); (28214491570893174, (-23)); ((-33065153682725415), (-24)); (9999999999999597, (-16))];
  [(24515454207842657, (-10)); (8335394419790938, (-16)); (99999999999999423, (-17)); ((-7078279744199198), (-23)); (80562171469761338, (-24)); (70782794778573375, (-24)); (99999999999999689, (-17)); (33060414542221364, (-24)); ((-80562173809869717), (-24)); ((-33060408839805517), (-24)); (99999999999999623, (-17)); (9999999999996495, (-16)); ((-76788955884381974), (-23)); ((-33368258356933294), (-23)); (767889558845222, (-21)); (99999999999970512, (-17)); (40741055510945055, (-28)); (33368258356610606, (-23)); ((-43303693963991918), (-28)); (99999999999994427, (-17)); (9999999999996162, (-16)); ((-8386723452541018), (-22)); ((-2531204374863457), (-22)); (83867235362344186, (-23)); (99999999999964762, (-17)); (33064550510613021, (-24)); (25312040975593242, (-23)); ((-33064762828186797), (-24)); (99999999999996736, (-17))];
  [(24515450507803252, (-10)); (95655308772482106, (-17)); (99999999999999423, (-17)); ((-7078279744199198), (-23)); (80562171469761338, (-24)); (70782794778573375, (-24)); (99999999999999689, (-17)); (33060414542221364, (-24)); ((-80562173809869717), (-24)); ((-33060408839805517), (-24)); (99999999999999623, (-17)); (99999999999977396, (-17)); ((-61668355920916783), (-23)); ((-2679767703952741), (-22)); (61668355921007236, (-23)); (99999999999980993, (-17)); (3292189372477646, (-27)); (26797677039319288, (-23)); ((-34574010321364312), (-28)); (99999999999996414, (-17)); (99999999999974609, (-17)); ((-6874663477917203), (-22)); ((-18741461931334407), (-23)); (68746635398836347, (-23)); (99999999999976319, (-17)); (33063756412954197, (-24)); (18741459658307978, (-23)); ((-33063885208981925), (-24)); (9999999999999819, (-16))];
  [(24515453640067521, (-10)); (90346024306450889, (-18)); (99999999999999423, (-17)); ((-7078279744199198), (-23)); (80562171469761338, (-24)); (70782794778573375, (-24)); (99999999999999689, (-17)); (33060414542221364, (-24)); ((-80562173809869717), (-24)); ((-33060408839805517), (-24)); (99999999999999623, (-17)); (99999999999995404, (-17)); ((-2781520819641754), (-22)); ((-12086960333596348), (-23)); (27815208196435942, (-23)); (99999999999996136, (-17)); (15053172992500319, (-28)); (1208696033355401, (-22)); ((-1538991156735392), (-27)); (99999999999999278, (-17)); (99999999999993838, (-17)); ((-34893487541016474), (-23)); ((-4030744106202853), (-23)); (34893487674280718, (-23)); (9999999999999386, (-16)); (33061942268055061, (-24)); (40307429525561351, (-24)); ((-33061956386450664), (-24)); (99999999999999878, (-17))];
  [(24515459470228115, (-10)); (52498116495330649, (-17)); (99999999999999423, (-17)); ((-7078279744199198), (-23)); (80562171469761338, (-24)); (70782794778573375, (-24)); (99999999999999689, (-17)); (33060414542221364, (-24)); ((-80562173809869717), (-24)); ((-33060408839805517), (-24)); (99999999999999623, (-17)); (99999999999951728, (-17)); ((-90115213416709573), (-23)); ((-39159117080130538), (-23)); (90115213416902696, (-23)); (99999999999959399, (-17)); (4755059934743966, (-27)); (39159117079686132, (-23)); ((-51080251139978827), (-28)); (99999999999992339, (-17)); (99999999999947919, (-17)); ((-9719349186628865), (-22)); ((-31102902912404456), (-23)); (9719349289471834, (-22)); (99999999999952704, (-17)); (33065242200915444, (-24)); (31102899698663394, (-23)); ((-33065544582835503), (-24)); (99999999999995115, (-17))];
  [(24515453346145405, (-10)); (95444988858809732, (-17)); (99999999999999423, (-17)); ((-7078279744199198), (-23)); (80562171469761338, (-24)); (70782794778573375, (-24)); (99999999999999689, (-17)); (33060414542221364, (-24)); ((-80562173809869717), (-24)); ((-33060408839805517), (-24)); (99999999999999623, (-17)); (99999999999962985, (-17)); ((-7891576232941843), (-22)); ((-34292451488930393), (-23)); (78915762329566533, (-23)); (99999999999968858, (-17)); (41832733985507107, (-28)); (3429245148858959, (-22)); ((-44539372190399718), (-28)); (99999999999994116, (-17)); (99999999999959588, (-17)); ((-85994040939892294), (-23)); ((-26236236950944933), (-23)); (85994041807387513, (-23)); (99999999999962963, (-17)); (33064661391861383, (-24)); (26236234107571373, (-23)); ((-33064887050179084), (-24)); (99999999999996503, (-17))];
  [(24515459765415038, (-10)); (35674732200612791, (-18)); (99999999999999423, (-17)); ((-7078279744199198), (-23)); (80562171469761338, (-24)); (70782794778573375, (-24)); (99999999999999689, (-17)); (33060414542221364, (-24)); ((-80562173809869717), (-24)); ((-33060408839805517), (-24)); (99999999999999623, (-17)); (99999999999977174, (-17)); ((-61967279465093472), (-23)); ((-26927572775553719), (-23)); (61967279465184782, (-23)); (99999999999980793, (-17)); (33077361692482368, (-28)); (26927572775343575, (-23)); ((-34746650001693524), (-28)); (99999999999996381, (-17)); (99999999999974376, (-17)); ((-69045558319054305), (-23)); ((-18871357677243269), (-23)); (69045558943013756, (-23)); (99999999999976097, (-17)); (330637722005702, (-22)); (18871355394332145, (-23)); ((-33063902564893783), (-24)); (99999999999998168, (-17))];
  [(24515456101856166, (-10)); (10540600298350566, (-17)); (99999999999999423, (-17)); ((-7078279744199198), (-23)); (80562171469761338, (-24)); (70782794778573375, (-24)); (99999999999999689, (-17)); (33060414542221364, (-24)); ((-80562173809869717), (-24)); ((-33060408839805517), (-24)); (99999999999999623, (-17)); (99999999999988598, (-17)); ((-4380809573153159), (-22)); ((-19036589972841806), (-23)); (43808095731577223, (-23)); (99999999999990408, (-17)); (23556954882053201, (-28)); (19036589972736781, (-23)); ((-24390489627990064), (-28)); (9999999999999819, (-16)); (99999999999986455, (-17)); ((-50886374846372397), (-23)); ((-10980374274180324), (-23)); (50886375209414657, (-23)); (99999999999986999, (-17)); (33062805530459601, (-24)); (10980372591732581, (-23)); ((-33062861363398643), (-24)); (99999999999999345, (-17))];
  [(24515452170734624, (-10)); (70221621051252292, (-17)); (99999999999999423, (-17)); ((-7078279744199198), (-23)); (80562171469761338, (-24)); (70782794778573375, (-24)); (99999999999999689, (-17)); (33060414542221364, (-24)); ((-80562173809869717), (-24)); ((-33060408839805517), (-24)); (99999999999999623, (-17)); (99999999999981182, (-17)); ((-5627837017748723), (-22)); ((-24455485600037237), (-23)); (56278370177562542, (-23)); (99999999999984168, (-17)); (30110176964848634, (-28)); (24455485599863907, (-23)); ((-31486480089881752), (-28)); (99999999999997002, (-17)); (99999999999978584, (-17)); ((-63356649113176567), (-23)); ((-16399270313648775), (-23)); (63356649655394173, (-23)); (99999999999979872, (-17)); (33063470898989697, (-24)); (16399268218854746, (-23)); ((-33063574798090345), (-24)); (9999999999999859, (-16))];
  [(24515454477219284, (-10)); (94416612786711274, (-17)); (99999999999999423, (-17)); ((-7078279744199198), (-23)); (80562171469761338, (-24)); (70782794778573375, (-24)); (99999999999999689, (-17)); (33060414542221364, (-24)); ((-80562173809869717), (-24)); ((-33060408839805517), (-24)); (99999999999999623, (-17)); (99999999999956846, (-17)); ((-85210564075369128), (-23)); ((-37027826183308035), (-23)); (85210564075541806, (-23)); (99999999999963707, (-17)); (45053407932452507, (-28)); (37027826182910692, (-23)); ((-48208104175273547), (-28)); (99999999999993139, (-17)); (99999999999953226, (-17)); ((-92288842595409932), (-23)); ((-2897161185343181), (-22)); (9228884355335979, (-22)); (99999999999957367, (-17)); (33064988530483356, (-24)); (2897160880188994, (-22)); ((-33065255859551979), (-24)); (99999999999995748, (-17))];
  [(24515456223376379, (-10)); (90461003984527721, (-19)); (99999999999999423, (-17)); ((-7078279744199198), (-23)); (80562171469761338, (-24)); (70782794778573375, (-24)); (99999999999999689, (-17)); (33060414542221364, (-24)); ((-80562173809869717), (-24)); ((-33060408839805517), (-24)); (99999999999999623, (-17)); (99999999999991118, (-17)); ((-38652939014442475), (-23)); ((-16796442297956205), (-23)); (38652939014477997, (-23)); (99999999999992517, (-17)); (20827604040607433, (-28)); (16796442297874446, (-23)); ((-21476709299861341), (-28)); (99999999999998579, (-17)); (99999999999989164, (-17)); ((-45731218203343672), (-23)); ((-87402264288629119), (-24)); (45731218492317808, (-23)); (99999999999989475, (-17)); (3306252844226996, (-23)); (87402249168722896, (-24)); ((-33062568399726763), (-24)); (99999999999999556, (-17))];
  [(24515456684698751, (-10)); (3242762824885036, (-16)); (99999999999999423, (-17)); ((-7078279744199198), (-23)); (80562171469761338, (-24)); (70782794778573375, (-24)); (99999999999999689, (-17)); (33060414542221364, (-24)); ((-80562173809869717), (-24)); ((-33060408839805517), (-24)); (99999999999999623, (-17)); (99999999999978051, (-17)); ((-60775332768464331), (-23)); ((-26409618280128804), (-23)); (60775332768552179, (-23)); (99999999999981548, (-17)); (32457156675124693, (-28)); (2640961827992667, (-22)); ((-34062197507012115), (-28)); (99999999999996514, (-17)); (99999999999975309, (-17)); ((-67853611639549014), (-23)); ((-18353403142412032), (-23)); (67853612246381714, (-23)); (99999999999976941, (-17)); (33063709219810569, (-24)); (18353400898915717, (-23)); ((-33063833753021681), (-24)); (99999999999998268, (-17))];
  [(24515451795866131, (-10)); (92677902367333997, (-17)); (99999999999999423, (-17)); ((-7078279744199198), (-23)); (80562171469761338, (-24)); (70782794778573375, (-24)); (99999999999999689, (-17)); (33060414542221364, (-24)); ((-80562173809869717), (-24)); ((-33060408839805517), (-24)); (99999999999999623, (-17)); (99999999999972722, (-17)); ((-67731050163847463), (-23)); ((-29432190597535037), (-23)); (6773105016395655, (-22)); (99999999999977052, (-17)); (36068490645029714, (-28)); (29432190597283992, (-23)); ((-38062886176248867), (-28)); (9999999999999567, (-16)); (99999999999969724, (-17)); ((-7480932893500426), (-22)); ((-21375975689777585), (-23)); (74809329641782813, (-23)); (99999999999971945, (-17)); (33064075956883054, (-24)); (2137597321627026, (-22)); ((-33064235961349562), (-24)); (99999999999997669, (-17))];
  [(24515450340058729, (-10)); (34571131548181111, (-17)); (99999999999999423, (-17)); ((-7078279744199198), (-23)); (80562171469761338, (-24)); (70782794778573375, (-24)); (99999999999999689, (-17)); (33060414542221364, (-24)); ((-80562173809869717), (-24)); ((-33060408839805517), (-24)); (99999999999999623, (-17)); (99999999999996791, (-17)); ((-23246061632159987), (-23)); ((-1010146043747812), (-22)); (23246061632172838, (-23)); (99999999999997291, (-17)); (12604344150788172, (-28)); (10101460437448548, (-23)); ((-12839174168277623), (-28)); (99999999999999489, (-17)); (99999999999995381, (-17)); ((-30324341042400478), (-23)); ((-20452440590266408), (-24)); (30324341110019695, (-23)); (99999999999995337, (-17)); (33061693704167579, (-24)); (2045243056452471, (-23)); ((-33061699907318454), (-24)); (99999999999999922, (-17))];
  [(24515458873710348, (-10)); (22939901165595189, (-17)); (99999999999999423, (-17)); ((-7078279744199198), (-23)); (80562171469761338, (-24)); (70782794778573375, (-24)); (99999999999999689, (-17)); (33060414542221364, (-24)); ((-80562173809869717), (-24)); ((-33060408839805517), (-24)); (99999999999999623, (-17)); (99999999999972222, (-17)); ((-68368001981665354), (-23)); ((-29708974834048825), (-23)); (68368001981776505, (-23)); (9999999999997663, (-16)); (36398868182888712, (-28)); (29708974833793031, (-23)); ((-38429814885887481), (-28)); (99999999999995592, (-17)); (99999999999969202, (-17)); ((-75446280743671527), (-23)); ((-21652759947349305), (-23)); (75446281459602472, (-23)); (99999999999971478, (-17)); (3306410950777891, (-23)); (21652757452779045, (-23)); ((-3306427285013613), (-23)); (99999999999997613, (-17))];
  [(24515454462651662, (-10)); (73770241735717956, (-17)); (99999999999999423, (-17)); ((-7078279744199198), (-23)); (80562171469761338, (-24)); (70782794778573375, (-24)); (99999999999999689, (-17)); (33060414542221364, (-24)); ((-80562173809869717), (-24)); ((-33060408839805517), (-24)); (99999999999999623, (-17)); (99999999999968769, (-17)); ((-72481795510292376), (-23)); ((-31496603298081897), (-23)); (72481795510417314, (-23)); (99999999999973732, (-17)); (38523856021900477, (-28)); (31496603297794398, (-23)); ((-40806802381609941), (-28)); (99999999999995037, (-17)); (99999999999965605, (-17)); ((-79560074213198562), (-23)); ((-23440388547386368), (-23)); (79560074988241332, (-23)); (99999999999968292, (-17)); (33064325320723254, (-24)); (23440385916778762, (-23)); ((-33064511814218949), (-24)); (99999999999997202, (-17))];
  [(2451545774244423, (-9)); (9701757601186799, (-16)); (99999999999999423, (-17)); ((-7078279744199198), (-23)); (80562171469761338, (-24)); (70782794778573375, (-24)); (99999999999999689, (-17)); (33060414542221364, (-24)); ((-80562173809869717), (-24)); ((-33060408839805517), (-24)); (99999999999999623, (-17)); (9999999999993221, (-16)); ((-10679237282027056), (-22)); ((-46406093442979536), (-23)); (10679237282054178, (-22)); (99999999999942979, (-17)); (5596380364326852, (-27)); (46406093442355421, (-23)); ((-6092015780723159), (-27)); (99999999999989231, (-17)); (99999999999927813, (-17)); ((-11387065103026022), (-22)); ((-38349879826608804), (-23)); (11387065229834939, (-22)); (99999999999935107, (-17)); (33066096956821345, (-24)); (38349876061325928, (-23)); ((-33066533703113805), (-24)); (99999999999992595, (-17))];
  [(24515458880478726, (-10)); (93623419501838478, (-17)); (99999999999999423, (-17)); ((-7078279744199198), (-23)); (80562171469761338, (-24)); (70782794778573375, (-24)); (99999999999999689, (-17)); (33060414542221364, (-24)); ((-80562173809869717), (-24)); ((-33060408839805517), (-24)); (99999999999999623, (-17)); (99999999999925859, (-17)); ((-11168147026935144), (-22)); ((-48530626321484418), (-23)); (11168147026964805, (-22)); (99999999999937639, (-17)); (58407356263685121, (-28)); (48530626320801847, (-23)); ((-63827276797212562), (-28)); (99999999999988221, (-17)); (99999999999921285, (-17)); ((-11875974840910269), (-22)); ((-4047441286674978), (-22)); (11875974974745328, (-22)); (99999999999929423, (-17)); (33066345250844685, (-24)); (40474408939770369, (-23)); ((-33066825918816271), (-24)); (99999999999991751, (-17))];
  [(24515458449642034, (-10)); (18030139773506892, (-17)); (99999999999999423, (-17)); ((-7078279744199198), (-23)); (80562171469761338, (-24)); (70782794778573375, (-24)); (99999999999999689, (-17)); (33060414542221364, (-24)); ((-80562173809869717), (-24)); ((-33060408839805517), (-24)); (99999999999999623, (-17)); (99999999999976585, (-17)); ((-62766153891216699), (-23)); ((-27274719675050761), (-23)); (62766153891310381, (-23)); (99999999999980305, (-17)); (33492684174808699, (-28)); (27274719674835175, (-23)); ((-35204061887839089), (-28)); (99999999999996281, (-17)); (99999999999973765, (-17)); ((-69844432733700669), (-23)); ((-19218504603151479), (-23)); (69844433369138984, (-23)); (99999999999975553, (-17)); (33063814376408853, (-24)); (19218502293823425, (-23)); ((-33063948551802652), (-24)); (99999999999998102, (-17))];
  [(24515459153503641, (-10)); (43983050835457527, (-17)); (99999999999999423, (-17)); ((-7078279744199198), (-23)); (80562171469761338, (-24)); (70782794778573375, (-24)); (99999999999999689, (-17)); (33060414542221364, (-24)); ((-80562173809869717), (-24)); ((-33060408839805517), (-24)); (99999999999999623, (-17)); (99999999999959088, (-17)); ((-82963371954094826), (-23)); ((-36051320059003998), (-23)); (82963371954258505, (-23)); (99999999999965583, (-17)); (4390617181174323, (-27)); (36051320058627333, (-23)); ((-46896930783191237), (-28)); (99999999999993505, (-17)); (99999999999955547, (-17)); ((-90041650506419497), (-23)); ((-27995105654834492), (-23)); (90041651432077558, (-23)); (99999999999959399, (-17)); (33064871996485135, (-24)); (27995102677607486, (-23)); ((-33065124051014543), (-24)); (99999999999996037, (-17))];
  [(24515452437817948, (-10)); (88293105371312952, (-17)); (99999999999999423, (-17)); ((-7078279744199198), (-23)); (80562171469761338, (-24)); (70782794778573375, (-24)); (99999999999999689, (-17)); (33060414542221364, (-24)); ((-80562173809869717), (-24)); ((-33060408839805517), (-24)); (99999999999999623, (-17)); (99999999999971723, (-17)); ((-68976694448812126), (-23)); ((-29973479110557044), (-23)); (68976694448925279, (-23)); (99999999999976219, (-17)); (3671425463987894, (-27)); (29973479110296671, (-23)); ((-38781755584693656), (-28)); (99999999999995515, (-17)); (9999999999996867, (-16)); ((-76054973202073637), (-23)); ((-21917264243981188), (-23)); (76054973926750949, (-23)); (99999999999971023, (-17)); (33064141536800347, (-24)); (21917261729282436, (-23)); ((-33064308231429508), (-24)); (99999999999997546, (-17))];
  [(2451545523993087, (-9)); (48739262655364657, (-17)); (99999999999999423, (-17)); ((-7078279744199198), (-23)); (80562171469761338, (-24)); (70782794778573375, (-24)); (99999999999999689, (-17)); (33060414542221364, (-24)); ((-80562173809869717), (-24)); ((-33060408839805517), (-24)); (99999999999999623, (-17)); (99999999999977218, (-17)); ((-61916435371714098), (-23)); ((-26905478728228288), (-23)); (6191643537180526, (-22)); (99999999999980838, (-17)); (33050154965984619, (-28)); (26905478728018488, (-23)); ((-34716118868516332), (-28)); (99999999999996381, (-17)); (9999999999997442, (-16)); ((-6899471422640537), (-22)); ((-1884926362823691), (-22)); (68994714849634255, (-23)); (99999999999976141, (-17)); (33063769438936464, (-24)); (1884926134700708, (-22)); ((-33063899496141682), (-24)); (99999999999998168, (-17))];
  [(24515451938098776, (-10)); (66239132071319451, (-17)); (99999999999999423, (-17)); ((-7078279744199198), (-23)); (80562171469761338, (-24)); (70782794778573375, (-24)); (99999999999999689, (-17)); (33060414542221364, (-24)); ((-80562173809869717), (-24)); ((-33060408839805517), (-24)); (99999999999999623, (-17)); (99999999999983669, (-17)); ((-52416131039629881), (-23)); ((-22777168829666754), (-23)); (52416131039695208, (-23)); (99999999999986255, (-17)); (28088043455767009, (-28)); (22777168829516397, (-23)); ((-29282132274488504), (-28)); (99999999999997402, (-17)); (99999999999981215, (-17)); ((-59494410030805244), (-23)); ((-14720953415590871), (-23)); (5949441051752864, (-22)); (99999999999982236, (-17)); (33063265574135765, (-24)); (14720951448508777, (-23)); ((-33063353175349379), (-24)); (99999999999998856, (-17))];
  [(24515455411730446, (-10)); (53102839345122232, (-17)); (99999999999999423, (-17)); ((-7078279744199198), (-23)); (80562171469761338, (-24)); (70782794778573375, (-24)); (99999999999999689, (-17)); (33060414542221364, (-24)); ((-80562173809869717), (-24)); ((-33060408839805517), (-24)); (99999999999999623, (-17)); (99999999999974387, (-17)); ((-65639538098878142), (-23)); ((-28523334457663428), (-23)); (65639538098980601, (-23)); (99999999999978451, (-17)); (34984080525757543, (-28)); (2852333445742764, (-22)); ((-36857183971505947), (-28)); (99999999999995937, (-17)); (99999999999971467, (-17)); ((-72717816900082226), (-23)); ((-20467119480759592), (-23)); (72717817576807849, (-23)); (99999999999973499, (-17)); (33063965830904047, (-24)); (20467117076414744, (-23)); ((-3306411474781538), (-23)); (99999999999997857, (-17))];
  [(24515453890986932, (-10)); (73535469184276903, (-17)); (99999999999999423, (-17)); ((-7078279744199198), (-23)); (80562171469761338, (-24)); (70782794778573375, (-24)); (99999999999999689, (-17)); (33060414542221364, (-24)); ((-80562173809869717), (-24)); ((-33060408839805517), (-24)); (99999999999999623, (-17)); (99999999999971834, (-17)); ((-68838371427085567), (-23)); ((-29913371531184908), (-23)); (68838371427198254, (-23)); (99999999999976308, (-17)); (36642071190346688, (-28)); (29913371530925584, (-23)); ((-38701264415408332), (-28)); (99999999999995515, (-17)); (99999999999968792, (-17)); ((-75916650182334271), (-23)); ((-2185715666003603), (-22)); (75916650905023988, (-23)); (99999999999971123, (-17)); (33064134207019392, (-24)); (21857154149911401, (-23)); ((-33064300139766756), (-24)); (99999999999997546, (-17))];
  [(24515458451975966, (-10)); (88494395090147815, (-17)); (99999999999999423, (-17)); ((-7078279744199198), (-23)); (80562171469761338, (-24)); (70782794778573375, (-24)); (99999999999999689, (-17)); (33060414542221364, (-24)); ((-80562173809869717), (-24)); ((-33060408839805517), (-24)); (99999999999999623, (-17)); (99999999999933309, (-17)); ((-10591824317033512), (-22)); ((-46026244768827775), (-23)); (10591824317060192, (-22)); (99999999999943912, (-17)); (55526190909510877, (-28)); (46026244768213835, (-23)); ((-60401128543219329), (-28)); (99999999999989408, (-17)); (99999999999928946, (-17)); ((-11299652139288278), (-22)); ((-37970031123557866), (-23)); (11299652264840995, (-22)); (99999999999936107, (-17)); (33066052491330457, (-24)); (37970027387184697, (-23)); ((-33066481531319943), (-24)); (99999999999992739, (-17))];
  [(24515452075510537, (-10)); (95895035056055478, (-17)); (99999999999999423, (-17)); ((-7078279744199198), (-23)); (80562171469761338, (-24)); (70782794778573375, (-24)); (99999999999999689, (-17)); (33060414542221364, (-24)); ((-80562173809869717), (-24)); ((-33060408839805517), (-24)); (99999999999999623, (-17)); (99999999999969691, (-17)); ((-7141252633329258), (-22)); ((-31031957709557696), (-23)); (71412526333413853, (-23)); (99999999999974498, (-17)); (37971922205326782, (-28)); (31031957709278615, (-23)); ((-40187853045381416), (-28)); (99999999999995182, (-17)); (9999999999996656, (-16)); ((-78490805051560206), (-23)); ((-22975742923511613), (-23)); (7849080581123838, (-22)); (99999999999969136, (-17)); (3306426926591538, (-23)); (22975740328263405, (-23)); ((-3306444959039623), (-23)); (99999999999997302, (-17))];
  [(2451545242329956, (-9)); (94030224023541042, (-17)); (99999999999999423, (-17)); ((-7078279744199198), (-23)); (80562171469761338, (-24)); (70782794778573375, (-24)); (99999999999999689, (-17)); (33060414542221364, (-24)); ((-80562173809869717), (-24)); ((-33060408839805517), (-24)); (99999999999999623, (-17)); (99999999999968847, (-17)); ((-72400043891568505), (-23)); ((-31461078539860881), (-23)); (72400043891693167, (-23)); (99999999999973799, (-17)); (38482210882544478, (-28)); (31461078539574028, (-23)); ((-40759617903063372), (-28)); (99999999999995048, (-17)); (99999999999965672, (-17)); ((-79478322595649155), (-23)); ((-23404863786462602), (-23)); (79478323369517238, (-23)); (99999999999968359, (-17)); (33064321090348462, (-24)); (23404861158558421, (-23)); ((-33064507070625684), (-24)); (99999999999997202, (-17))];
  [(24515450403117463, (-10)); (38735272945540511, (-17)); (99999999999999423, (-17)); ((-7078279744199198), (-23)); (80562171469761338, (-24)); (70782794778573375, (-24)); (99999999999999689, (-17)); (33060414542221364, (-24)); ((-80562173809869717), (-24)); ((-33060408839805517), (-24)); (99999999999999623, (-17)); (99999999999995925, (-17)); ((-26181366209570253), (-23)); ((-11376982431302902), (-23)); (26181366209586553, (-23)); (99999999999996569, (-17)); (14178784647549304, (-28)); (11376982431265391, (-23)); ((-14476198018087416), (-28)); (99999999999999345, (-17)); (99999999999994416, (-17)); ((-33259645577641391), (-23)); ((-33207661498938739), (-24)); (3325964568743207, (-22)); (99999999999994404, (-17)); (33061853512962125, (-24)); (33207650502681592, (-24)); ((-33061864512553538), (-24)); (99999999999999889, (-17))];
  [(24515454971855907, (-10)); (5505447327371904, (-18)); (99999999999999423, (-17)); ((-7078279744199198), (-23)); (80562171469761338, (-24)); (70782794778573375, (-24)); (99999999999999689, (-17)); (33060414542221364, (-24)); ((-80562173809869717), (-24)); ((-33060408839805517), (-24)); (99999999999999623, (-17)); (99999999999994371, (-17)); ((-30774447985706168), (-23)); ((-13372883251889733), (-23)); (30774447985728689, (-23)); (99999999999995259, (-17)); (16635413183413996, (-28)); (13372883251837905, (-23)); ((-17046919431606966), (-28)); (99999999999999112, (-17)); (99999999999992695, (-17)); ((-37852727287791883), (-23)); ((-53166671223300106), (-24)); (37852727463572104, (-23)); (99999999999992772, (-17)); (3306210287610169, (-23)); (53166658708388602, (-24)); ((-33062122997449251), (-24)); (99999999999999811, (-17))];
  [(24515457000728385, (-10)); (6509351137450311, (-16)); (99999999999999423, (-17)); ((-7078279744199198), (-23)); (80562171469761338, (-24)); (70782794778573375, (-24)); (99999999999999689, (-17)); (33060414542221364, (-24)); ((-80562173809869717), (-24)); ((-33060408839805517), (-24)); (99999999999999623, (-17)); (99999999999959333, (-17)); ((-82707908242866667), (-23)); ((-35940309577819924), (-23)); (82707908243029329, (-23)); (99999999999965783, (-17)); (43775123416288293, (-28)); (35940309577445573, (-23)); ((-46748160897891466), (-28)); (99999999999993539, (-17)); (99999999999955802, (-17)); ((-89786186798861394), (-23)); ((-27884095165204658), (-23)); (89786187720848498, (-23)); (99999999999959621, (-17)); (33064858685838547, (-24)); (27884092196425826, (-23)); ((-33065109095449698), (-24)); (99999999999996059, (-17))];
  [(24515453322573649, (-10)); (34911212317201823, (-17)); (99999999999999423, (-17)); ((-7078279744199198), (-23)); (80562171469761338, (-24)); (70782794778573375, (-24)); (99999999999999689, (-17)); (33060414542221364, (-24)); ((-80562173809869717), (-24)); ((-33060408839805517), (-24)); (99999999999999623, (-17)); (99999999999989664, (-17)); ((-41713037064086015), (-23)); ((-18126192664500608), (-23)); (41713037064127392, (-23)); (99999999999991307, (-17)); (22448219053958151, (-28)); (18126192664405391, (-23)); ((-23204771437690397), (-28)); (99999999999998357, (-17)); (99999999999987599, (-17)); ((-48791316209025021), (-23)); ((-10069976896575535), (-23)); (48791316541965795, (-23)); (99999999999988043, (-17)); (33062692969052335, (-24)); (10069975283402021, (-23)); ((-33062742147174979), (-24)); (99999999999999445, (-17))];
  [(245154566057469, (-8)); (74585036032013274, (-17)); (99999999999999423, (-17)); ((-7078279744199198), (-23)); (80562171469761338, (-24)); (70782794778573375, (-24)); (99999999999999689, (-17)); (33060414542221364, (-24)); ((-80562173809869717), (-24)); ((-33060408839805517), (-24)); (99999999999999623, (-17)); (99999999999955935, (-17)); ((-86100510269967407), (-23)); ((-37414547861650674), (-23)); (86100510270143696, (-23)); (9999999999996293, (-16)); (45507640726526898, (-28)); (37414547861244983, (-23)); ((-48728243662310433), (-28)); (99999999999993006, (-17)); (99999999999952272, (-17)); ((-93178788777222979), (-23)); ((-29358333561196509), (-23)); (93178789747961245, (-23)); (99999999999956524, (-17)); (33065034670722486, (-24)); (2935833048022387, (-22)); ((-33065308147233064), (-24)); (99999999999995637, (-17))];
  [(24515454506208301, (-10)); (45569868702603789, (-17)); (99999999999999423, (-17)); ((-7078279744199198), (-23)); (80562171469761338, (-24)); (70782794778573375, (-24)); (99999999999999689, (-17)); (33060414542221364, (-24)); ((-80562173809869717), (-24)); ((-33060408839805517), (-24)); (99999999999999623, (-17)); (99999999999981692, (-17)); ((-55484344899048944), (-23)); ((-24110445872461644), (-23)); (55484344899122148, (-23)); (99999999999984601, (-17)); (29693199988881833, (-28)); (24110445872293175, (-23)); ((-3103184376129775), (-27)); (99999999999997091, (-17)); (99999999999979128, (-17)); ((-62562623846145474), (-23)); ((-16054230559822338), (-23)); (62562624376954161, (-23)); (9999999999998036, (-16)); (33063428561608236, (-24)); (16054228491284334, (-23)); ((-33063529090228752), (-24)); (99999999999998657, (-17))];
  [(24515451199944559, (-10)); (33641314070457817, (-17)); (99999999999999423, (-17)); ((-7078279744199198), (-23)); (80562171469761338, (-24)); (70782794778573375, (-24)); (99999999999999689, (-17)); (33060414542221364, (-24)); ((-80562173809869717), (-24)); ((-33060408839805517), (-24)); (99999999999999623, (-17)); (99999999999995359, (-17)); ((-27941003073880267), (-23)); ((-12141623871382116), (-23)); (27941003073898832, (-23)); (99999999999996092, (-17)); (15120348458883256, (-28)); (12141623871339396, (-23)); ((-15459855617905305), (-28)); (99999999999999267, (-17)); (99999999999993783, (-17)); ((-35019282416672003), (-23)); ((-40854076481474545), (-24)); (35019282551743551, (-23)); (99999999999993805, (-17)); (33061949086944771, (-24)); (40854064903414726, (-24)); ((-33061963419548091), (-24)); (99999999999999867, (-17))];
  [(24515455838940884, (-10)); (51392591123318698, (-17)); (99999999999999423, (-17)); ((-7078279744199198), (-23)); (80562171469761338, (-24)); (70782794778573375, (-24)); (99999999999999689, (-17)); (33060414542221364, (-24)); ((-80562173809869717), (-24)); ((-33060408839805517), (-24)); (99999999999999623, (-17)); (99999999999973144, (-17)); ((-6720789130664736), (-22)); ((-29204854524611393), (-23)); (67207891306754785, (-23)); (99999999999977407, (-17)); (35797526040097571, (-28)); (29204854524364208, (-23)); ((-37761460625063137), (-28)); (99999999999995737, (-17)); (99999999999970168, (-17)); ((-74286170085320019), (-23)); ((-2114863959955806), (-22)); (74286170784581292, (-23)); (99999999999972344, (-17)); (33064048438954542, (-24)); (21148637143350682, (-23)); ((-33064205657879637), (-24)); (99999999999997713, (-17))];
  [(24515458912862916, (-10)); (89423993936247459, (-17)); (99999999999999423, (-17)); ((-7078279744199198), (-23)); (80562171469761338, (-24)); (70782794778573375, (-24)); (99999999999999689, (-17)); (33060414542221364, (-24)); ((-80562173809869717), (-24)); ((-33060408839805517), (-24)); (99999999999999623, (-17)); (99999999999928979, (-17)); ((-10930886081805541), (-22)); ((-4749962073472688), (-22)); (10930886081833955, (-22)); (99999999999940259, (-17)); (57222782114775146, (-28)); (47499620734073002, (-23)); ((-6241451799837705), (-27)); (99999999999988709, (-17)); (99999999999924494, (-17)); ((-11638713899189237), (-22)); ((-39443407201552539), (-23)); (11638714029614593, (-22)); (9999999999993221, (-16)); (33066224882004971, (-24)); (39443403353042488, (-23)); ((-3306668391316195), (-23)); (99999999999992162, (-17))];
  [(24515452713746447, (-10)); (67392583466865386, (-17)); (99999999999999423, (-17)); ((-7078279744199198), (-23)); (80562171469761338, (-24)); (70782794778573375, (-24)); (99999999999999689, (-17)); (33060414542221364, (-24)); ((-80562173809869717), (-24)); ((-33060408839805517), (-24)); (99999999999999623, (-17)); (99999999999980094, (-17)); ((-57870736378720329), (-23)); ((-25147440396554937), (-23)); (57870736378799961, (-23)); (99999999999983258, (-17)); (30941359616808445, (-28)); (2514744039637166, (-22)); ((-3239686297007438), (-27)); (99999999999996825, (-17)); (9999999999997744, (-16)); ((-64949015291533276), (-23)); ((-17091225162810847), (-23)); (64949015856630851, (-23)); (9999999999997885, (-16)); (33063555300099384, (-24)); (17091223015361867, (-23)); ((-33063666326163268), (-24)); (99999999999998468, (-17))];
  [(2451545881420996, (-9)); (92198700421460089, (-17)); (99999999999999423, (-17)); ((-7078279744199198), (-23)); (80562171469761338, (-24)); (70782794778573375, (-24)); (99999999999999689, (-17)); (33060414542221364, (-24)); ((-80562173809869717), (-24)); ((-33060408839805517), (-24)); (99999999999999623, (-17)); (99999999999927547, (-17)); ((-11040357218146507), (-22)); ((-47975322090159984), (-23)); (11040357218175492, (-22)); (9999999999993906, (-16)); (57769806085903606, (-28)); (47975322089492956, (-23)); ((-63066218913832017), (-28)); (99999999999988498, (-17)); (99999999999923017, (-17)); ((-11748185033957504), (-22)); ((-3991910859317737), (-22)); (11748185165956077, (-22)); (99999999999930933, (-17)); (33066280466324933, (-24)); (39919104708461997, (-23)); ((-3306674941996815), (-23)); (99999999999991984, (-17))];
  [(24515456912771231, (-10)); (41369978825614295, (-17)); (99999999999999423, (-17)); ((-7078279744199198), (-23)); (80562171469761338, (-24)); (70782794778573375, (-24)); (99999999999999689, (-17)); (33060414542221364, (-24)); ((-80562173809869717), (-24)); ((-33060408839805517), (-24)); (99999999999999623, (-17)); (999999999999728, (-15)); ((-67646033212325261), (-23)); ((-29395246905149745), (-23)); (67646033212434083, (-23)); (99999999999977118, (-17)); (36025735615684542, (-28)); (2939524690489932, (-22)); ((-38012926140140735), (-28)); (99999999999995681, (-17)); (99999999999969802, (-17)); ((-74724311984703448), (-23)); ((-21339031994581591), (-23)); (74724312690260389, (-23)); (99999999999972022, (-17)); (33064071612888639, (-24)); (21339029523885619, (-23)); ((-33064230939196178), (-24)); (99999999999997669, (-17))];
  [(24515450988426791, (-10)); (70413333252567689, (-17)); (99999999999999423, (-17)); ((-7078279744199198), (-23)); (80562171469761338, (-24)); (70782794778573375, (-24)); (99999999999999689, (-17)); (33060414542221364, (-24)); ((-80562173809869717), (-24)); ((-33060408839805517), (-24)); (99999999999999623, (-17)); (99999999999985634, (-17)); ((-49157716560548154), (-23)); ((-2136124105335739), (-22)); (49157716560605625, (-23)); (9999999999998791, (-16)); (26376860715151313, (-28)); (21361241053225149, (-23)); ((-27426394488827555), (-28)); (99999999999997713, (-17)); (99999999999983302, (-17)); ((-56235995598534825), (-23)); ((-13305025531556823), (-23)); (56235996038440571, (-23)); (99999999999984124, (-17)); (33063091830812791, (-24)); (13305023672218823, (-23)); ((-33063166599337633), (-24)); (99999999999999056, (-17))];
  [(24515453741591438, (-10)); (26954358626483599, (-17)); (99999999999999423, (-17)); ((-7078279744199198), (-23)); (80562171469761338, (-24)); (70782794778573375, (-24)); (99999999999999689, (-17)); (33060414542221364, (-24)); ((-80562173809869717), (-24)); ((-33060408839805517), (-24)); (99999999999999623, (-17)); (99999999999990763, (-17)); ((-39407100404208009), (-23)); ((-17124159373925221), (-23)); (39407100404244934, (-23)); (99999999999992217, (-17)); (21227897971219046, (-28)); (17124159373840237, (-23)); ((-21903034941317401), (-28)); (99999999999998523, (-17)); (99999999999988776, (-17)); ((-46485379582274723), (-23)); ((-90679435297648427), (-24)); (46485379882084396, (-23)); (9999999999998912, (-16)); (33062569079231708, (-24)); (90679419928377835, (-24)); ((-33062611264258201), (-24)); (99999999999999523, (-17))];
  [(24515453912881748, (-10)); (80410172772587163, (-17)); (99999999999999423, (-17)); ((-7078279744199198), (-23)); (80562171469761338, (-24)); (70782794778573375, (-24)); (99999999999999689, (-17)); (33060414542221364, (-24)); ((-80562173809869717), (-24)); ((-33060408839805517), (-24)); (99999999999999623, (-17)); (9999999999996817, (-16)); ((-73181063133058229), (-23)); ((-31800466556251458), (-23)); (73181063133185591, (-23)); (99999999999973221, (-17)); (38884779774066732, (-28)); (31800466555958384, (-23)); ((-41212033785598123), (-28)); (99999999999994948, (-17)); (99999999999964972, (-17)); ((-80259341825918531), (-23)); ((-23744251828674052), (-23)); (80259342611009282, (-23)); (99999999999967726, (-17)); (33064361976443478, (-24)); (23744249174942465, (-23)); ((-33064552552442235), (-24)); (99999999999997136, (-17))];
  [(24515453375954628, (-10)); (20266140927765919, (-17)); (99999999999999423, (-17)); ((-7078279744199198), (-23)); (80562171469761338, (-24)); (70782794778573375, (-24)); (99999999999999689, (-17)); (33060414542221364, (-24)); ((-80562173809869717), (-24)); ((-33060408839805517), (-24)); (99999999999999623, (-17)); (99999999999993494, (-17)); ((-33074206136294962), (-23)); ((-14372231706006833), (-23)); (33074206136320976, (-23)); (99999999999994538, (-17)); (17862355615112063, (-28)); (14372231705946969, (-23)); ((-18337553697733711), (-28)); (99999999999998979, (-17)); (99999999999991729, (-17)); ((-40152485405341743), (-23)); ((-63160156524781355), (-24)); (40152485614163349, (-23)); (99999999999991884, (-17)); (33062227423079727, (-24)); (63160143249470162, (-24)); ((-33062252768242607), (-24)); (99999999999999756, (-17))];
  [(24515450106374999, (-10)); (19022009573651744, (-18)); (99999999999999423, (-17)); ((-7078279744199198), (-23)); (80562171469761338, (-24)); (70782794778573375, (-24)); (99999999999999689, (-17)); (33060414542221364, (-24)); ((-80562173809869717), (-24)); ((-33060408839805517), (-24)); (99999999999999623, (-17)); (99999999999999978, (-17)); ((-18157376155356641), (-24)); ((-78901975177804805), (-25)); (18157376155357426, (-24)); (99999999999999978, (-17)); (9925426619162293, (-29)); (78901975177786756, (-25)); ((-99420471855182768), (-30)); (99999999999999989, (-17)); (99999999999999334, (-17)); ((-88940173336495399), (-24)); (72671973351690487, (-24)); (88940170933922681, (-24)); (99999999999999534, (-17)); (33060515259285198, (-24)); ((-72671976292098117), (-24)); ((-33060508818767619), (-24)); (99999999999999678, (-17))];
  [(24515458156749061, (-10)); (51357439128086102, (-17)); (99999999999999423, (-17)); ((-7078279744199198), (-23)); (80562171469761338, (-24)); (70782794778573375, (-24)); (99999999999999689, (-17)); (33060414542221364, (-24)); ((-80562173809869717), (-24)); ((-33060408839805517), (-24)); (99999999999999623, (-17)); (99999999999960643, (-17)); ((-81375856243500465), (-23)); ((-35361473027003829), (-23)); (81375856243657939, (-23)); (99999999999966893, (-17)); (43093784284962685, (-28)); (35361473026641447, (-23)); ((-45971004780653857), (-28)); (99999999999993738, (-17)); (99999999999957156, (-17)); ((-88454134818631869), (-23)); ((-27305258570350277), (-23)); (88454135721477754, (-23)); (9999999999996082, (-16)); (33064789478795757, (-24)); (2730525564562223, (-22)); ((-33065030970121335), (-24)); (99999999999996214, (-17))];
  [(24515453381133578, (-10)); (93131608010755373, (-18)); (99999999999999423, (-17)); ((-7078279744199198), (-23)); (80562171469761338, (-24)); (70782794778573375, (-24)); (99999999999999689, (-17)); (33060414542221364, (-24)); ((-80562173809869717), (-24)); ((-33060408839805517), (-24)); (99999999999999623, (-17)); (99999999999995848, (-17)); ((-26400561692146843), (-23)); ((-11472232737155915), (-23)); (26400561692163418, (-23)); (99999999999996503, (-17)); (14295924635896004, (-28)); (11472232737117772, (-23)); ((-14599432773820809), (-28)); (99999999999999345, (-17)); (99999999999994327, (-17)); ((-33478841057068956), (-23)); ((-34160164629935857), (-24)); (33478841170008835, (-23)); (99999999999994327, (-17)); (33061865403549573, (-24)); (34160153561204533, (-24)); ((-33061876903449943), (-24)); (99999999999999889, (-17))];
  [(24515454321188498, (-10)); (26696903895081614, (-18)); (99999999999999423, (-17)); ((-7078279744199198), (-23)); (80562171469761338, (-24)); (70782794778573375, (-24)); (99999999999999689, (-17)); (33060414542221364, (-24)); ((-80562173809869717), (-24)); ((-33060408839805517), (-24)); (99999999999999623, (-17)); (99999999999995315, (-17)); ((-2808842902574642), (-22)); ((-12205687084864866), (-23)); (28088429025765181, (-23)); (99999999999996048, (-17)); (15200292729207453, (-28)); (12205687084821688, (-23)); ((-15542567233239879), (-28)); (99999999999999245, (-17)); (99999999999993738, (-17)); ((-35166708366420198), (-23)); ((-41494708665041713), (-24)); (35166708503609831, (-23)); (99999999999993749, (-17)); (3306195720014133, (-23)); (41494697038237054, (-24)); ((-33061971736055355), (-24)); (99999999999999856, (-17))];
  [(24515459121672516, (-10)); (64343848507372103, (-17)); (99999999999999423, (-17)); ((-7078279744199198), (-23)); (80562171469761338, (-24)); (70782794778573375, (-24)); (99999999999999689, (-17)); (33060414542221364, (-24)); ((-80562173809869717), (-24)); ((-33060408839805517), (-24)); (99999999999999623, (-17)); (99999999999946099, (-17)); ((-95233263828825515), (-23)); ((-41383140342235302), (-23)); (95233263829041191, (-23)); (99999999999954658, (-17)); (50145578586819229, (-28)); (41383140341738983, (-23)); ((-54086735090663751), (-28)); (9999999999999144, (-16)); (99999999999942113, (-17)); ((-10231154220487707), (-22)); ((-33326926343714533), (-23)); (10231154330685436, (-22)); (99999999999947609, (-17)); (33065505822050356, (-24)); (33326922960714176, (-23)); ((-33065846805456153), (-24)); (99999999999994393, (-17))];
  [(24515458456122237, (-10)); (48893340245186001, (-17)); (99999999999999423, (-17)); ((-7078279744199198), (-23)); (80562171469761338, (-24)); (70782794778573375, (-24)); (99999999999999689, (-17)); (33060414542221364, (-24)); ((-80562173809869717), (-24)); ((-33060408839805517), (-24)); (99999999999999623, (-17)); (99999999999960321, (-17)); ((-81700094363376403), (-23)); ((-35502369084428772), (-23)); (81700094363535137, (-23)); (99999999999966627, (-17)); (43259815197193999, (-28)); (35502369084063489, (-23)); ((-46160852917864759), (-28)); (99999999999993694, (-17)); (99999999999956823, (-17)); ((-88778372933849697), (-23)); ((-27446154638494691), (-23)); (88778373841354783, (-23)); (99999999999960532, (-17)); (33064806343100168, (-24)); (27446151703044145, (-23)); ((-33065050054665211), (-24)); (99999999999996181, (-17))];
  [(24515451482100696, (-10)); (15611050876968569, (-18)); (99999999999999423, (-17)); ((-7078279744199198), (-23)); (80562171469761338, (-24)); (70782794778573375, (-24)); (99999999999999689, (-17)); (33060414542221364, (-24)); ((-80562173809869717), (-24)); ((-33060408839805517), (-24)); (99999999999999623, (-17)); (999999999999994, (-15)); ((-10029032062840201), (-23)); ((-4358066003646168), (-23)); (10029032062842592, (-23)); (99999999999999489, (-17)); (54662830634400536, (-29)); (43580660036406643, (-24)); ((-55105919827269645), (-29)); (99999999999999889, (-17)); (99999999999998468, (-17)); ((-17107311662959881), (-23)); (36981508117659774, (-24)); (17107311540695431, (-23)); (99999999999998468, (-17)); (33060969250133542, (-24)); ((-36981513773502236), (-24)); ((-33060962983764779), (-24)); (99999999999999867, (-17))];
  [(24515454279055186, (-10)); (67006045421049643, (-17)); (99999999999999423, (-17)); ((-7078279744199198), (-23)); (80562171469761338, (-24)); (70782794778573375, (-24)); (99999999999999689, (-17)); (33060414542221364, (-24)); ((-80562173809869717), (-24)); ((-33060408839805517), (-24)); (99999999999999623, (-17)); (99999999999973144, (-17)); ((-67216827696069959), (-23)); ((-2920873778807856), (-22)); (67216827696177405, (-23)); (99999999999977407, (-17)); (35803078349556814, (-28)); (29208737787831311, (-23)); ((-37765901517161637), (-28)); (99999999999995737, (-17)); (99999999999970157, (-17)); ((-74295106474614228), (-23)); ((-21152522863320667), (-23)); (74295107174003912, (-23)); (99999999999972333, (-17)); (33064049001384836, (-24)); (21152520406817785, (-23)); ((-33064206104717529), (-24)); (99999999999997713, (-17))];
  [(24515457265527938, (-10)); (89030980613376975, (-17)); (99999999999999423, (-17)); ((-7078279744199198), (-23)); (80562171469761338, (-24)); (70782794778573375, (-24)); (99999999999999689, (-17)); (33060414542221364, (-24)); ((-80562173809869717), (-24)); ((-33060408839805517), (-24)); (99999999999999623, (-17)); (99999999999941758, (-17)); ((-98983372843633398), (-23)); ((-43012731494280204), (-23)); (98983372843866395, (-23)); (99999999999951017, (-17)); (52039232969055224, (-28)); (43012731493744037, (-23)); ((-56296634021180125), (-28)); (99999999999990741, (-17)); (99999999999937639, (-17)); ((-10606165116580967), (-22)); ((-34956517619739938), (-23)); (10606165232167777, (-22)); (99999999999943701, (-17)); (3306569820865663, (-23)); (34956514112717716, (-23)); ((-33066068948819178), (-24)); (99999999999993827, (-17))];
  [(24515457238247995, (-10)); (24170311645685416, (-17)); (99999999999999423, (-17)); ((-7078279744199198), (-23)); (80562171469761338, (-24)); (70782794778573375, (-24)); (99999999999999689, (-17)); (33060414542221364, (-24)); ((-80562173809869717), (-24)); ((-33060408839805517), (-24)); (99999999999999623, (-17)); (99999999999979228, (-17)); ((-59109048096715569), (-23)); ((-25685542581610096), (-23)); (59109048096798663, (-23)); (99999999999982536, (-17)); (31588208549949481, (-28)); (25685542581418894, (-23)); ((-33106295482809855), (-28)); (99999999999996692, (-17)); (9999999999997653, (-16)); ((-66187326991738569), (-23)); ((-17629327388805172), (-23)); (66187327574628971, (-23)); (9999999999997804, (-16)); (33063620982603272, (-24)); (17629325200408608, (-23)); ((-33063737650298285), (-24)); (99999999999998379, (-17))];
  [(24515457833051528, (-10)); (70758192432882616, (-19)); (99999999999999423, (-17)); ((-7078279744199198), (-23)); (80562171469761338, (-24)); (70782794778573375, (-24)); (99999999999999689, (-17)); (33060414542221364, (-24)); ((-80562173809869717), (-24)); ((-33060408839805517), (-24)); (99999999999999623, (-17)); (99999999999986089, (-17)); ((-48386655682488468), (-23)); ((-21026180390420347), (-23)); (48386655682544139, (-23)); (99999999999988298, (-17)); (25970999421030924, (-28)); (21026180390292223, (-23)); ((-26987856394100618), (-28)); (99999999999997791, (-17)); (99999999999983791, (-17)); ((-55464934731552413), (-23)); ((-12969964843128149), (-23)); (55464935160379455, (-23)); (99999999999984568, (-17)); (33063050623500118, (-24)); (12969963009286203, (-23)); ((-33063122508362873), (-24)); (99999999999999112, (-17))];
  [(24515458496729592, (-10)); (13884571079026053, (-17)); (99999999999999423, (-17)); ((-7078279744199198), (-23)); (80562171469761338, (-24)); (70782794778573375, (-24)); (99999999999999689, (-17)); (33060414542221364, (-24)); ((-80562173809869717), (-24)); ((-33060408839805517), (-24)); (99999999999999623, (-17)); (9999999999997824, (-16)); ((-60516528473197517), (-23)); ((-26297156163666154), (-23)); (60516528473284613, (-23)); (99999999999981704, (-17)); (32321678256469149, (-28)); (26297156163465741, (-23)); ((-33913427621712344), (-28)); (99999999999996547, (-17)); (99999999999975497, (-17)); ((-67594807348000252), (-23)); ((-18240941017393192), (-23)); (67594807951114275, (-23)); (99999999999977107, (-17)); (33063695463470399, (-24)); (18240938782454891, (-23)); ((-33063818796429332), (-24)); (9999999999999829, (-16))];
  [(24515454757120837, (-10)); (72845429863491151, (-17)); (99999999999999423, (-17)); ((-7078279744199198), (-23)); (80562171469761338, (-24)); (70782794778573375, (-24)); (99999999999999689, (-17)); (33060414542221364, (-24)); ((-80562173809869717), (-24)); ((-33060408839805517), (-24)); (99999999999999623, (-17)); (99999999999967693, (-17)); ((-73718354047699836), (-23)); ((-32033943643629792), (-23)); (73718354047829072, (-23)); (99999999999972822, (-17)); (39161303779158504, (-28)); (32033943643332399, (-23)); ((-41522896232493167), (-28)); (99999999999994871, (-17)); (99999999999964473, (-17)); ((-80796632732841232), (-23)); ((-23977728933815483), (-23)); (80796633525652509, (-23)); (99999999999967293, (-17)); (33064390061697088, (-24)); (23977726262316263, (-23)); ((-33064583803948512), (-24)); (99999999999997069, (-17))];
  [(24515457029314619, (-10)); (52227589207509317, (-17)); (99999999999999423, (-17)); ((-7078279744199198), (-23)); (80562171469761338, (-24)); (70782794778573375, (-24)); (99999999999999689, (-17)); (33060414542221364, (-24)); ((-80562173809869717), (-24)); ((-33060408839805517), (-24)); (99999999999999623, (-17)); (9999999999996656, (-16)); ((-75006469900040285), (-23)); ((-32593687962932692), (-23)); (75006469900174084, (-23)); (99999999999971878, (-17)); (39824297393402574, (-28)); (32593687962624817, (-23)); ((-42268966105041272), (-28)); (99999999999994693, (-17)); (99999999999963307, (-17)); ((-82084748566676234), (-23)); ((-24537473295704118), (-23)); (82084749377996917, (-23)); (9999999999996626, (-16)); (33064457398792297, (-24)); (24537470581608162, (-23)); ((-33064658807138399), (-24)); (99999999999996947, (-17))];
  [(24515451056793644, (-10)); (21135934325133743, (-17)); (99999999999999423, (-17)); ((-7078279744199198), (-23)); (80562171469761338, (-24)); (70782794778573375, (-24)); (99999999999999689, (-17)); (33060414542221364, (-24)); ((-80562173809869717), (-24)); ((-33060408839805517), (-24)); (99999999999999623, (-17)); (99999999999997768, (-17)); ((-19408922112626248), (-23)); ((-84340505557744466), (-24)); (19408922112635208, (-23)); (99999999999998135, (-17)); (1054027681871726, (-27)); (84340505557538306, (-24)); ((-10703660180411134), (-28)); (99999999999999656, (-17)); (99999999999996492, (-17)); ((-26487201577992069), (-23)); ((-37783405046547241), (-25)); (26487201590483809, (-23)); (99999999999996447, (-17)); (33061484206151729, (-24)); (37783317475926081, (-25)); ((-33061485175680364), (-24)); (99999999999999956, (-17))];
  [(24515451758283474, (-10)); (90601630418720092, (-17)); (99999999999999423, (-17)); ((-7078279744199198), (-23)); (80562171469761338, (-24)); (70782794778573375, (-24)); (99999999999999689, (-17)); (33060414542221364, (-24)); ((-80562173809869717), (-24)); ((-33060408839805517), (-24)); (99999999999999623, (-17)); (99999999999973921, (-17)); ((-66229889938739478), (-23)); ((-28779868906359564), (-23)); (6622988993884379, (-22)); (99999999999978073, (-17)); (35290579480466719, (-28)); (28779868906119525, (-23)); ((-37196912217041245), (-28)); (99999999999995859, (-17)); (99999999999970979, (-17)); ((-73308168731462401), (-23)); ((-20723653948973035), (-23)); (73308169416670763, (-23)); (99999999999973077, (-17)); (3306399695639966, (-23)); (20723651525106396, (-23)); ((-33064148902222165), (-24)); (99999999999997802, (-17))];
  [(24515450550127123, (-10)); (78230590021424629, (-17)); (99999999999999423, (-17)); ((-7078279744199198), (-23)); (80562171469761338, (-24)); (70782794778573375, (-24)); (99999999999999689, (-17)); (33060414542221364, (-24)); ((-80562173809869717), (-24)); ((-33060408839805517), (-24)); (99999999999999623, (-17)); (99999999999984379, (-17)); ((-5126015029168433), (-22)); ((-22274843155751069), (-23)); (5126015029174682, (-22)); (99999999999986855, (-17)); (27481742528197214, (-28)); (22274843155607271, (-23)); ((-28622659797861161), (-28)); (99999999999997513, (-17)); (9999999999998197, (-16)); ((-58338429299466844), (-23)); ((-14218627703457927), (-23)); (58338429769580792, (-23)); (99999999999982914, (-17)); (33063204012760011, (-24)); (14218625774600109, (-23)); ((-33063286872541591), (-24)); (99999999999998934, (-17))];
  [(24515457140240003, (-10)); (62855460658209905, (-17)); (99999999999999423, (-17)); ((-7078279744199198), (-23)); (80562171469761338, (-24)); (70782794778573375, (-24)); (99999999999999689, (-17)); (33060414542221364, (-24)); ((-80562173809869717), (-24)); ((-33060408839805517), (-24)); (99999999999999623, (-17)); (99999999999959843, (-17)); ((-82191868701326945), (-23)); ((-35716067169568976), (-23)); (82191868701487585, (-23)); (99999999999966227, (-17)); (43511360844623627, (-28)); (35716067169199283, (-23)); ((-46446735346705736), (-28)); (99999999999993616, (-17)); (99999999999956324, (-17)); ((-89270147264735265), (-23)); ((-27659852739893196), (-23)); (89270148179306998, (-23)); (99999999999960099, (-17)); (33064831893848856, (-24)); (27659849788179743, (-23)); ((-33065078794169552), (-24)); (99999999999996114, (-17))];
  [(2451545756855363, (-9)); (49788718245203001, (-17)); (99999999999999423, (-17)); ((-7078279744199198), (-23)); (80562171469761338, (-24)); (70782794778573375, (-24)); (99999999999999689, (-17)); (33060414542221364, (-24)); ((-80562173809869717), (-24)); ((-33060408839805517), (-24)); (99999999999999623, (-17)); (99999999999964928, (-17)); ((-76814596885019714), (-23)); ((-333794005258663), (-21)); (76814596885160025, (-23)); (99999999999970501, (-17)); (4075438210304451, (-27)); (33379400525543395, (-23)); ((-43318681974824358), (-28)); (99999999999994427, (-17)); (99999999999961597, (-17)); ((-83892875525679555), (-23)); ((-25323185918415282), (-23)); (83892876362982, (-20)); (9999999999996475, (-16)); (33064551863929168, (-24)); (2532318314452602, (-22)); ((-33064764334874624), (-24)); (99999999999996736, (-17))];
  [(24515454652984659, (-10)); (40935730647535384, (-17)); (99999999999999423, (-17)); ((-7078279744199198), (-23)); (80562171469761338, (-24)); (70782794778573375, (-24)); (99999999999999689, (-17)); (33060414542221364, (-24)); ((-80562173809869717), (-24)); ((-33060408839805517), (-24)); (99999999999999623, (-17)); (99999999999982958, (-17)); ((-53545909158837581), (-23)); ((-2326810828156995), (-22)); (53545909158905757, (-23)); (99999999999985656, (-17)); (28679356239067389, (-28)); (23268108281413051, (-23)); ((-29924951405746469), (-28)); (99999999999997291, (-17)); (99999999999980471, (-17)); ((-60624188133782236), (-23)); ((-15211892904845054), (-23)); (60624188636738669, (-23)); (99999999999981559, (-17)); (33063325615587677, (-24)); (1521189090040498, (-22)); ((-33063417804763151), (-24)); (9999999999999879, (-16))];
  [(24515456492167437, (-10)); (61667866374293656, (-17)); (99999999999999423, (-17)); ((-7078279744199198), (-23)); (80562171469761338, (-24)); (70782794778573375, (-24)); (99999999999999689, (-17)); (33060414542221364, (-24)); ((-80562173809869717), (-24)); ((-33060408839805517), (-24)); (99999999999999623, (-17)); (99999999999964295, (-17)); ((-77497368505621941), (-23)); ((-3367609552797072), (-22)); (77497368505764762, (-23)); (99999999999969957, (-17)); (41105317330205484, (-28)); (3367609552764205, (-22)); ((-43715586706127851), (-28)); (99999999999994327, (-17)); (99999999999960942, (-17)); ((-84575647136472887), (-23)); ((-25619880943092462), (-23)); (84575647983586409, (-23)); (99999999999964162, (-17)); (3306458750750735, (-23)); (25619878146624394, (-23)); ((-33064804235356742), (-24)); (99999999999996658, (-17))];
  [(24515458524479303, (-10)); (29319029928096596, (-17)); (99999999999999423, (-17)); ((-7078279744199198), (-23)); (80562171469761338, (-24)); (70782794778573375, (-24)); (99999999999999689, (-17)); (33060414542221364, (-24)); ((-80562173809869717), (-24)); ((-33060408839805517), (-24)); (99999999999999623, (-17)); (99999999999970757, (-17)); ((-70135295097485474), (-23)); ((-3047694324516493), (-22)); (7013529509760246, (-22)); (99999999999975397, (-17)); (37313380206306161, (-28)); (30476943244895737, (-23)); ((-39450664957030313), (-28)); (99999999999995359, (-17)); (9999999999996767, (-16)); ((-77213573834102174), (-23)); ((-22420728416892965), (-23)); (77213574575427591, (-23)); (99999999999970124, (-17)); (3306420238275056, (-23)); (22420725863881038, (-23)); ((-33064375478732687), (-24)); (99999999999997435, (-17))];
  [(24515458955989536, (-10)); (29340759031711128, (-17)); (99999999999999423, (-17)); ((-7078279744199198), (-23)); (80562171469761338, (-24)); (70782794778573375, (-24)); (99999999999999689, (-17)); (33060414542221364, (-24)); ((-80562173809869717), (-24)); ((-33060408839805517), (-24)); (99999999999999623, (-17)); (99999999999968503, (-17)); ((-72790277689414445), (-23)); ((-31630652690606273), (-23)); (72790277689540452, (-23)); (9999999999997351, (-16)); (38682662469498954, (-28)); (31630652690316323, (-23)); ((-40985548288574591), (-28)); (99999999999994993, (-17)); (99999999999965328, (-17)); ((-79868556387888881), (-23)); ((-23574437950109309), (-23)); (79868557167364333, (-23)); (99999999999968048, (-17)); (33064341449887882, (-24)); (23574435309300563, (-23)); ((-33064529783693541), (-24)); (99999999999997169, (-17))];
  [(24515455133905113, (-10)); (29989948272055478, (-17)); (99999999999999423, (-17)); ((-7078279744199198), (-23)); (80562171469761338, (-24)); (70782794778573375, (-24)); (99999999999999689, (-17)); (33060414542221364, (-24)); ((-80562173809869717), (-24)); ((-33060408839805517), (-24)); (99999999999999623, (-17)); (99999999999985267, (-17)); ((-4978913246852252), (-22)); ((-21635619690202294), (-23)); (49789132468581474, (-23)); (9999999999998761, (-16)); (26707769292563898, (-28)); (21635619690066636, (-23)); ((-27785551637293793), (-28)); (99999999999997657, (-17)); (99999999999982914, (-17)); ((-56867411497438082), (-23)); ((-13579404189276624), (-23)); (56867411946416133, (-23)); (9999999999998378, (-16)); (33063125430352797, (-24)); (13579402309060061, (-23)); ((-33063202709265329), (-24)); (99999999999999023, (-17))];
  [(24515454437821005, (-10)); (23798842534239184, (-17)); (99999999999999423, (-17)); ((-7078279744199198), (-23)); (80562171469761338, (-24)); (70782794778573375, (-24)); (99999999999999689, (-17)); (33060414542221364, (-24)); ((-80562173809869717), (-24)); ((-33060408839805517), (-24)); (99999999999999623, (-17)); (99999999999989653, (-17)); ((-41737588357950997), (-23)); ((-18136861306963446), (-23)); (41737588357992422, (-23)); (99999999999991285, (-17)); (22461543767253535, (-28)); (18136861306868115, (-23)); ((-23219204337010524), (-28)); (99999999999998346, (-17)); (99999999999987588, (-17)); ((-48815867502537283), (-23)); ((-1008064553985005), (-22)); (48815867835830803, (-23)); (99999999999988021, (-17)); (3306269432130271, (-23)); (10080643925864736, (-23)); ((-33062743598016468), (-24)); (99999999999999434, (-17))];
  [(24515459644658831, (-10)); (82510882903090443, (-17)); (99999999999999423, (-17)); ((-7078279744199198), (-23)); (80562171469761338, (-24)); (70782794778573375, (-24)); (99999999999999689, (-17)); (33060414542221364, (-24)); ((-80562173809869717), (-24)); ((-33060408839805517), (-24)); (99999999999999623, (-17)); (99999999999928657, (-17)); ((-10955670644343074), (-22)); ((-47607320813389642), (-23)); (10955670644371619, (-22)); (99999999999939992, (-17)); (57346625913366612, (-28)); (476073208127328, (-21)); ((-62562177660652196), (-28)); (99999999999988665, (-17)); (99999999999924161, (-17)); ((-11663498461370706), (-22)); ((-39551107288409206), (-23)); (11663498592152244, (-22)); (99999999999931932, (-17)); (33066237466054567, (-24)); (39551103431702184, (-23)); ((-33066698755361295), (-24)); (99999999999992117, (-17))];
  [(24515455188459083, (-10)); (78149754865250243, (-17)); (99999999999999423, (-17)); ((-7078279744199198), (-23)); (80562171469761338, (-24)); (70782794778573375, (-24)); (99999999999999689, (-17)); (33060414542221364, (-24)); ((-80562173809869717), (-24)); ((-33060408839805517), (-24)); (99999999999999623, (-17)); (9999999999996233, (-16)); ((-79606257760972097), (-23)); ((-34592502834266479), (-23)); (79606257761122795, (-23)); (99999999999968314, (-17)); (42187003956936069, (-28)); (34592502833919682, (-23)); ((-44940717813801712), (-28)); (99999999999994016, (-17)); (999999999999589, (-15)); ((-86684536361526104), (-23)); ((-26536288319109129), (-23)); (86684537238943447, (-23)); (99999999999962363, (-17)); (33064697375136464, (-24)); (2653628545290118, (-22)); ((-33064927397126128), (-24)); (99999999999996425, (-17))];
  [(24515456787387929, (-10)); (91465910443128906, (-18)); (99999999999999423, (-17)); ((-7078279744199198), (-23)); (80562171469761338, (-24)); (70782794778573375, (-24)); (99999999999999689, (-17)); (33060414542221364, (-24)); ((-80562173809869717), (-24)); ((-33060408839805517), (-24)); (99999999999999623, (-17)); (99999999999986788, (-17)); ((-47151476437324437), (-23)); ((-20489439403166972), (-23)); (47151476437377308, (-23)); (99999999999988887, (-17)); (25320291402845848, (-28)); (20489439403045304, (-23)); ((-26286750554049831), (-28)); (99999999999997902, (-17)); (99999999999984523, (-17)); ((-54229755504133309), (-23)); ((-12433223815039183), (-23)); (5422975591521319, (-22)); (99999999999985234, (-17)); (3306298455761127, (-23)); (12433222022039777, (-23)); ((-33063052017858617), (-24)); (99999999999999178, (-17))];
  [(24515451540975804, (-10)); (51484268232524932, (-17)); (99999999999999423, (-17)); ((-7078279744199198), (-23)); (80562171469761338, (-24)); (70782794778573375, (-24)); (99999999999999689, (-17)); (33060414542221364, (-24)); ((-80562173809869717), (-24)); ((-33060408839805517), (-24)); (99999999999999623, (-17)); (9999999999999003, (-16)); ((-40952127233801595), (-23)); ((-17795543087664565), (-23)); (40952127233841474, (-23)); (99999999999991607, (-17)); (22045700669705826, (-28)); (17795543087572791, (-23)); ((-22774560015648149), (-28)); (99999999999998412, (-17)); (99999999999987987, (-17)); ((-48030406389672032), (-23)); ((-97393272945834706), (-24)); (48030406711680226, (-23)); (99999999999988398, (-17)); (33062652104208529, (-24)); (97393257065697248, (-24)); ((-33062698891989776), (-24)); (99999999999999467, (-17))];
  [(24515456570734056, (-10)); (12452973050875937, (-17)); (99999999999999423, (-17)); ((-7078279744199198), (-23)); (80562171469761338, (-24)); (70782794778573375, (-24)); (99999999999999689, (-17)); (33060414542221364, (-24)); ((-80562173809869717), (-24)); ((-33060408839805517), (-24)); (99999999999999623, (-17)); (99999999999986389, (-17)); ((-47849281753395903), (-23)); ((-20792667226797971), (-23)); (47849281753450346, (-23)); (99999999999988565, (-17)); (25687841133492352, (-28)); (20792667226672677, (-23)); ((-26683100173841012), (-28)); (99999999999997835, (-17)); (99999999999984102, (-17)); ((-54927560810179908), (-23)); ((-12736451661739945), (-23)); (54927561231285895, (-23)); (99999999999984868, (-17)); (33063021874751346, (-24)); (12736449845666874, (-23)); ((-33063091867453709), (-24)); (99999999999999134, (-17))];
  [(24515450547216553, (-10)); (65617401042188994, (-17)); (99999999999999423, (-17)); ((-7078279744199198), (-23)); (80562171469761338, (-24)); (70782794778573375, (-24)); (99999999999999689, (-17)); (33060414542221364, (-24)); ((-80562173809869717), (-24)); ((-33060408839805517), (-24)); (99999999999999623, (-17)); (99999999999988742, (-17)); ((-43520612210191273), (-23)); ((-18911665440665972), (-23)); (43520612210236314, (-23)); (99999999999990541, (-17)); (23404274255460007, (-28)); (18911665440562325, (-23)); ((-24227286843370166), (-28)); (99999999999998224, (-17)); (99999999999986611, (-17)); ((-50598891329162139), (-23)); ((-10855449732500155), (-23)); (50598891688073875, (-23)); (99999999999987155, (-17)); (33062790030794017, (-24)); (10855448059558238, (-23)); ((-33062844954695109), (-24)); (99999999999999367, (-17))];
  [(24515451011074916, (-10)); (90035983214731807, (-17)); (99999999999999423, (-17)); ((-7078279744199198), (-23)); (80562171469761338, (-24)); (70782794778573375, (-24)); (99999999999999689, (-17)); (33060414542221364, (-24)); ((-80562173809869717), (-24)); ((-33060408839805517), (-24)); (99999999999999623, (-17)); (99999999999977662, (-17)); ((-61309237410018449), (-23)); ((-26641623880752732), (-23)); (61309237410107832, (-23)); (99999999999981215, (-17)); (32734777236536091, (-28)); (2664162388054703, (-22)); ((-34367508838784033), (-28)); (99999999999996447, (-17)); (99999999999974887, (-17)); ((-683875162734329), (-21)); ((-18585408760687101), (-23)); (68387516887937113, (-23)); (99999999999976563, (-17)); (33063737411991779, (-24)); (18585406499535865, (-23)); ((-33063864448374893), (-24)); (99999999999998213, (-17))];
  [(24515454988668836, (-10)); (78989605535772833, (-18)); (99999999999999423, (-17)); ((-7078279744199198), (-23)); (80562171469761338, (-24)); (70782794778573375, (-24)); (99999999999999689, (-17)); (33060414542221364, (-24)); ((-80562173809869717), (-24)); ((-33060408839805517), (-24)); (99999999999999623, (-17)); (99999999999992562, (-17)); ((-35376032461083386), (-23)); ((-15372478873863698), (-23)); (35376032461113144, (-23)); (99999999999993749, (-17)); (1908764337445863, (-27)); (1537247887379521, (-22)); ((-19631518632934331), (-28)); (99999999999998812, (-17)); (99999999999990719, (-17)); ((-4245431169706151), (-22)); ((-73162628964344038), (-24)); (42454311938954452, (-23)); (99999999999990929, (-17)); (33062351806256673, (-24)); (73162614927943474, (-24)); ((-33062382872739005), (-24)); (99999999999999678, (-17))];
  [(24515450207270272, (-10)); (43944731968638762, (-17)); (99999999999999423, (-17)); ((-7078279744199198), (-23)); (80562171469761338, (-24)); (70782794778573375, (-24)); (99999999999999689, (-17)); (33060414542221364, (-24)); ((-80562173809869717), (-24)); ((-33060408839805517), (-24)); (99999999999999623, (-17)); (99999999999995282, (-17)); ((-28171601296246061), (-23)); ((-12241829180968933), (-23)); (28171601296264939, (-23)); (99999999999996025, (-17)); (15244151190966518, (-28)); (12241829180925501, (-23)); ((-15589751711786448), (-28)); (99999999999999256, (-17)); (99999999999993694, (-17)); ((-35249880635724962), (-23)); ((-41856129653579508), (-24)); (35249880774109552, (-23)); (99999999999993716, (-17)); (33061961652992885, (-24)); (41856117999274826, (-24)); ((-33061976480085603), (-24)); (99999999999999867, (-17))];
  [(24515451593003906, (-10)); (28035231722355269, (-17)); (99999999999999423, (-17)); ((-7078279744199198), (-23)); (80562171469761338, (-24)); (70782794778573375, (-24)); (99999999999999689, (-17)); (33060414542221364, (-24)); ((-80562173809869717), (-24)); ((-33060408839805517), (-24)); (99999999999999623, (-17)); (99999999999995692, (-17)); ((-26915278689444534), (-23)); ((-11695900446160462), (-23)); (26915278689461761, (-23)); (99999999999996381, (-17)); (14571842341813517, (-28)); (11695900446120818, (-23)); ((-14886425425686411), (-28)); (99999999999999312, (-17)); (99999999999994149, (-17)); ((-33993558046972092), (-23)); ((-36396841890149026), (-24)); (33993558167306945, (-23)); (9999999999999416, (-16)); (33061893409987317, (-24)); (36396830651232967, (-24)); ((-33061905761033382), (-24)); (99999999999999878, (-17))];
  [(24515450818850487, (-10)); (92757063830222497, (-17)); (99999999999999423, (-17)); ((-7078279744199198), (-23)); (80562171469761338, (-24)); (70782794778573375, (-24)); (99999999999999689, (-17)); (33060414542221364, (-24)); ((-80562173809869717), (-24)); ((-33060408839805517), (-24)); (99999999999999623, (-17)); (99999999999977296, (-17)); ((-61798280283542905), (-23)); ((-26854135023652439), (-23)); (61798280283633707, (-23)); (99999999999980893, (-17)); (3298907816648928, (-27)); (26854135023443444, (-23)); ((-34649505487038823), (-28)); (99999999999996392, (-17)); (99999999999974509, (-17)); ((-68876559139931631), (-23)); ((-18797919919754796), (-23)); (68876559761462755, (-23)); (99999999999976208, (-17)); (33063763236068219, (-24)); (18797917642432083, (-23)); ((-3306389279846103), (-23)); (99999999999998179, (-17))];
  [(24515457881046492, (-10)); (99091766850308494, (-17)); (99999999999999423, (-17)); ((-7078279744199198), (-23)); (80562171469761338, (-24)); (70782794778573375, (-24)); (99999999999999689, (-17)); (33060414542221364, (-24)); ((-80562173809869717), (-24)); ((-33060408839805517), (-24)); (99999999999999623, (-17)); (99999999999929501, (-17)); ((-1089106950806123), (-21)); ((-47326599802100413), (-23)); (10891069508089437, (-22)); (99999999999940692, (-17)); (57023410696497945, (-28)); (47326599801451295, (-23)); ((-62178040494131892), (-28)); (99999999999988798, (-17)); (99999999999925027, (-17)); ((-11598897326016944), (-22)); ((-39270386255762508), (-23)); (11598897455870094, (-22)); (99999999999932676, (-17)); (33066204624092332, (-24)); (39270382420420934, (-23)); ((-33066660142942499), (-24)); (99999999999992228, (-17))];
  [(24515450859426679, (-10)); (63635126035220912, (-17)); (99999999999999423, (-17)); ((-7078279744199198), (-23)); (80562171469761338, (-24)); (70782794778573375, (-24)); (99999999999999689, (-17)); (33060414542221364, (-24)); ((-80562173809869717), (-24)); ((-33060408839805517), (-24)); (99999999999999623, (-17)); (99999999999988376, (-17)); ((-44218407104246632), (-23)); ((-19214888735969606), (-23)); (44218407104293129, (-23)); (9999999999999023, (-16)); (23773484281728654, (-28)); (19214888735862607, (-23)); ((-24623081351649034), (-28)); (99999999999998157, (-17)); (99999999999986211, (-17)); ((-51296686213192799), (-23)); ((-11158673050873207), (-23)); (51296686582130366, (-23)); (99999999999986788, (-17)); (33062827513955264, (-24)); (11158671354858245, (-23)); ((-33062884748775847), (-24)); (99999999999999323, (-17))];
  [(24515450564585072, (-10)); (86297852820261278, (-17)); (99999999999999423, (-17)); ((-7078279744199198), (-23)); (80562171469761338, (-24)); (70782794778573375, (-24)); (99999999999999689, (-17)); (33060414542221364, (-24)); ((-80562173809869717), (-24)); ((-33060408839805517), (-24)); (99999999999999623, (-17)); (99999999999981171, (-17)); ((-56287391619672465), (-23)); ((-24459405822778108), (-23)); (56287391619747819, (-23)); (99999999999984168, (-17)); (30114063755079009, (-28)); (24459405822604726, (-23)); ((-31490920981980253), (-28)); (99999999999997014, (-17)); (99999999999978573, (-17)); ((-63365670555232195), (-23)); ((-16403190536687903), (-23)); (6336567109757945, (-22)); (99999999999979872, (-17)); (33063471294936592, (-24)); (16403188441595564, (-23)); ((-33063575244954409), (-24)); (99999999999998601, (-17))];
  [(24515458026275006, (-10)); (13865497711308727, (-17)); (99999999999999423, (-17)); ((-7078279744199198), (-23)); (80562171469761338, (-24)); (70782794778573375, (-24)); (99999999999999689, (-17)); (33060414542221364, (-24)); ((-80562173809869717), (-24)); ((-33060408839805517), (-24)); (99999999999999623, (-17)); (9999999999998026, (-16)); ((-57624756691387046), (-23)); ((-25040551149400899), (-23)); (57624756691466011, (-23)); (99999999999983402, (-17)); (30813655723412663, (-28)); (25040551149219179, (-23)); ((-32256974868971611), (-28)); (99999999999996858, (-17)); (99999999999977629, (-17)); ((-64703035607733804), (-23)); ((-16984335907524607), (-23)); (64703036169297018, (-23)); (99999999999979017, (-17)); (33063542331543509, (-24)); (16984333768209485, (-23)); ((-33063652261693971), (-24)); (99999999999998501, (-17))];
  [(24515459414247964, (-10)); (3828129517416845, (-17)); (99999999999999423, (-17)); ((-7078279744199198), (-23)); (80562171469761338, (-24)); (70782794778573375, (-24)); (99999999999999689, (-17)); (33060414542221364, (-24)); ((-80562173809869717), (-24)); ((-33060408839805517), (-24)); (99999999999999623, (-17)); (99999999999978617, (-17)); ((-59977027627248216), (-23)); ((-2606271876023177), (-22)); (59977027627333756, (-23)); (99999999999982014, (-17)); (32041282311620591, (-28)); (26062718760034909, (-23)); ((-33604230509354238), (-28)); (99999999999996592, (-17)); (99999999999975897, (-17)); ((-67055306509801567), (-23)); ((-18006503596122655), (-23)); (67055307105163661, (-23)); (99999999999977462, (-17)); (33063666989242417, (-24)); (18006501379024279, (-23)); ((-33063787710776758), (-24)); (99999999999998312, (-17))];
  [(24515453686517347, (-10)); (98305787368818209, (-17)); (99999999999999423, (-17)); ((-7078279744199198), (-23)); (80562171469761338, (-24)); (70782794778573375, (-24)); (99999999999999689, (-17)); (33060414542221364, (-24)); ((-80562173809869717), (-24)); ((-33060408839805517), (-24)); (99999999999999623, (-17)); (99999999999959299, (-17)); ((-82750863218036909), (-23)); ((-35958975447975048), (-23)); (82750863218199741, (-23)); (99999999999965761, (-17)); (43797334943007829, (-28)); (35958975447600315, (-23)); ((-4677258580443322), (-27)); (99999999999993539, (-17)); (99999999999955758, (-17)); ((-89829141773414541), (-23)); ((-27902761036779895), (-23)); (898291426960189, (-21)); (99999999999959588, (-17)); (33064860941596659, (-24)); (27902758066580547, (-23)); ((-33065111551152577), (-24)); (99999999999996059, (-17))];
  [(2451545873617046, (-9)); (4911038636858055, (-16)); (99999999999999423, (-17)); ((-7078279744199198), (-23)); (80562171469761338, (-24)); (70782794778573375, (-24)); (99999999999999689, (-17)); (33060414542221364, (-24)); ((-80562173809869717), (-24)); ((-33060408839805517), (-24)); (99999999999999623, (-17)); (999999999999585, (-15)); ((-83547407406432523), (-23)); ((-36305109750965794), (-23)); (8354740740659851, (-22)); (99999999999965095, (-17)); (44204363380357137, (-28)); (36305109750583804, (-23)); ((-4723776925175116), (-27)); (99999999999993405, (-17)); (99999999999954925, (-17)); ((-9062568595036675), (-22)); ((-28248895366104791), (-23)); (90625686884417277, (-23)); (99999999999958866, (-17)); (33064902286153472, (-24)); (28248892369563713, (-23)); ((-33065158314500808), (-24)); (99999999999995948, (-17))];
  [(2451545295529916, (-9)); (39878156714321455, (-17)); (99999999999999423, (-17)); ((-7078279744199198), (-23)); (80562171469761338, (-24)); (70782794778573375, (-24)); (99999999999999689, (-17)); (33060414542221364, (-24)); ((-80562173809869717), (-24)); ((-33060408839805517), (-24)); (99999999999999623, (-17)); (99999999999989264, (-17)); ((-42505338350841543), (-23)); ((-18470483242269333), (-23)); (42505338350884504, (-23)); (99999999999990963, (-17)); (22868504810115694, (-28)); (18470483242170465, (-23)); ((-2365330153963896), (-27)); (99999999999998301, (-17)); (99999999999987166, (-17)); ((-49583617484398121), (-23)); ((-10414267500538102), (-23)); (49583617828722541, (-23)); (99999999999987643, (-17)); (33062735635922957, (-24)); (10414265861166782, (-23)); ((-3306278724388366), (-23)); (99999999999999412, (-17))];
  [(24515452951578493, (-10)); (25561801612626112, (-18)); (99999999999999423, (-17)); ((-7078279744199198), (-23)); (80562171469761338, (-24)); (70782794778573375, (-24)); (99999999999999689, (-17)); (33060414542221364, (-24)); ((-80562173809869717), (-24)); ((-33060408839805517), (-24)); (99999999999999623, (-17)); (99999999999997713, (-17)); ((-19634267282755474), (-23)); ((-85319731780475854), (-24)); (1963426728276464, (-22)); (99999999999998079, (-17)); (10660744764350397, (-28)); (85319731780264903, (-24)); ((-10828560270681464), (-28)); (99999999999999645, (-17)); (99999999999996436, (-17)); ((-26712546744883927), (-23)); ((-4757566801886193), (-24)); (26712546760613138, (-23)); (99999999999996381, (-17)); (33061496434489236, (-24)); (47575579703183443, (-25)); ((-33061497735001759), (-24)); (99999999999999956, (-17))];
  [(24515452145766863, (-10)); (8770935314332573, (-16)); (99999999999999423, (-17)); ((-7078279744199198), (-23)); (80562171469761338, (-24)); (70782794778573375, (-24)); (99999999999999689, (-17)); (33060414542221364, (-24)); ((-80562173809869717), (-24)); ((-33060408839805517), (-24)); (99999999999999623, (-17)); (99999999999973443, (-17)); ((-66831405289349341), (-23)); ((-29041254402921743), (-23)); (66831405289455548, (-23)); (99999999999977651, (-17)); (35603186838218287, (-28)); (29041254402677321, (-23)); ((-37543856912236606), (-28)); (99999999999995781, (-17)); (99999999999970479, (-17)); ((-73909684073430707), (-23)); ((-209850394654216), (-21)); (73909684767282246, (-23)); (99999999999972611, (-17)); (33064028701729117, (-24)); (20985037021663943, (-23)); ((-33064183781707622), (-24)); (99999999999997746, (-17))];
  [(24515451375275222, (-10)); (97935580510032927, (-18)); (99999999999999423, (-17)); ((-7078279744199198), (-23)); (80562171469761338, (-24)); (70782794778573375, (-24)); (99999999999999689, (-17)); (33060414542221364, (-24)); ((-80562173809869717), (-24)); ((-33060408839805517), (-24)); (99999999999999623, (-17)); (99999999999998757, (-17)); ((-14414911828446792), (-23)); ((-62639282363384797), (-24)); (14414911828451732, (-23)); (99999999999998945, (-17)); (78428220377726879, (-29)); (62639282363271083, (-24)); ((-79336537339713686), (-29)); (99999999999999789, (-17)); (99999999999997657, (-17)); ((-21493191365557829), (-23)); (17922884340746171, (-24)); (21493191306302593, (-23)); (99999999999997613, (-17)); (33061210437390776, (-24)); ((-17922891446654975), (-24)); ((-33061206638962474), (-24)); (99999999999999911, (-17))];
  [(24515453025708399, (-10)); (5937062677743794, (-16)); (99999999999999423, (-17)); ((-7078279744199198), (-23)); (80562171469761338, (-24)); (70782794778573375, (-24)); (99999999999999689, (-17)); (33060414542221364, (-24)); ((-80562173809869717), (-24)); ((-33060408839805517), (-24)); (99999999999999623, (-17)); (99999999999982103, (-17)); ((-54869554527431942), (-23)); ((-23843291780308591), (-23)); (54869554527503538, (-23)); (99999999999984945, (-17)); (29372833193338399, (-28)); (23843291780143843, (-23)); ((-30680458174003888), (-28)); (99999999999997158, (-17)); (99999999999979561, (-17)); ((-61947833483360729), (-23)); ((-15787076447344027), (-23)); (61947834005335826, (-23)); (99999999999980749, (-17)); (3306339602964032, (-23)); (15787074399135245, (-23)); ((-33063493762570903), (-24)); (99999999999998701, (-17))];
  [(24515453334422391, (-10)); (13390047346808742, (-17)); (99999999999999423, (-17)); ((-7078279744199198), (-23)); (80562171469761338, (-24)); (70782794778573375, (-24)); (99999999999999689, (-17)); (33060414542221364, (-24)); ((-80562173809869717), (-24)); ((-33060408839805517), (-24)); (99999999999999623, (-17)); (99999999999995137, (-17)); ((-28610444403434346), (-23)); ((-12432526268560948), (-23)); (28610444403453806, (-23)); (99999999999995903, (-17)); (15478433023851895, (-28)); (12432526268516153, (-23)); ((-15834000777203983), (-28)); (99999999999999223, (-17)); (99999999999993539, (-17)); ((-35688723736608711), (-23)); ((-43763100674583099), (-24)); (35688723881298222, (-23)); (99999999999993572, (-17)); (33061985434717671, (-24)); (43763088875179648, (-24)); ((-33062001039972867), (-24)); (99999999999999845, (-17))];
  [(24515456320175789, (-10)); (71928960373040085, (-18)); (99999999999999423, (-17)); ((-7078279744199198), (-23)); (80562171469761338, (-24)); (70782794778573375, (-24)); (99999999999999689, (-17)); (33060414542221364, (-24)); ((-80562173809869717), (-24)); ((-33060408839805517), (-24)); (99999999999999623, (-17)); (99999999999988964, (-17)); ((-43095190796789477), (-23)); ((-18726800684565297), (-23)); (43095190796833634, (-23)); (99999999999990707, (-17)); (2317997256887788, (-27)); (18726800684463664, (-23)); ((-2398692355853882), (-27)); (99999999999998235, (-17)); (99999999999986844, (-17)); ((-50173469921872083), (-23)); ((-10670584962334854), (-23)); (50173470274671385, (-23)); (99999999999987343, (-17)); (33062767257896689, (-24)); (10670583303459748, (-23)); ((-33062820787514184), (-24)); (99999999999999367, (-17))];
  [(24515454817016064, (-10)); (67980322990168507, (-17)); (99999999999999423, (-17)); ((-7078279744199198), (-23)); (80562171469761338, (-24)); (70782794778573375, (-24)); (99999999999999689, (-17)); (33060414542221364, (-24)); ((-80562173809869717), (-24)); ((-33060408839805517), (-24)); (99999999999999623, (-17)); (99999999999969935, (-17)); ((-71106639393500062), (-23)); ((-30899036065257027), (-23)); (71106639393620298, (-23)); (99999999999974709, (-17)); (37814227192798686, (-28)); (30899036064980334, (-23)); ((-40011882695978329), (-28)); (99999999999995226, (-17)); (99999999999966815, (-17)); ((-78184918116162137), (-23)); ((-22842821269098175), (-23)); (78184918871444973, (-23)); (99999999999969369, (-17)); (33064253249985034, (-24)); (22842818683965246, (-23)); ((-33064431899275642), (-24)); (99999999999997335, (-17))]
].
