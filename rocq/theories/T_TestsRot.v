(** * Reference matrices of crates/tofas/src/test_data.rs

    Generated by tools/gen_tables.py from crates/tofas/src/test_data.rs:2-1003, 2006-6007; every literal is the exact
    decimal (mantissa, exponent of ten) of the source. *)

From Coq Require Import ZArith List.
Import ListNotations.
Open Scope Z_scope.

(** test_data.rs:2-1003 [POM00_DATA] *)
Definition POM00_DATA : list (list (Z * Z)) := [
  [(82747445866574354, (-17)); (17849900940203989, (-17)); (95800646936708678, (-17)); (38922675304714216, (-17)); (5536026404576363, (-16)); (73622459289996023, (-17)); ((-72986585622176869), (-17)); (67294743543979807, (-17)); ((-12015648570369888), (-17)); ((-56195939945341555), (-17)); ((-49057707408044654), (-17)); (66598481045187863, (-17))];
  [(1178263518827779, (-16)); (56292419642929636, (-17)); (57721900855783581, (-17)); (83217330700147263, (-17)); (54191204587189579, (-17)); (117553909561397, (-15)); ((-40892375944398396), (-17)); (74291476954673974, (-17)); ((-52996132326002188), (-17)); ((-37452496055193907), (-17)); (39294908032498427, (-17)); (83983455167986354, (-17))];
  [(9243692829913388, (-16)); (45283105254310962, (-17)); (65635596713629296, (-17)); (47718507248914255, (-17)); (36756725271966029, (-17)); (79824101706292516, (-17)); ((-27205383114541648), (-17)); (92549351126652457, (-17)); ((-26353078295079785), (-17)); ((-83563216761481418), (-17)); ((-91411571103885647), (-18)); (54162976756792669, (-17))];
  [(90199996742341093, (-17)); (22237726496307275, (-17)); (74322693768007653, (-17)); (4565300723507949, (-16)); (4195622672820683, (-16)); (78456854188305836, (-17)); ((-53260074923691891), (-17)); (83524605718442191, (-17)); ((-13674964669113346), (-17)); ((-71268277301450933), (-17)); ((-35543146713678514), (-17)); (60477412082309034, (-17))];
  [(94124112794558845, (-17)); (70645354955677986, (-17)); (16901376160388337, (-17)); (58039576996200815, (-17)); (99039717804010829, (-18)); (80828948063642991, (-17)); (38926461870459017, (-17)); (83808890534401215, (-17)); ((-38220419066782274), (-17)); ((-71527184121491716), (-17)); (53646819200822815, (-17)); (44787059752616604, (-17))];
  [(72704547125067243, (-17)); (35041347942925016, (-17)); (52608750196492771, (-17)); (64611174269331428, (-17)); (3751798718492706, (-16)); (6646650883813392, (-16)); ((-27432151663909515), (-17)); (92680310972406377, (-17)); ((-25648333535462264), (-17)); ((-71224105572666563), (-17)); ((-1661504032405825), (-17)); (70173828381555103, (-17))];
  [(32755320670095345, (-18)); (46964369750789692, (-17)); (92088216096162223, (-17)); (60479348241238562, (-17)); (79570868806184658, (-17)); (32749463726818091, (-18)); ((-70096911899384229), (-17)); (55140152344763227, (-17)); ((-45232582742601246), (-17)); ((-37797769490870209), (-17)); (25060734961793341, (-17)); (89125126561984691, (-17))];
  [(78157638791107276, (-17)); (99969283980267021, (-17)); (11867396289549936, (-17)); (70481161155171879, (-17)); (84037673067103191, (-18)); (70439922041931291, (-17)); (52444641022542027, (-17)); (6069216749752262, (-16)); ((-5971616558746351), (-16)); ((-47769923071273546), (-17)); (7903061115483877, (-16)); (38369218786121784, (-17))];
  [(65095716327712705, (-17)); (90489365514481201, (-17)); (45101404080174534, (-17)); (71595818289955526, (-17)); (34674308591844616, (-17)); (6059481105729434, (-16)); (15957412561365264, (-17)); (7636887468053406, (-16)); ((-62555223318083253), (-17)); ((-6796616649288123), (-16)); (54456288008883014, (-17)); (49143798271557443, (-17))];
  [(93451066823944839, (-17)); (9675874533324913, (-16)); (15997851535943319, (-17)); (58662440253841386, (-17)); (9465619813127682, (-17)); (80430840757869826, (-17)); (56353847546115476, (-17)); (66555663415808897, (-17)); ((-48934522926362872), (-17)); ((-58163235554890391), (-17)); (74032058655928812, (-17)); (3370893532806179, (-16))];
  [(214208064347016, (-15)); (12297249989197334, (-17)); (20660978328136825, (-17)); (95636314113012988, (-17)); (20045443813875458, (-17)); (21257365904125414, (-17)); ((-17807349535823103), (-17)); (97669010831500358, (-17)); ((-11985934494451758), (-17)); ((-23164492772045159), (-17)); (76775325138373651, (-18)); (96976604235830188, (-17))];
  [(99212653805594575, (-17)); (33143172297170553, (-17)); (59144513472125215, (-17)); (45401021538083342, (-17)); (30493626524502832, (-17)); (83719089726791884, (-17)); ((-30107213212070172), (-17)); (93684826105828278, (-17)); ((-17796321814455404), (-17)); ((-83858827537125991), (-17)); ((-17125772943282042), (-17)); (51714649232047472, (-17))];
  [(75090303675187364, (-17)); (900340997270907, (-15)); (35899435917334221, (-17)); (6844675675928541, (-16)); (25684999108416562, (-17)); (68229922394326803, (-17)); (28222884577976709, (-17)); (76955794075598072, (-17)); ((-57282410426695118), (-17)); ((-67219865183094663), (-17)); (5846440437560948, (-16)); (45424697530878433, (-17))];
  [(11543850640369513, (-17)); (65753627522137958, (-17)); (47359349485299629, (-17)); (88401201344671698, (-17)); (4530516535332304, (-16)); (11518228732182477, (-17)); ((-29834549668792509), (-17)); (7364905913650438, (-16)); ((-60710095819130727), (-17)); ((-35987876387460943), (-17)); (50232042369544749, (-17)); (78623245115583296, (-17))];
  [(49940282400126357, (-17)); (8248692206687861, (-16)); (95081413183803209, (-17)); (51005986359589772, (-17)); (71448751000752753, (-17)); (47890138190631432, (-17)); ((-3479836935732683), (-16)); (68058334744374216, (-17)); ((-64475860303634291), (-17)); ((-78660427443260184), (-17)); (16221561338389695, (-17)); (59576825210718143, (-17))];
  [(66063897998948706, (-17)); (11100195145690639, (-17)); (43901611176554556, (-18)); (78883950440671413, (-17)); (34653591280925815, (-18)); (61362151600046111, (-17)); (24290493519224229, (-18)); (99587119858657858, (-17)); ((-87467295318445146), (-18)); ((-61411905052030602), (-17)); (83902827348463743, (-18)); (78474078991152973, (-17))];
  [(17758310381791564, (-17)); (5279751919894643, (-16)); (18429964694009082, (-17)); (96760468241962527, (-17)); (18037608047461806, (-17)); (17665120478567389, (-17)); ((-70816487183183008), (-18)); (86550874682384193, (-17)); ((-49586251553677313), (-17)); ((-24233489988577805), (-17)); (46728907409015741, (-17)); (85024391649297515, (-17))];
  [(48033922945456464, (-17)); (61218650415226117, (-18)); (16825521864890747, (-17)); (87431469480942359, (-17)); (14851211260436881, (-17)); (46208004376957418, (-17)); ((-13927772793778276), (-17)); (98876583572181787, (-17)); ((-54257134183663694), (-18)); ((-46494680226967178), (-17)); ((-16919648906593643), (-18)); (88517692951188254, (-17))];
  [(52925541639858631, (-17)); (9334943373600979, (-17)); (19250831391169332, (-17)); (84723802941084658, (-17)); (16514548968719894, (-17)); (50489076913328546, (-17)); ((-14429500527227207), (-17)); (98625809436457024, (-17)); ((-80460690736789617), (-18)); ((-51124032799995367), (-17)); ((-46838591291357146), (-19)); (85942503366504164, (-17))];
  [(47994070878984352, (-17)); (64018604136766322, (-17)); (14606019262652803, (-17)); (87757742912006131, (-17)); (12909848092984363, (-17)); (46172658372745923, (-17)); (1561511470588422, (-16)); (83358700089461113, (-17)); ((-52985802929816528), (-17)); ((-45329314485356098), (-17)); (53709058282670941, (-17)); (71137826131224591, (-17))];
  [(13633466662560834, (-17)); (18109546376058139, (-17)); (40418282397618532, (-17)); (91089256732809942, (-17)); (38961835820168339, (-17)); (13591271367553706, (-17)); ((-36432999353020834), (-17)); (91401545714564969, (-17)); ((-17843598267476055), (-17)); ((-19374825573589605), (-17)); (11301893226824344, (-17)); (974519540259837, (-15))];
  [(58605482532668096, (-17)); (55177994848756506, (-17)); (11639789617731311, (-17)); (82749170475885181, (-17)); (96755652419647453, (-18)); (55307849558641986, (-17)); (18906413223034846, (-17)); (87950104698423071, (-17)); ((-43672950696927648), (-17)); ((-52868916431044277), (-17)); (4659573500638125, (-16)); (70948679724307429, (-17))];
  [(48166480701211445, (-17)); (62656611505294679, (-17)); (85364346057059715, (-17)); (58246380584695923, (-17)); (66793003002621565, (-17)); (46325521029714745, (-17)); ((-43198397560116986), (-17)); (73712340060302839, (-17)); ((-51965270816886455), (-17)); ((-68856790493173836), (-17)); (10256006665659839, (-17)); (71788277108822607, (-17))];
  [(84677875750188003, (-17)); (14992424183346464, (-17)); (34472015519454091, (-17)); (62343083388884202, (-17)); (22384694744519104, (-17)); (74915054526852798, (-17)); ((-22882977401419471), (-17)); (96842561603696131, (-17)); ((-98938166184968937), (-18)); ((-74764358479242998), (-17)); ((-10974684652827998), (-17)); (65496923576288879, (-17))];
  [(82376425732904124, (-17)); (76048453005344108, (-17)); (43117723535643271, (-17)); (617275770608821, (-15)); (28397564479538395, (-17)); (733708699813715, (-15)); (15663961572043905, (-17)); (86955472261822497, (-17)); ((-46833600668675357), (-17)); ((-77099588442885958), (-17)); (40402031822098705, (-17)); (49227322561599157, (-17))];
  [(49992867405871122, (-17)); (77569372458217201, (-17)); (24135841421242721, (-17)); (85217831395280741, (-17)); (20976961201219513, (-17)); (4793629429824583, (-16)); (15528000740427994, (-17)); (77347044723605674, (-17)); ((-61451736066036511), (-17)); ((-49968013821751733), (-17)); (59811384963793268, (-17)); (62656171471150013, (-17))];
  [(21852212740176502, (-17)); (67482058404796663, (-17)); (63050583703409824, (-17)); (78852069946916858, (-17)); (57553318357207683, (-17)); (21678713318839596, (-17)); ((-3509362108091682), (-16)); (71053922121268598, (-17)); ((-60989982051265823), (-17)); ((-50505334614430208), (-17)); (40484017800344341, (-17)); (76225031834862744, (-17))];
  [(62494438100677729, (-17)); (98623747587338417, (-17)); (27117056199528167, (-17)); (78136026582542106, (-17)); (21723281699693564, (-17)); (5850521670832467, (-16)); (32226515459214455, (-17)); (66235713819632591, (-17)); ((-67633437855551493), (-17)); ((-53443550137030438), (-17)); (71700273688455973, (-17)); (44753298222044186, (-17))];
  [(22456606243074917, (-17)); (3727679118639925, (-16)); (97453904772014299, (-17)); (54744948223497014, (-17)); (80666671797222123, (-17)); (22268334135401316, (-17)); ((-72507498604708476), (-17)); (59008961128344417, (-17)); ((-35505001797517721), (-17)); ((-41781015905490249), (-17)); (32909827882848325, (-18)); (9079381114477123, (-16))];
  [(29069957421567927, (-17)); (97971117249926754, (-17)); (69782251263333983, (-17)); (73409434189168998, (-17)); (61559160934938206, (-17)); (28662251778470665, (-17)); ((-17570875525794005), (-17)); (57992114676065043, (-17)); ((-7954985209700377), (-16)); ((-65592067396013054), (-17)); (53360887739846485, (-17)); (53388166800634584, (-17))];
  [(79607702507330702, (-17)); (4446333760961011, (-16)); (55284920899813561, (-17)); (59530995743913961, (-17)); (36732547521791942, (-17)); (71461741500591736, (-17)); ((-21246952531690716), (-17)); (92969223343262897, (-17)); ((-30088046115801237), (-17)); ((-77489531898535691), (-17)); (27282711576742447, (-18)); (63150051327263568, (-17))];
  [(37769602070215569, (-17)); (15370673777501564, (-17)); (82971257230883166, (-17)); (62750545834808258, (-17)); (68573924533232622, (-17)); (36877986272899244, (-17)); ((-69092356064207494), (-17)); (70878218928078229, (-17)); ((-14231107303375318), (-17)); ((-3589728862923211), (-16)); ((-16549772073775837), (-17)); (91855809361061491, (-17))];
  [(11863956218169402, (-17)); (44632114896756103, (-17)); (47334329129909281, (-17)); (88379264624760745, (-17)); (45266005717937441, (-17)); (11836144250986853, (-17)); ((-36573532112158663), (-17)); (82615145367450282, (-17)); ((-42861573755007626), (-17)); ((-29180170205593625), (-17)); (3355184767279909, (-16)); (89570035081571076, (-17))];
  [(110331247879209, (-15)); (56775101681180895, (-17)); (61700330434562578, (-17)); (81065677869451025, (-17)); (57507557472640669, (-17)); (11010754065790811, (-17)); ((-43952773819456692), (-17)); (72191391374991121, (-17)); ((-53446764962142856), (-17)); ((-38684745638844265), (-17)); (3848745048549968, (-16)); (83798607446568762, (-17))];
  [(8212293903172363, (-17)); (15972804623168924, (-17)); (57437355775373788, (-19)); (99661336656813393, (-17)); (5724346600427567, (-18)); (82030661546330555, (-18)); (73761486415299541, (-19)); (98732922666592704, (-17)); ((-15851369216089994), (-17)); ((-81898656942275411), (-18)); (15858193474434806, (-17)); (98394328086724125, (-17))];
  [(79360566783812536, (-18)); (25975438846236476, (-17)); (46434914369696467, (-17)); (89129910542652979, (-17)); (44643142365521765, (-17)); (79277289554092564, (-18)); ((-41461149398219671), (-17)); (87323736190546719, (-17)); ((-25603480003747758), (-17)); ((-18352987147524175), (-17)); (19533431277058269, (-17)); (96341127901365442, (-17))];
  [(42135310309924234, (-18)); (19303193048663503, (-17)); (80567342058074964, (-17)); (69201090828272471, (-17)); (72065703969180217, (-17)); (42122843688035247, (-18)); ((-70230379754045213), (-17)); (68559015138951096, (-17)); ((-19166512535661534), (-17)); ((-16700382863269336), (-17)); (10305132439884365, (-17)); (98055603907255928, (-17))];
  [(20611968666096281, (-17)); (6747405298230873, (-16)); (66015896555967468, (-17)); (77317461192315406, (-17)); (60026157957933091, (-17)); (2046632735944747, (-16)); ((-37787236309299926), (-17)); (69520869405038688, (-17)); ((-61147146207101777), (-17)); ((-50932651284612385), (-17)); (39543761555734952, (-17)); (76433997377758878, (-17))];
  [(74307923107502916, (-17)); (7118656612020231, (-16)); (86008589572982186, (-17)); (48039968916506171, (-17)); (55810802118185188, (-17)); (6765586266855147, (-16)); ((-28551608850524729), (-17)); (8289011556482766, (-16)); ((-48104411166712702), (-17)); ((-82927480478715609), (-17)); (3792506898384107, (-17)); (55755267669323849, (-17))];
  [(44202704752846389, (-17)); (2973776257028351, (-16)); (11994249696359394, (-17)); (89739244990993672, (-17)); (10815463412838512, (-17)); (42777256335720837, (-17)); (10039563611054347, (-18)); (96423699646439287, (-17)); ((-26485132020026969), (-17)); ((-44111902929610874), (-17)); (24197022495728959, (-17)); (8642131752218184, (-16))];
  [(20859577542886032, (-18)); (57101605061510607, (-17)); (76558624057031688, (-17)); (72081938959790792, (-17)); (6928090275906833, (-16)); (20858064832366466, (-18)); ((-57489533306688134), (-17)); (61440707359371416, (-17)); ((-5403695993816896), (-16)); ((-3871882792616777), (-16)); (37751768065464164, (-17)); (84116920842094611, (-17))];
  [(4241373940170895, (-16)); (83445904747596933, (-17)); (42438480732205763, (-17)); (83054631769302434, (-17)); (37527583811612447, (-17)); (4115347609774882, (-16)); (13416976371818934, (-19)); (73755820104778735, (-17)); ((-67528223722722203), (-17)); ((-5569479455155647), (-16)); (56140533074899823, (-17)); (61207274125923927, (-17))];
  [(83346542541042201, (-17)); (13020793037709422, (-18)); (10505206053018745, (-17)); (66860806771365422, (-17)); (70498184005547568, (-18)); (74026566706833941, (-17)); ((-95264616435897786), (-18)); (99541349372399091, (-17)); ((-87538201672030334), (-19)); ((-73748756236531532), (-17)); ((-64668250046822917), (-18)); (67225747507361111, (-17))];
  [(70979340208114072, (-17)); (51945982867576235, (-17)); (52509644730960847, (-17)); (65630853545078072, (-17)); (38023162444638314, (-17)); (65167708112631673, (-17)); ((-15525263047055449), (-17)); (91330422596228256, (-17)); ((-37652624287213932), (-17)); ((-73834661712939731), (-17)); (14594280595596509, (-17)); (65844131884570756, (-17))];
  [(76108742464436252, (-17)); (11285604934016991, (-17)); (15995430782024922, (-17)); (7148431516754874, (-16)); (11532748918638976, (-17)); (68970924217427987, (-17)); ((-81578675221612953), (-18)); (99332545857325061, (-17)); ((-81544178819387039), (-18)); ((-69451003466598171), (-17)); (20257315233597611, (-19)); (71948016523046177, (-17))];
  [(59855372753568592, (-17)); (15289611465840758, (-17)); (45919960195081222, (-17)); (74056832937583261, (-17)); (36617570837666674, (-17)); (56344822310513565, (-17)); ((-36113597723176682), (-17)); (92398549081463222, (-17)); ((-1258237605259839), (-16)); ((-56669158761564931), (-17)); ((-11030033254206303), (-17)); (81651361358324281, (-17))];
  [(74672876692462342, (-17)); (97876494159666183, (-17)); (23527212743590264, (-17)); (71369608953836128, (-17)); (17108112395040245, (-17)); (67924159237013626, (-17)); (41802766476861103, (-17)); (67406307287943212, (-17)); ((-60900890409618746), (-17)); ((-56204160278911131), (-17)); (71858905001969275, (-17)); (40955953648528604, (-17))];
  [(49092051560984606, (-17)); (44212229389989588, (-18)); (48814578624188598, (-17)); (77889694407375376, (-17)); (41360109591453187, (-17)); (47143788983371482, (-17)); ((-45012784304081221), (-17)); (89211301862508463, (-17)); ((-38978031236391965), (-18)); ((-43669723542975802), (-17)); ((-18184745106252509), (-17)); (88103747315881453, (-17))];
  [(92425429179402685, (-17)); (203802088937871, (-15)); (64040234792096096, (-17)); (48306172659748875, (-17)); (35996281568532429, (-17)); (79817174819743297, (-17)); ((-45561597140982635), (-17)); (88178657898108703, (-17)); ((-12192832207945581), (-17)); ((-747706797409876), (-15)); ((-30476089062201606), (-17)); (58996215527298201, (-17))];
  [(26978738353029708, (-17)); (93882623278387245, (-17)); (79576883312626201, (-17)); (67442458714094411, (-17)); (68856015855152575, (-17)); (2665265170958882, (-16)); ((-27154364594437941), (-17)); (56699154505680394, (-17)); ((-77767900587667393), (-17)); ((-68659706131544185), (-17)); (45211226027348117, (-17)); (56936717459246233, (-17))];
  [(7406461071917454, (-16)); (56299303717466698, (-17)); (9999911093613193, (-16)); (39876631386466244, (-17)); (62102959326506124, (-17)); (67476490069936379, (-17)); ((-51701088661499206), (-17)); (75996084440149492, (-17)); ((-39390259976058378), (-17)); ((-75742007502334485), (-17)); ((-19178571183901977), (-17)); (62412584523157766, (-17))];
  [(47679206352716985, (-17)); (23838607462957895, (-17)); (13821783500106188, (-17)); (8799984596717968, (-16)); (12241200309259934, (-17)); (45893138100823122, (-17)); ((-26545753981444875), (-18)); (9773841211340728, (-16)); ((-20979895781564947), (-17)); ((-4742341551605298), (-16)); (17244008018391055, (-17)); (86334604002412907, (-17))];
  [(44151909507536158, (-17)); (93148586053511506, (-17)); (8108407876921353, (-17)); (90113313272994722, (-17)); (73228102808297363, (-18)); (42731337687393878, (-17)); (29347026067896032, (-17)); (62245701770567108, (-17)); ((-72554976893799994), (-17)); ((-31911484326701967), (-17)); (77922070433739077, (-17)); (53942637193467491, (-17))];
  [(91861348314004632, (-17)); (66559139420984215, (-17)); (77627774714151987, (-17)); (43305535584992388, (-17)); (42522724421823654, (-17)); (79476087570052156, (-17)); ((-20089293402581337), (-17)); (90508276221121997, (-17)); ((-37478957110171601), (-17)); ((-87869510515775384), (-17)); (26427869138914706, (-19)); (47737608638172452, (-17))];
  [(48825609554552107, (-17)); (47641275746801237, (-17)); (57032226006983244, (-17)); (74337311425841623, (-17)); (47681683851507106, (-17)); (46908646911442275, (-17)); ((-29871013113253753), (-17)); (86414134923566288, (-17)); ((-40500862472291904), (-17)); ((-59847194634044953), (-17)); (16095164196012626, (-17)); (78480946629982329, (-17))];
  [(61605211353394407, (-17)); (21678857223447645, (-17)); (77546332934295648, (-17)); (5828214728333373, (-16)); (57135454832560484, (-17)); (57781754119447049, (-17)); ((-59490940835790118), (-17)); (78438766717084873, (-17)); ((-17555279387559136), (-17)); ((-55353584044001303), (-17)); ((-2414331536842402), (-16)); (7970621717598011, (-16))];
  [(35114033731511629, (-17)); (64116368949223557, (-17)); (98828046794978963, (-17)); (51655849146172239, (-17)); (78412549960659272, (-17)); (34396878603370534, (-17)); ((-55605265671617998), (-17)); (61267915758408176, (-17)); ((-56163127834989546), (-17)); ((-65113191279315097), (-17)); (98850648600659591, (-18)); (75249968864682004, (-17))];
  [(81011564897302135, (-17)); (52173718218411069, (-17)); (26622676410603208, (-17)); (66512691330486595, (-17)); (18138018053582217, (-17)); (72436690931207903, (-17)); (12020690209701068, (-17)); (93139282302599258, (-17)); ((-34359527049118654), (-17)); ((-73699151276373653), (-17)); (31560836383794477, (-17)); (59769128384957615, (-17))];
  [(54873450658230105, (-17)); (49637371394651764, (-17)); (2873046884893643, (-16)); (81821419035353726, (-17)); (24176577267868801, (-17)); (52160794651268727, (-17)); ((-10941684359362686), (-18)); (9136648910129247, (-16)); ((-40632098945749862), (-17)); ((-574809375573751), (-15)); (32675032990253822, (-17)); (7502189038281406, (-16))];
  [(18464691368301045, (-17)); (65492215172926305, (-17)); (86064605424959517, (-17)); (64086535546421919, (-17)); (74537429133688804, (-17)); (18359946072837982, (-17)); ((-52846828645340216), (-17)); (6018533406633545, (-16)); ((-59874353987777196), (-17)); ((-55678799051229977), (-17)); (28668749911077762, (-17)); (77961362961077274, (-17))];
  [(65575487906870067, (-17)); (86356499321887714, (-18)); (40600901042127013, (-17)); (72815392350085606, (-17)); (31302936044946328, (-17)); (60975772499158176, (-17)); ((-34515852363520194), (-17)); (93605154445112593, (-17)); ((-68360073819660958), (-18)); ((-59216337040742151), (-17)); ((-16068642017065957), (-17)); (78963435659833148, (-17))];
  [(35308099777614654, (-17)); (9492238016693918, (-16)); (95555165916306539, (-17)); (54155447717433203, (-17)); (76625567594374611, (-17)); (34579038063027218, (-17)); ((-31328873600391172), (-17)); (56565516473288346, (-17)); ((-76281347818722089), (-17)); ((-78010827206581213), (-17)); (30477282309124476, (-17)); (54639235917011664, (-17))];
  [(19356347043939015, (-17)); (95980194546840147, (-17)); (58569457695451665, (-17)); (81776594022906357, (-17)); (54245519577065626, (-17)); (19235703153951644, (-17)); ((-18582371236158188), (-17)); (5651588650031597, (-16)); ((-80378169003312105), (-17)); ((-54472783564403582), (-17)); (62156079178931423, (-17)); (56296870888603134, (-17))];
  [(85528631417636647, (-17)); (88522281493173716, (-17)); (40382677797556676, (-17)); (60323624996660397, (-17)); (25776971512725294, (-17)); (75475876986587165, (-17)); (28845573535486457, (-17)); (81175738154805188, (-17)); ((-5077826722556954), (-16)); ((-74357199750065461), (-17)); (52402741098673988, (-17)); (41532632599851083, (-17))];
  [(27497749986792475, (-17)); (94130118948290276, (-17)); (31765064855939651, (-17)); (91428262553293327, (-17)); (30060156649366349, (-17)); (27152528219331939, (-17)); (24616968590531751, (-18)); (62783493147559921, (-17)); ((-77795713485798335), (-17)); ((-40432819034296741), (-17)); (71795682115332338, (-17)); (56661867023016099, (-17))];
  [(11791227126472492, (-17)); (97018288273957787, (-17)); (63042998789545579, (-17)); (80216524712095416, (-17)); (58539894706135476, (-17)); (11763923278751762, (-17)); ((-25475534680157874), (-17)); (51372330953712841, (-17)); ((-81926068776319738), (-17)); ((-54002835998434928), (-17)); (62721322850979233, (-17)); (56122449732253943, (-17))];
  [(82571781860086069, (-17)); (63141442274732451, (-17)); (19829463674132874, (-17)); (66474282244451954, (-17)); (1335702375496205, (-16)); (73503467377357923, (-17)); (26636387523210814, (-17)); (87684924059687197, (-17)); ((-40023205173501897), (-17)); ((-69797368573595087), (-17)); (4618380678393964, (-16)); (54730095296330805, (-17))];
  [(16084544465312856, (-17)); (48183618166198339, (-17)); (64134561750964614, (-17)); (79094855444372836, (-17)); (59055183200413386, (-17)); (16015279560450307, (-17)); ((-4706894168243389), (-16)); (75446229645361895, (-17)); ((-45742553068176611), (-17)); ((-3909627311048206), (-16)); (28641783629252715, (-17)); (87470736017285622, (-17))];
  [(33232752536270893, (-18)); (13781988273084644, (-17)); (2279102977312879, (-16)); (97360279518765169, (-17)); (2258175986939569, (-16)); (33226635744330484, (-18)); ((-2193531728484846), (-16)); (96593512214745403, (-17)); ((-13730814019309145), (-17)); ((-63101368955785928), (-18)); (12639522112041202, (-17)); (98997094165123234, (-17))];
  [(89272002044505228, (-17)); (79580264256205935, (-17)); (42657318397722421, (-17)); (57108339173027534, (-17)); (25954593767889822, (-17)); (77878088441115856, (-17)); (217014900605359, (-15)); (86721421535559262, (-17)); ((-44815626471179659), (-17)); ((-79168699155985323), (-17)); (42494165590062516, (-17)); (43892629959407053, (-17))];
  [(33888211300243576, (-17)); (93188839262117629, (-18)); (56343728550642347, (-17)); (7973423525464659, (-16)); (50371964371194877, (-17)); (33243299080322175, (-17)); ((-50562535960449695), (-17)); (85827785211569918, (-17)); ((-87761747319007349), (-18)); ((-32952718941005554), (-17)); ((-98110392448351583), (-18)); (93903470773616227, (-17))];
  [(54326926293214206, (-17)); (93851038922367735, (-17)); (53238591467922192, (-17)); (73754831517669506, (-17)); (43450925866856821, (-17)); (51693731429575651, (-17)); (59307472100040337, (-18)); (72086274219125046, (-17)); ((-69053568385248099), (-17)); ((-67268499799915371), (-17)); (53996167553984953, (-17)); (50590145524111374, (-17))];
  [(59115222881275864, (-17)); (31309837306572885, (-18)); (25810664481020762, (-19)); (83029630676495059, (-17)); (21430546983177592, (-19)); (55731808717198739, (-17)); (14866831112372338, (-18)); (99955158877715133, (-17)); ((-25992281657226252), (-18)); ((-55712388236832855), (-17)); (2986684934224567, (-17)); (829892132150443, (-15))];
  [(64746921892663389, (-17)); (142528982377228, (-15)); (69981902470063351, (-17)); (61014093222924648, (-17)); (51372588824207532, (-17)); (60316975601261436, (-17)); ((-57200780870406531), (-17)); (81238570356875994, (-17)); ((-1132984351995401), (-16)); ((-54821082586902592), (-17)); ((-27588979754057896), (-17)); (78952499011305444, (-17))];
  [(83689924420680262, (-17)); (97907760247756048, (-18)); (52932795402416133, (-18)); (66883048309578741, (-17)); (35436169278776818, (-18)); (74256990431117087, (-17)); (19830894019563054, (-18)); (99765740957956861, (-17)); ((-65470823680245288), (-18)); ((-743150402357585), (-15)); (5851470770524949, (-17)); (66656095629576795, (-17))];
  [(32670552789610841, (-17)); (94110447383968454, (-18)); (73041662111080152, (-17)); (7054950250487747, (-16)); (63188938347125423, (-17)); (32092456541646514, (-17)); ((-64176324677591168), (-17)); (76172092515002576, (-17)); ((-89000939749135838), (-18)); ((-30069370581884347), (-17)); ((-14316787085413804), (-17)); (94291370550863451, (-17))];
  [(68950404007401689, (-17)); (51940561879371405, (-17)); (28056472597560755, (-17)); (74139295590911691, (-17)); (21364412899613919, (-17)); (63615459683462416, (-17)); (63038331924362034, (-18)); (92160504825467349, (-17)); ((-38297559157170147), (-17)); ((-66810377460132342), (-17)); (32403753050685619, (-17)); (66980372138894706, (-17))];
  [(52624116733513937, (-17)); (49591724054325559, (-17)); (1768897151576786, (-16)); (85120818647572005, (-17)); (15216032481866759, (-17)); (50228663015034891, (-17)); (80507644312244053, (-18)); (90786599861239525, (-17)); ((-41145819686914903), (-17)); ((-51861656595601435), (-17)); (39067449893049805, (-17)); (76053290093288872, (-17))];
  [(31138378485779694, (-17)); (34910117811985364, (-17)); (49290705729169493, (-17)); (83859604202419413, (-17)); (45043348181422282, (-17)); (30637616872412304, (-17)); ((-35232432632177157), (-17)); (87741067407235518, (-17)); ((-32560417396864721), (-17)); ((-41548074249388012), (-17)); (16510659430989263, (-17)); (89449179153982328, (-17))];
  [(86606316807920691, (-17)); (91119907118476151, (-17)); (32024438296456847, (-17)); (61489390851453429, (-17)); (20393611217295601, (-17)); (76178444682436186, (-17)); (3784775843501636, (-16)); (77114919397895809, (-17)); ((-51194105009275048), (-17)); ((-69185272957196919), (-17)); (60310777045017638, (-17)); (39698969483656993, (-17))];
  [(36272807348662595, (-17)); (28798340708696479, (-17)); (24680288161726149, (-17)); (90660241234730066, (-17)); (22840861272462867, (-17)); (35482611453959462, (-17)); ((-13652040934783941), (-17)); (95438531721180531, (-17)); ((-26553878082498644), (-17)); ((-39929217843272774), (-17)); (19229709286344504, (-17)); (89643046820080485, (-17))];
  [(149430460035469, (-15)); (70972095870983409, (-18)); (11346302934614538, (-17)); (98249765778846732, (-17)); (11195801733964707, (-17)); (14887496362233327, (-17)); ((-10244549063771853), (-17)); (99226397042062708, (-17)); ((-70122282144052403), (-18)); ((-15557401418030226), (-17)); (53643409273351116, (-18)); (98636662086333748, (-17))];
  [(75263409673993897, (-17)); (65423598643640601, (-17)); (77714879751801025, (-17)); (52035073257401299, (-17)); (51183565623993676, (-17)); (68356373229650014, (-17)); ((-25988854499449887), (-17)); (85741728646317572, (-17)); ((-4441773756673868), (-16)); ((-81344517903195568), (-17)); (53477639023780776, (-18)); (57917793710923748, (-17))];
  [(34650932295522419, (-17)); (19655143387550544, (-17)); (27526285205991607, (-17)); (90515526339120045, (-17)); (25564518573942913, (-17)); (33961667827634651, (-17)); ((-20274027495173888), (-17)); (96185113810622114, (-17)); ((-18368116135374529), (-17)); ((-37361789313107047), (-17)); (97405991253208174, (-18)); (92245419550256258, (-17))];
  [(18907275895765396, (-17)); (33099099053056358, (-17)); (63212202249817895, (-17)); (79239790922039699, (-17)); (5803283598908956, (-16)); (18794825928825887, (-17)); ((-50950930895158553), (-17)); (79907366151634862, (-17)); ((-31918889009884654), (-17)); ((-33541886881155203), (-17)); (15716322145209088, (-17)); (92886700031165914, (-17))];
  [(67534060819632025, (-17)); (62496149931291156, (-18)); (65670954159604777, (-18)); (77881165716346334, (-17)); (51218956038555807, (-18)); (62516319566063749, (-17)); ((-26534946637350017), (-18)); (99845866797705352, (-17)); ((-48746127522509619), (-18)); ((-62669633737022346), (-17)); (21375380319616999, (-18)); (77897034208173721, (-17))];
  [(1812424876737988, (-16)); (54126175770177476, (-17)); (15684871947554879, (-17)); (97154599612549108, (-17)); (15364780667281894, (-17)); (18025184858180854, (-17)); ((-42149194669932014), (-18)); (86104512379628828, (-17)); ((-50677878820577182), (-17)); ((-23307042455275906), (-17)); (48476143234715618, (-17)); (84302107382172253, (-17))];
  [(51510470880325498, (-17)); (85537791226860005, (-17)); (14990563235406584, (-17)); (86048154321875547, (-17)); (12996601044070644, (-17)); (4926259736453158, (-16)); (26971297207717004, (-17)); (70411000762586073, (-17)); ((-65687442472241997), (-17)); ((-43223422640180742), (-17)); (69809593416036797, (-17)); (57082014701269479, (-17))];
  [(859555052745131, (-15)); (13552059129509531, (-17)); (41452206007310821, (-17)); (59749041510460243, (-17)); (26290661247047631, (-17)); (7575521876263237, (-16)); ((-30537789974443996), (-17)); (94813827108342663, (-17)); ((-88193861773965002), (-18)); ((-74145097087117284), (-17)); ((-17864470892312834), (-17)); (64678939831135607, (-17))];
  [(65604594107261027, (-17)); (29771401013370746, (-17)); (88455710439311996, (-18)); (78931229777234857, (-17)); (70001849819288697, (-18)); (60998839137086303, (-17)); (93777449590444109, (-18)); (96807874125384574, (-17)); ((-23244212329240471), (-17)); ((-60678817270415475), (-17)); (24067258205754871, (-17)); (75755186074096958, (-17))];
  [(34175694983815785, (-18)); (41917643809469152, (-17)); (44620812468006077, (-17)); (90156320062627582, (-17)); (43129603731355126, (-17)); (3416904262827837, (-17)); ((-38164108069659802), (-17)); (82999259766432398, (-17)); ((-40677066431486958), (-17)); ((-20379862806515181), (-17)); (35368915168556603, (-17)); (91289106862686886, (-17))];
  [(45607110481053437, (-17)); (3386599033366976, (-16)); (2373826617184398, (-16)); (87261289955531529, (-17)); (21112379671243409, (-17)); (44042419324032595, (-17)); ((-79586638395469145), (-18)); (95115870849849993, (-17)); ((-29826679036790937), (-17)); ((-48188452404966686), (-17)); (22521956777596472, (-17)); (84679599182579601, (-17))];
  [(232779122127451, (-15)); (90883283107729174, (-17)); (98743830172212566, (-17)); (53597330842018254, (-17)); (81210723498055404, (-17)); (23068257748118548, (-17)); ((-41278314429708746), (-17)); (49044325635747177, (-17)); ((-76751253284730747), (-17)); ((-73643919534835589), (-17)); (31614435181688516, (-17)); (59808867266396859, (-17))];
  [(2065155163150556, (-16)); (8717794039495308, (-16)); (30350244977434737, (-17)); (93401809490750276, (-17)); (29251394043141221, (-17)); (20505070845682877, (-17)); ((-42521529139737779), (-18)); (6609663864051909, (-16)); ((-74920982081262277), (-17)); ((-354685942694347), (-15)); (69105645984662656, (-17)); (62979270506990648, (-17))];
  [(48443474846978851, (-17)); (40521149394005407, (-17)); (23539767899170305, (-17)); (86053320932038879, (-17)); (20639391568283061, (-17)); (465708221127629, (-15)); ((-35817311007750402), (-18)); (93649227803811452, (-17)); ((-34885431544866524), (-17)); ((-50813356107319474), (-17)); (28352030746331275, (-17)); (81327518059201986, (-17))];
  [(55381708445467337, (-17)); (59663467042313878, (-17)); (89347384476722858, (-17)); (53303036482056942, (-17)); (66277318990071077, (-17)); (52593757132200303, (-17)); ((-45942770473382788), (-17)); (74870574243658272, (-17)); ((-47787644361852805), (-17)); ((-71049617472739235), (-17)); (13092363855388534, (-18)); (70357926042942798, (-17))];
  [(47965254430792237, (-17)); (10245017916231314, (-17)); (76004490464266494, (-17)); (64301467542682611, (-17)); (61120919801153317, (-17)); (46147095623866941, (-17)); ((-65113424733414837), (-17)); (75351987570053969, (-17)); ((-90730308457731598), (-18)); ((-40318273665216053), (-17)); ((-24213862391271168), (-17)); (88250357941219304, (-17))];
  [(27495677369196414, (-17)); (44949870667966918, (-17)); (19458243363251915, (-17)); (94427430070433449, (-17)); (18609378900241438, (-17)); (27150533461437709, (-17)); ((-58403200358702903), (-18)); (90647899824634781, (-17)); ((-41819241017282804), (-17)); ((-32393689388089342), (-17)); (37903156521986731, (-17)); (86683329501685402, (-17))];
  [(8248135720655777, (-16)); (9994232625642, (-13)); (95663430450417342, (-17)); (39111356491713106, (-17)); (55466709039582351, (-17)); (73442126750908054, (-17)); ((-85960226900571923), (-18)); (81651446046946341, (-17)); ((-57088963489930633), (-17)); ((-91631927772420863), (-17)); (16015166148402088, (-17)); (36702919038530479, (-17))];
  [(93373195130015862, (-17)); (70370132515218509, (-18)); (13878196244752272, (-17)); (58911898705630383, (-17)); (82288070028865623, (-18)); (80384544075380493, (-17)); ((-82017904763496297), (-18)); (99575287634601106, (-17)); ((-41824305694794055), (-18)); ((-80387305116415009), (-17)); ((-41290226199065985), (-18)); (59336602096216251, (-17))];
  [(13713297405042379, (-17)); (10599889005382179, (-17)); (90364624482153377, (-17)); (61294081891401186, (-17)); (7782131368977051, (-16)); (13670357006623565, (-17)); ((-77222986209345623), (-17)); (62663903521323372, (-17)); ((-10480724993123837), (-17)); ((-16722617199512138), (-17)); ((-41325937458953549), (-18)); (98505206679291668, (-17))];
  [(591997715921877, (-17)); (9032337465521848, (-16)); (52296171251913248, (-17)); (86632857861106405, (-17)); (49943943392725426, (-17)); (59199425805649382, (-19)); ((-30516746606869477), (-17)); (5386525838463857, (-16)); ((-78531917814912966), (-17)); ((-39540815815426139), (-17)); (67853787348536132, (-17)); (61906279383517993, (-17))];
  [(95302343203444395, (-17)); (23496180803804745, (-17)); (80404640353360779, (-17)); (40186263476801715, (-17)); (41713731313377256, (-17)); (81517046362637813, (-17)); ((-5687148646852539), (-16)); (81140615104853708, (-17)); ((-13484606307427707), (-17)); ((-71768365277700219), (-17)); ((-40940996572156807), (-17)); (56330600432138456, (-17))];
  [(17421930106781047, (-17)); (58235845754240756, (-17)); (8227927451246827, (-16)); (66988024358408793, (-17)); (72195148243066731, (-17)); (17333930965561442, (-17)); ((-54737314205616927), (-17)); (63794738437927423, (-17)); ((-54166943620551378), (-17)); ((-50164041166086271), (-17)); (26797237129936424, (-17)); (82252520059200374, (-17))];
  [(58989540896108683, (-17)); (91215046916667442, (-17)); (91444898495121052, (-19)); (83096412040797196, (-17)); (75989547780522006, (-19)); (55627411092094392, (-17)); (43429850005491072, (-17)); (61604366821391143, (-17)); ((-6571719803092666), (-16)); ((-3476829639839436), (-16)); (78767534856679977, (-17)); (50860997022818011, (-17))];
  [(11239473609621276, (-17)); (56324571638874754, (-17)); (18112772178873593, (-17)); (97743474812348297, (-17)); (17900234898046383, (-17)); (11215824633195659, (-17)); ((-93406899618217715), (-18)); (84248237416603255, (-17)); ((-53056441675189392), (-17)); ((-18946362253608423), (-17)); (50811574299468554, (-17)); (84019160163409323, (-17))];
  [(78302651614286189, (-17)); (64654584219588751, (-17)); (37747629194134835, (-17)); (65888198116129426, (-17)); (26123968546594267, (-17)); (7054277862677536, (-16)); (10086813896218116, (-17)); (89861122272066496, (-17)); ((-42699354672263823), (-17)); ((-74545298540100724), (-17)); (35249354198073912, (-17)); (56572798182394946, (-17))];
  [(93888709018307304, (-17)); (46139673392932312, (-17)); (46804559808613722, (-17)); (52715908485542262, (-17)); (26648399791257105, (-17)); (80690121954978233, (-17)); ((-83370591691471096), (-18)); (96119429894251929, (-17)); ((-26297312433291109), (-17)); ((-84566698155681075), (-17)); (71356839454473742, (-18)); (5289192355810679, (-16))];
  [(18469715285853716, (-17)); (70357969743773963, (-17)); (82684747354353716, (-18)); (97963358367739306, (-17)); (81185856021180378, (-18)); (18364884566339196, (-17)); (55428094628336089, (-18)); (76973878872254597, (-17)); ((-63594805091439655), (-17)); ((-1929916269097196), (-16)); (63317537374573862, (-17)); (74956199078173902, (-17))];
  [(89774669490861714, (-17)); (75085746021407762, (-17)); (24639511066935771, (-17)); (60454633043629935, (-17)); (15204673293713353, (-17)); (78192424528156745, (-17)); (33904480668284709, (-17)); (83914422773039121, (-17)); ((-42530645907175724), (-17)); ((-72081367454939116), (-17)); (52222481372480711, (-17)); (45575090840578131, (-17))];
  [(34194273529288599, (-17)); (62930582572010474, (-17)); (49218419074426745, (-17)); (8302797999585344, (-16)); (44519355689758988, (-17)); (33531798442327609, (-17)); ((-20809183480903742), (-17)); (80574130302504299, (-17)); ((-55450765629097865), (-17)); ((-51704278552806859), (-17)); (3906195713176418, (-16)); (76163187199394256, (-17))];
  [(32311956817627885, (-17)); (81212032978462201, (-17)); (75154511542222291, (-17)); (69282406183198764, (-17)); (64743487143273259, (-17)); (31752622978189882, (-17)); ((-3013478920185414), (-16)); (65998816522570636, (-17)); ((-68818970476024055), (-17)); ((-65512156682756806), (-17)); (38110852655757599, (-17)); (65235881511826421, (-17))];
  [(62753878612557401, (-17)); (20681970748270906, (-17)); (26060297179238423, (-17)); (78214297512220643, (-17)); (20857194597237713, (-17)); (58715424704269947, (-17)); ((-13567204372470262), (-17)); (97671005663866017, (-17)); ((-16622443205638496), (-17)); ((-60814921114685827), (-17)); (5035085514865803, (-17)); (79222429170485109, (-17))];
  [(69077809631489984, (-17)); (89944916115708273, (-17)); (92022593466621516, (-17)); (46679762782487494, (-17)); (61331582336152923, (-17)); (63713709315298772, (-17)); ((-19284739666346945), (-17)); (77370214621160249, (-17)); ((-60348560094477999), (-17)); ((-86308160463376338), (-17)); (15883541721520833, (-17)); (47943868636237391, (-17))];
  [(70414489255152291, (-17)); (29775672463878911, (-18)); (26287761590304304, (-17)); (73598213283360892, (-17)); (19805659568610243, (-17)); (64738233298022874, (-17)); ((-24113391477945614), (-17)); (97022655614661057, (-17)); ((-22690634434096631), (-18)); ((-63260156124754063), (-17)); ((-13940593478442581), (-17)); (76182757239027143, (-17))];
  [(59302401307437913, (-18)); (39496140993848683, (-18)); (94248039859514221, (-17)); (58674989919102072, (-17)); (80759637296995801, (-17)); (5926764855379011, (-17)); ((-8070120432493274), (-16)); (58921804501438657, (-17)); ((-39416462042782867), (-18)); ((-66754159794523413), (-18)); ((-24702101027907659), (-18)); (99746362758495311, (-17))];
  [(60073546405948519, (-17)); (19551045551129642, (-17)); (55997831564195566, (-17)); (69892728733987231, (-17)); (4381710251095326, (-16)); (56524932531245797, (-17)); ((-428010465301779), (-15)); (88945229085887356, (-17)); ((-16025499642150473), (-17)); ((-57298140336653358), (-17)); ((-12992603680695849), (-17)); (80920426120711608, (-17))];
  [(41471161292300407, (-17)); (31805487079837447, (-17)); (65803226961218531, (-17)); (72412939082006123, (-17)); (55972069741798636, (-17)); (40292600590243621, (-17)); ((-48119552880177707), (-17)); (82857350022854459, (-17)); ((-28621114195676611), (-17)); ((-4940521110285282), (-16)); (13367707392856365, (-18)); (86932952094548921, (-17))];
  [(50369641118718711, (-17)); (85534589445504039, (-17)); (88738844880525525, (-18)); (87235838172850677, (-17)); (77615913122543553, (-18)); (48266616191543266, (-17)); (30474936515883522, (-17)); (68566298080625643, (-17)); ((-66105529359287796), (-17)); ((-3822547295499531), (-16)); (72376933257912557, (-17)); (57449044809697158, (-17))];
  [(96659181911655323, (-17)); (76425203902513172, (-17)); (74889706669432243, (-17)); (41610486046913037, (-17)); (38678546100713324, (-17)); (82295428320622099, (-17)); ((-74380653129462848), (-18)); (91646996269373537, (-17)); ((-39312889224804881), (-17)); ((-90626942105204022), (-17)); (10237096577469051, (-17)); (4101169611615168, (-16))];
  [(73977258282749447, (-17)); (63561035921481879, (-17)); (40212753458519934, (-17)); (67970231873631559, (-17)); (28907965311524852, (-17)); (67411995376137879, (-17)); (53335040493412977, (-18)); (89714879855598695, (-17)); ((-43849675791859061), (-17)); ((-73154639727090576), (-17)); (33400147814690373, (-17)); (59437604362528051, (-17))];
  [(29843993936607693, (-17)); (38970147746632056, (-17)); (60772932923494238, (-17)); (7846578614162435, (-16)); (54576433957066595, (-17)); (29402946480018266, (-17)); ((-43648814115620721), (-17)); (82317850504917056, (-17)); ((-36311878422220406), (-17)); ((-44021601873135641), (-17)); (15658363413207491, (-17)); (88413314742424765, (-17))];
  [(91872983637128591, (-17)); (31246491590562675, (-17)); (9416004134235445, (-16)); (35711645056022856, (-17)); (49062281524784696, (-17)); (7948314877365773, (-16)); ((-62556227940386), (-14)); (75754448598645996, (-17)); ((-18654271987552068), (-17)); ((-69364232521257718), (-17)); ((-43059912321065758), (-17)); (5774467246109396, (-16))];
  [(36680683694712557, (-18)); (17927509143551468, (-17)); (39282926167124088, (-17)); (9232082828860354, (-16)); (38254620267125472, (-17)); (36672458772509416, (-18)); ((-37062738890481123), (-17)); (91152695383453008, (-17)); ((-17819638331555529), (-17)); ((-10159628440164489), (-17)); (15092055941768107, (-17)); (98331133408541282, (-17))];
  [(64680256794723812, (-17)); (85021553389999216, (-17)); (10817499768264605, (-17)); (79335020295507075, (-17)); (86156983625707784, (-18)); (60263789263841316, (-17)); (37895179984898042, (-17)); (70485443535666659, (-17)); ((-59964636107396918), (-17)); ((-47643571325244538), (-17)); (70410027633182637, (-17)); (52654706532947215, (-17))];
  [(74444213779606438, (-17)); (90715040803162506, (-18)); (69702402671184938, (-17)); (56392295002138559, (-17)); (47212408088660535, (-17)); (67756162722379432, (-17)); ((-59223510465647922), (-17)); (80300592086451328, (-17)); ((-66626360166710127), (-18)); ((-57554190746782907), (-17)); ((-36370364763569968), (-17)); (73244192223327842, (-17))];
  [(17495259047074962, (-17)); (4466657708687517, (-16)); (50477017489882225, (-17)); (86192422517550149, (-17)); (47622393996051399, (-17)); (17406145197629536, (-17)); ((-3703500839702768), (-16)); (82577470021688548, (-17)); ((-42536685318078321), (-17)); ((-34630542207539916), (-17)); (30217032198777855, (-17)); (88812479480700346, (-17))];
  [(45320454717088665, (-17)); (27236342351639353, (-17)); (79727932061179441, (-17)); (62812555036275952, (-17)); (64323145360176226, (-17)); (43784882103169409, (-17)); ((-6067933630186233), (-16)); (75717208456276586, (-17)); ((-2418517086055523), (-16)); ((-48709353062633642), (-17)); ((-11377052103352475), (-17)); (86590770926567606, (-17))];
  [(84360977966190109, (-17)); (86759390210543086, (-17)); (61491413282267482, (-18)); (66351406832020887, (-17)); (40851920455427404, (-18)); (74704765693780784, (-17)); (5290132432605732, (-16)); (68045907331738031, (-17)); ((-50707044677735003), (-17)); ((-52905015792086729), (-17)); (73164647893306722, (-17)); (42988296112866575, (-17))];
  [(66881351723117266, (-17)); (52316405201638938, (-19)); (99033212917323565, (-17)); (43026109566276299, (-17)); (65605372721228417, (-17)); (62005555926057832, (-17)); ((-8344177345196685), (-16)); (55111722650265094, (-17)); ((-41045061931591614), (-19)); ((-34441607668362806), (-17)); ((-51561934570271462), (-17)); (78454716649731249, (-17))];
  [(40557785140828873, (-17)); (74951177176145345, (-17)); (47387603512128906, (-17)); (81762027278980776, (-17)); (41931795274767253, (-17)); (39454979917194355, (-17)); ((-94870297215373378), (-18)); (77402090709910254, (-17)); ((-62601219004085618), (-17)); ((-56788794337385529), (-17)); (4744092008772417, (-16)); (67263600401229628, (-17))];
  [(89456397412510591, (-17)); (12964875491222583, (-17)); (22913016248333762, (-17)); (60950170535082593, (-17)); (14215165950232925, (-17)); (77993626462369914, (-17)); ((-12702494015903981), (-17)); (98859368527739411, (-17)); ((-80914708225718737), (-18)); ((-7825422261782603), (-16)); ((-49753704690150363), (-18)); (62060634311742091, (-17))];
  [(41668056736994818, (-17)); (70992279459739793, (-17)); (74981864915824037, (-19)); (91441173469188586, (-17)); (68565582155946979, (-19)); (40472727492375948, (-17)); (2580971301060706, (-16)); (76036881603128059, (-17)); ((-59600766357337942), (-17)); ((-31182856009157706), (-17)); (64945534967126461, (-17)); (69352051007492854, (-17))];
  [(39340381088358978, (-17)); (34037438691209132, (-17)); (11207531186030795, (-17)); (91781501147825695, (-17)); (10329726762204337, (-17)); (3833344221524948, (-16)); (21744996086032073, (-18)); (95102834964304017, (-17)); ((-30833785580180328), (-17)); ((-39641236086982151), (-17)); (29133271817126061, (-17)); (87062189696363557, (-17))];
  [(37746006548626743, (-17)); (57420046497063792, (-17)); (19826727316583981, (-17)); (91139220735349336, (-17)); (18310483738822533, (-17)); (36856052813663914, (-17)); (30884845135890432, (-18)); (86260934429039882, (-17)); ((-50492697044604407), (-17)); ((-41037832632372151), (-17)); (47156944098183423, (-17)); (7805202698302085, (-16))];
  [(58977886347156339, (-17)); (61365367513689517, (-17)); (16427485953447829, (-17)); (81987524793999655, (-17)); (13590965943639388, (-17)); (55617725797376194, (-17)); (18226788029254015, (-17)); (85892049475825272, (-17)); ((-47857497165846707), (-17)); ((-54275500700499613), (-17)); (49374502342415749, (-17)); (67943568806391441, (-17))];
  [(44100846101092706, (-17)); (14393129541943328, (-17)); (85889726166068803, (-17)); (59076871875562875, (-17)); (68468239752362825, (-17)); (42685165509943751, (-17)); ((-70929691397343608), (-17)); (69287291747225876, (-17)); ((-12971124878452384), (-17)); ((-38456496040018118), (-17)); ((-22613521343385873), (-17)); (89497075733100362, (-17))];
  [(46328535006623084, (-17)); (70876677916379083, (-17)); (60295870913423033, (-18)); (8929634514649033, (-16)); (53907353220827722, (-18)); (4468895519215148, (-16)); (24460414456932406, (-17)); (77531377435290261, (-17)); ((-58228632455018703), (-17)); ((-37786913979233155), (-17)); (62927144267587842, (-17)); (67914090189387211, (-17))];
  [(57542311548630243, (-17)); (26810853281844005, (-17)); (63694079373931412, (-17)); (67445754496722998, (-17)); (49896338827245307, (-17)); (54418981725171067, (-17)); ((-4575978928249001), (-16)); (86093558782102675, (-17)); ((-22224779437707443), (-17)); ((-5794058927202832), (-16)); ((-99123411901206882), (-18)); (80898909800693575, (-17))];
  [(18966063035737368, (-17)); (33847922065074132, (-17)); (78296012762452061, (-17)); (69611810707089994, (-17)); (69273203403468597, (-17)); (18852562168096335, (-17)); ((-62098492247589654), (-17)); (71276739760768604, (-17)); ((-32609870126262636), (-17)); ((-36027393336963998), (-17)); (10993164207694517, (-17)); (92634644005611344, (-17))];
  [(99618435612221434, (-17)); (47370277199351984, (-17)); (69678926595738599, (-17)); (41682075900997728, (-17)); (34880168689200342, (-17)); (83940326308612789, (-17)); ((-27742559137245087), (-17)); (92820288510447924, (-17)); ((-24794040682262092), (-17)); ((-86561856271107784), (-17)); ((-12952523810058658), (-17)); (48366074534222231, (-17))];
  [(39639118766366821, (-17)); (45654727272403384, (-18)); (69521502939978386, (-18)); (92023199287525437, (-17)); (6407918115169757, (-17)); (38609187744857537, (-17)); ((-5181490040380618), (-17)); (997768912233578, (-15)); ((-42100046037578907), (-18)); ((-3879282090606217), (-16)); (18736497088584717, (-18)); (92149913092301294, (-17))];
  [(98432472531714754, (-17)); (74978748944313667, (-17)); (25309285291061878, (-17)); (5357949753726462, (-16)); (13857749857561757, (-17)); (8328985660054592, (-16)); (36627318591236968, (-17)); (85064774256038234, (-17)); ((-37715032991968622), (-17)); ((-76076783426156247), (-17)); (50714366304376735, (-17)); (40501556437687875, (-17))];
  [(43084520449295227, (-18)); (23572069938618556, (-17)); (48555732975497734, (-17)); (88359424779704066, (-17)); (46626824646348874, (-17)); (43071192226885914, (-18)); ((-44489897433059872), (-17)); (86465216855609106, (-17)); ((-23332708812058292), (-17)); ((-14603461199168927), (-17)); (18700414367364265, (-17)); (97144394709593218, (-17))];
  [(46838011927756107, (-17)); (29528415917366513, (-17)); (44289748027899933, (-17)); (80620595718163801, (-17)); (3824036676349587, (-16)); (45144145753815185, (-17)); ((-29131201867112949), (-17)); (92071103594373893, (-17)); ((-2596699752939462), (-16)); ((-51494588296498733), (-17)); (77837158675912205, (-18)); (85368150638670304, (-17))];
  [(8435288335915756, (-16)); (61211366757892227, (-17)); (57643051001634216, (-17)); (55740323553098492, (-17)); (36235594399335885, (-17)); (74699384393197721, (-17)); ((-86210446187615086), (-18)); (92012791646466541, (-17)); ((-3820109635999025), (-16)); ((-82575383256011681), (-17)); (14853547453411742, (-17)); (54412114535019029, (-17))];
  [(11387571306473054, (-18)); (17160864275722298, (-17)); (98528884772358372, (-17)); (55258657188208804, (-17)); (83337771112539416, (-17)); (11387325190805167, (-18)); ((-82011512974234524), (-17)); (54612579858747856, (-17)); ((-17075651110538967), (-17)); ((-14852358244837136), (-17)); (85018837421997506, (-18)); (98524745254180379, (-17))];
  [(31566518624932893, (-17)); (57014580519939495, (-17)); (41077638515110559, (-17)); (87151151302868468, (-17)); (37959081707568204, (-17)); (31044885931545751, (-17)); ((-18253092112854966), (-17)); (8387047598753421, (-16)); ((-51308555679770196), (-17)); ((-45513750174031564), (-17)); (39049345366377242, (-17)); (80022791575608221, (-17))];
  [(89331165003444313, (-17)); (31272372442612695, (-17)); (99395139801408727, (-17)); (34186470135226954, (-17)); (52540544502086817, (-17)); (7791518749972608, (-16)); ((-66680272537245733), (-17)); (71985017020033393, (-17)); ((-192846721253989), (-15)); ((-66219532722995489), (-17)); ((-45361310695897428), (-17)); (59643314611936116, (-17))];
  [(63998562583537233, (-17)); (48984908827139839, (-17)); (18342672464866805, (-17)); (788648586519057, (-15)); (14630373343124525, (-17)); (59718391184422626, (-17)); (11530688758646152, (-17)); (91885006487131626, (-17)); ((-37738426035156936), (-17)); ((-60393520236579734), (-17)); (3664829816922705, (-16)); (70777997673947113, (-17))];
  [(96878780696449662, (-17)); (85202681346832221, (-17)); (37577263728822763, (-17)); (52678515203638465, (-17)); (20782685608970775, (-17)); (82419985530323348, (-17)); (33537534616643344, (-17)); (84016177750962839, (-17)); ((-4262060121532858), (-16)); ((-78103827100709222), (-17)); (50093531069363617, (-17)); (37288474589680137, (-17))];
  [(69031280210909063, (-17)); (53250545372463476, (-17)); (45960898633022085, (-17)); (69103226400565088, (-17)); (34203462012144348, (-17)); (63677839845711182, (-17)); ((-92436847769103658), (-18)); (91554248897950385, (-17)); ((-39145546368357986), (-17)); ((-71688900066728312), (-17)); (21164656744581239, (-17)); (66428600106480429, (-17))];
  [(67440511102370038, (-18)); (66158466378699821, (-17)); (36696856569835679, (-18)); (99705502692297909, (-17)); (36605218376298598, (-18)); (67389400318156878, (-18)); (12425971053508733, (-18)); (79000742339597285, (-17)); ((-61297134208919857), (-17)); ((-75676076345134818), (-18)); (61200353672742736, (-17)); (78722601741947373, (-17))];
  [(63076729631910944, (-17)); (6940105766753123, (-16)); (70223885873005354, (-17)); (61650127630543883, (-17)); (52163580717523106, (-17)); (5897645809866936, (-16)); ((-2085414550132656), (-16)); (83047651969230862, (-17)); ((-51654545954901265), (-17)); ((-75923424439017184), (-17)); (19546057124749167, (-17)); (6207725245473491, (-16))];
  [(74090200157749242, (-17)); (93892478441072047, (-17)); (61182335298587742, (-18)); (73647947267640934, (-17)); (45115841806016861, (-18)); (67495373704011197, (-17)); (50750180617865503, (-17)); (62285215156504736, (-17)); ((-59539660228808333), (-17)); ((-44725820624297208), (-17)); (78103761632134316, (-17)); (43582145293616903, (-17))];
  [(26232430431795228, (-17)); (88562134431017159, (-17)); (98198953198984018, (-17)); (53636987419735038, (-17)); (80315463213021654, (-17)); (25932603984423758, (-17)); ((-41472886471250736), (-17)); (51842698947167243, (-17)); ((-74781911272821389), (-17)); ((-7350560025112326), (-16)); (29355764932141526, (-17)); (61116002789538826, (-17))];
  [(13080499207609897, (-17)); (39381831014931223, (-17)); (19369311062623618, (-17)); (97291703058883805, (-17)); (19083989810116622, (-17)); (13043229999863631, (-17)); ((-12863649894563231), (-17)); (91581584230841706, (-17)); ((-38043921211664644), (-17)); ((-19205494716150406), (-17)); (35335743415083382, (-17)); (91556180621579597, (-17))];
  [(93525350428267662, (-17)); (73065202847649835, (-18)); (13112865704622345, (-17)); (58851822817366661, (-17)); (77616983255527128, (-18)); (8047495877710279, (-16)); ((-72161789828824402), (-18)); (99645112392794122, (-17)); ((-43333978716977237), (-18)); ((-80525708391545903), (-17)); ((-32569334243335163), (-18)); (5920306303485634, (-16))];
  [(45878856760052444, (-17)); (68975145303508156, (-17)); (66767740980791523, (-18)); (8945919278043879, (-16)); (59818797910444213, (-18)); (44286227444181597, (-17)); (2297188270442774, (-16)); (78848747308465994, (-17)); ((-57054076566882495), (-17)); ((-38332041846036619), (-17)); (61213496567760051, (-17)); (69163302450523034, (-17))];
  [(21801593257386842, (-18)); (28536617577090251, (-17)); (40663639472297275, (-17)); (91823812978771358, (-17)); (39542825245168417, (-17)); (21799866214480521, (-18)); ((-37389035331521164), (-17)); (88374002920447403, (-17)); ((-28144193802541478), (-17)); ((-1305555081250436), (-16)); (25027995913513001, (-17)); (95933060065523257, (-17))];
  [(57684503441719603, (-17)); (20492403058506614, (-17)); (25249658336664116, (-17)); (81161001260852006, (-17)); (20939780385970708, (-17)); (54538220283790873, (-17)); ((-13713267357440173), (-17)); (97575723215983956, (-17)); ((-17056510113767609), (-17)); ((-5678765863036922), (-16)); (6364262428986367, (-17)); (82064962017999166, (-17))];
  [(72149806448640996, (-17)); (87312625621555784, (-17)); (56049788374923359, (-21)); (75081708397102542, (-17)); (420831387089222, (-19)); (6605101851192422, (-16)); (50614008724361548, (-17)); (64246228199965083, (-17)); ((-57538198467872315), (-17)); ((-42437709469559198), (-17)); (76631730662749009, (-17)); (48235035716885077, (-17))];
  [(41522823000623055, (-17)); (82320333069274509, (-17)); (12814287830869298, (-17)); (90752192857663394, (-17)); (11693321153138342, (-17)); (40339877688647446, (-17)); (20651493888534878, (-17)); (71210526396988549, (-17)); ((-67101242391148042), (-17)); ((-36572603020529931), (-17)); (69226636280216325, (-17)); (6221026874744523, (-16))];
  [(71599554430478163, (-19)); (59688524116482033, (-17)); (58041056002811364, (-17)); (83621614794937771, (-17)); (54835325276940239, (-17)); (71598942673974037, (-19)); ((-4501839836405877), (-16)); (69385084583145396, (-17)); ((-56205460999129508), (-17)); ((-31317237231626194), (-17)); (46677587118036823, (-17)); (82706913332659981, (-17))];
  [(11249262685082861, (-18)); (9098956256492795, (-16)); (98939081617702673, (-17)); (54916430316035003, (-17)); (83563869438969551, (-17)); (11249025428551711, (-18)); ((-50809388868032956), (-17)); (34453513624447707, (-17)); ((-78938972642079686), (-17)); ((-66352028485955727), (-17)); (4277890979579595, (-16)); (6137893117741684, (-16))];
  [(82362804392311473, (-18)); (58787338964948654, (-17)); (38209113923651861, (-17)); (92474151643912272, (-17)); (37159766088894441, (-17)); (82269716152037042, (-18)); ((-26793040675295671), (-17)); (78912736988394871, (-17)); ((-55271266607274039), (-17)); ((-27030801858447862), (-17)); (48907379046715088, (-17)); (82930115312052133, (-17))];
  [(63854467766545209, (-17)); (76878157101798994, (-17)); (25601931679584566, (-17)); (77679194984238464, (-17)); (20333588993083124, (-17)); (59602750148470762, (-17)); (21887483974769714, (-17)); (80026857490090908, (-17)); ((-55826876372540135), (-17)); ((-59049815510760584), (-17)); (56411410538303763, (-17)); (57713707637129752, (-17))];
  [(86230233529710554, (-17)); (55586840360969247, (-17)); (3199938454471899, (-16)); (61766013939532771, (-17)); (20468180734347277, (-17)); (75934268281504758, (-17)); (11314945014289768, (-17)); (93236416469144756, (-17)); ((-3433573449506781), (-16)); ((-77826290810657572), (-17)); (29799735257520077, (-17)); (55272454597535936, (-17))];
  [(31429610610391079, (-17)); (22769604900242602, (-18)); (46585313854943278, (-17)); (84967288442397715, (-17)); (42718150538404037, (-17)); (30914713476347122, (-17)); ((-44278024302184188), (-17)); (89636869214568193, (-17)); ((-21652346998846574), (-18)); ((-28635929505458252), (-17)); ((-11848683133101705), (-17)); (95076770293115109, (-17))];
  [(42245053162800361, (-18)); (19182899913091844, (-17)); (63246036852414578, (-17)); (8058559326093101, (-16)); (59060361729427091, (-17)); (42232488883577057, (-18)); ((-57379360055773343), (-17)); (79654035382006128, (-17)); ((-19048456287900034), (-17)); ((-14614075351308187), (-17)); (12927038320951148, (-17)); (98078134575831655, (-17))];
  [(47164496442966719, (-18)); (34509423670406925, (-17)); (44355450535001695, (-17)); (90222751788409428, (-17)); (42867547773385895, (-17)); (47147012231467646, (-18)); ((-38944562733571109), (-17)); (85682524124044257, (-17)); ((-33790917318467661), (-17)); ((-18525012637458788), (-17)); (28650975683718899, (-17)); (93999710101430323, (-17))];
  [(57833905559366339, (-17)); (80071250891866541, (-17)); (80224382260273197, (-17)); (58205318695942654, (-17)); (60200125147435923, (-17)); (54663386354458521, (-17)); ((-22775004338356425), (-17)); (76602715313330849, (-17)); ((-60110923998992338), (-17)); ((-78060489704405489), (-17)); (22538166270968901, (-17)); (58297435691894417, (-17))];
  [(90041567982492787, (-17)); (77032856536766148, (-17)); (91713529532234694, (-17)); (37780101505045627, (-17)); (49321453361839018, (-17)); (78358523266740987, (-17)); ((-23792318708689214), (-17)); (86960414101094585, (-17)); ((-43264442095447236), (-17)); ((-89479547946626359), (-17)); ((-22979594517937463), (-18)); (44588450092207788, (-17))];
  [(40851850043713434, (-17)); (82152018188231923, (-17)); (96983326055857588, (-17)); (51890744937853361, (-17)); (75691964956625113, (-17)); (39725017694139292, (-17)); ((-39731010944913575), (-17)); (62502263851980466, (-17)); ((-67193108148623193), (-17)); ((-75688819247559946), (-17)); (19083853237290696, (-17)); (6250607319715219, (-16))];
  [(36390984436115315, (-17)); (74023723585329304, (-17)); (36981057581087862, (-17)); (87133540319567471, (-17)); (33776903622600474, (-17)); (35593074228673599, (-17)); ((-43020436026282333), (-18)); (77516361148083746, (-17)); ((-63029407225524003), (-17)); ((-48879838095265771), (-17)); (53388524385202962, (-17)); (68995846916689074, (-17))];
  [(76711132412387639, (-17)); (53272778894931239, (-17)); (63191780287876365, (-17)); (5808995378716455, (-16)); (42525109005996931, (-17)); (69405852584873318, (-17)); ((-22440546272995504), (-17)); (90330095086817364, (-17)); ((-36563585772952878), (-17)); ((-78243077342181744), (-17)); (5664717612963055, (-17)); (62015577255966525, (-17))];
  [(70527970226530123, (-18)); (97928354234088466, (-17)); (24844302805854968, (-17)); (96688671272921312, (-17)); (24528377898393169, (-17)); (70469514792269414, (-18)); ((-80414831089275399), (-18)); (55488061345334061, (-17)); ((-82803439527264067), (-17)); ((-24220557319884164), (-17)); (79494866034292189, (-17)); (55623114595500178, (-17))];
  [(12262750737391825, (-17)); (94905259060873204, (-17)); (20591699695372301, (-17)); (97152320983453366, (-17)); (2029294748104315, (-16)); (12232040306493107, (-17)); ((-21761979154708275), (-18)); (59047841003657386, (-17)); ((-80675997889331974), (-17)); ((-23594293593170951), (-17)); (78112411019878403, (-17)); (57807962725742468, (-17))];
  [(76534538144404374, (-17)); (63898687798332243, (-17)); (65646722838695515, (-17)); (5712559055581965, (-16)); (44012963667556865, (-17)); (69278610933297224, (-17)); ((-16261540524453466), (-17)); (88802583018686754, (-17)); ((-43007714993717167), (-17)); ((-8045016596266541), (-16)); (13302641783028141, (-17)); (57886185901059561, (-17))];
  [(19017112497823829, (-17)); (76622560491904546, (-17)); (87507721232891078, (-18)); (97821452624476313, (-17)); (85820495694101009, (-18)); (18902693766379566, (-17)); (67601869811064988, (-18)); (72923147825794898, (-17)); ((-68091955348320998), (-17)); ((-19628124679087788), (-17)); (67886397285210609, (-17)); (7075431990498342, (-16))];
  [(62424528377546296, (-17)); (44511886727612748, (-18)); (60331808213138105, (-18)); (8099281922301258, (-16)); (48923806465408178, (-18)); (58448505934007888, (-17)); ((-34274869147092435), (-18)); (99876005453685024, (-17)); ((-36105218549365978), (-18)); ((-58552673446717174), (-17)); (92094854624498318, (-19)); (81060078250747258, (-17))];
  [(99820366669833915, (-17)); (41764146548109993, (-17)); (97728693751551687, (-18)); (53922765414259577, (-17)); (52866428819750545, (-18)); (84049906467034174, (-17)); (25009795915699939, (-17)); (94295040410128883, (-17)); ((-21976247684880154), (-17)); ((-80416699001723324), (-17)); (3287091056071651, (-16)); (49524314842061229, (-17))];
  [(74781378518310848, (-17)); (76916381710271153, (-17)); (80517334122897366, (-17)); (50808182531657475, (-17)); (52858476415548106, (-17)); (68003750329351098, (-17)); ((-19022238422908749), (-17)); (83890772482336051, (-17)); ((-50995026597688342), (-17)); ((-84004065575493359), (-17)); (1297381067165202, (-16)); (52678242220525329, (-17))];
  [(24758183877020667, (-17)); (11679814841906777, (-17)); (62068072114923178, (-17)); (78867790807173421, (-17)); (56385515013880549, (-17)); (24506025173727822, (-17)); ((-5543955201227454), (-16)); (82454912148734649, (-17)); ((-11297943849336399), (-17)); ((-26576825353571443), (-17)); ((-46755918517233763), (-18)); (96290244547211834, (-17))];
  [(26761627295741919, (-17)); (44117905576944716, (-17)); (37820350485563359, (-17)); (8962490553035638, (-16)); (35610764264418338, (-17)); (26443331431170336, (-17)); ((-22896040380301183), (-17)); (88203899087761539, (-17)); ((-41180620692500464), (-17)); ((-37988783128422432), (-17)); (30853616550090296, (-17)); (87206116197212236, (-17))];
  [(27984452273139393, (-18)); (18196858526091841, (-17)); (6415256840495549, (-16)); (80086999830731898, (-17)); (5981841862265358, (-16)); (27980799840817357, (-18)); ((-58448136071686596), (-17)); (79098576701272039, (-17)); ((-18089515017782881), (-17)); ((-13034103262516983), (-17)); (12851924265181278, (-17)); (9831042770135876, (-16))];
  [(27712851581017206, (-17)); (11065442921456503, (-17)); (97346277378645485, (-17)); (54097988078830772, (-17)); (79529027563365384, (-17)); (27359485752626134, (-17)); ((-80478851579284183), (-17)); (58398094602721506, (-17)); ((-10621534505481646), (-17)); ((-24424621477153585), (-17)); ((-1627256346114703), (-16)); (95596242311613433, (-17))];
  [(90163287713061813, (-17)); (72749768399342918, (-17)); (39184296999773705, (-17)); (57331327145297595, (-17)); (23689930459240413, (-17)); (78434087759055482, (-17)); (19684327834864374, (-17)); (88942617151152759, (-17)); ((-412521283328879), (-15)); ((-79533930906553651), (-17)); (39089615617703666, (-17)); (46328779235068673, (-17))];
  [(28076365284560867, (-17)); (43906127347350743, (-17)); (31583044672739924, (-17)); (91331958160568327, (-17)); (29844390021986461, (-17)); (27708948063247596, (-17)); ((-16918329968435586), (-17)); (89696685400855369, (-17)); ((-40844519083704678), (-17)); ((-37043805550123116), (-17)); (32616207816291831, (-17)); (8697091156271235, (-16))];
  [(15468734006398266, (-17)); (82892514354137936, (-17)); (75204466968048866, (-17)); (7215737266319171, (-16)); (67497661328995562, (-17)); (15407118012837154, (-17)); ((-37862344105905593), (-17)); (57102816602162709, (-17)); ((-72840313253759192), (-17)); ((-57963406293551023), (-17)); (46726160244727877, (-17)); (66760088972624521, (-17))];
  [(26615422405248446, (-17)); (52453908459609677, (-17)); (73188939295498923, (-17)); (71771958397508262, (-17)); (64474606346438323, (-17)); (26302302641749059, (-17)); ((-48043743454748861), (-17)); (73192673363578442, (-17)); ((-48318022318248827), (-17)); ((-50404213143750387), (-17)); (22042180072858755, (-17)); (83507829543073686, (-17))];
  [(17664693941923515, (-17)); (11107622946933926, (-17)); (9986455102087457, (-16)); (53301590795111542, (-17)); (82765519356730821, (-17)); (17572968568830255, (-17)); ((-82501033374464106), (-17)); (55448184894517361, (-17)); ((-10912299668217393), (-17)); ((-18775513597663362), (-17)); ((-86814513483651878), (-18)); (97837173362837537, (-17))];
  [(13622214082764761, (-17)); (64272471566291389, (-17)); (98525217095626738, (-17)); (54753324961459071, (-17)); (82569084176861285, (-17)); (13580123116498494, (-17)); ((-62213327251783912), (-17)); (51021635406512922, (-17)); ((-59382612208518648), (-17)); ((-55960479965126309), (-17)); (24065308197470919, (-17)); (79305016382530524, (-17))];
  [(85527406155786045, (-17)); (4537935261417515, (-16)); (53360444444192634, (-19)); (65600234680672143, (-17)); (35004909018583126, (-19)); (75475073206159926, (-17)); (3260656429022098, (-16)); (90054328732464706, (-17)); ((-2875812653377946), (-16)); ((-68069238096429618), (-17)); (43475226763981856, (-17)); (5896171200696203, (-16))];
  [(68291644034299992, (-17)); (14807740463501839, (-17)); (32678393157811081, (-17)); (73468333528086449, (-17)); (24901020561549511, (-17)); (63105809111357869, (-17)); ((-22930878460018322), (-17)); (96660166253212776, (-17)); ((-11444958407662909), (-17)); ((-63848091448826549), (-17)); ((-60622961734440872), (-18)); (76724636091986309, (-17))];
  [(40055186518668018, (-18)); (99262601778169179, (-17)); (4468778413690776, (-16)); (901077406885337, (-15)); (43180545006119764, (-17)); (40044476501050703, (-18)); ((-20592527833636209), (-17)); (50731995779591876, (-17)); ((-83679223237553957), (-17)); ((-38164680863710687), (-17)); (74576840488143081, (-17)); (54605420952293537, (-17))];
  [(65338219729577307, (-17)); (89220782972926682, (-17)); (25767797373966506, (-18)); (79376879334499828, (-17)); (20458201570476956, (-18)); (60787545163473022, (-17)); (45687679740577397, (-17)); (63967861275609161, (-17)); ((-61812204650431735), (-17)); ((-401490591052728), (-15)); (76837018055813677, (-17)); (49841004296180397, (-17))];
  [(72376893970134892, (-17)); (60669159916546078, (-17)); (39224267368069965, (-17)); (69240779301603728, (-17)); (2864345275064541, (-16)); (66221349248019312, (-17)); (34845562519000284, (-18)); (90347408477833691, (-17)); ((-42722402192138109), (-17)); ((-72066443990486651), (-17)); (31888844379516273, (-17)); (61559152485272606, (-17))];
  [(78052122571997751, (-17)); (46855995210615176, (-17)); (15123620873966381, (-17)); (70243639775974664, (-17)); (10705123749743184, (-17)); (70364987007216839, (-17)); (17972037045852887, (-17)); (92991066007139667, (-17)); ((-32088432920264048), (-17)); ((-68868257967263846), (-17)); (35186104762512127, (-17)); (63396380623785775, (-17))];
  [(14738842126047902, (-17)); (79850015071228975, (-17)); (62633060741940216, (-17)); (80139983336229137, (-17)); (57982049525790735, (-17)); (14685537227410753, (-17)); ((-32379635662653722), (-17)); (6269937905113413, (-16)); ((-70854407491390448), (-17)); ((-50290578294773269), (-17)); (52027586907245205, (-17)); (6902164830968851, (-16))];
  [(18419535578075175, (-17)); (24210799134148508, (-17)); (1124322273379752, (-16)); (97687690177528375, (-17)); (11029759555355544, (-17)); (18315556009312686, (-17)); ((-65289055755038322), (-18)); (96963171049784036, (-17)); ((-23569404997930657), (-17)); ((-20358992601928563), (-17)); (21828601973588843, (-17)); (95441204707994187, (-17))];
  [(20508532664838575, (-17)); (1845081494183155, (-16)); (41710438222366297, (-17)); (89510611900309767, (-17)); (39662504769175128, (-17)); (20365069915600162, (-17)); ((-36407947122643708), (-17)); (91388368734436309, (-17)); ((-17961833046030795), (-17)); ((-25735418076007671), (-17)); (86632427816530855, (-18)); (96242591823782642, (-17))];
  [(99565959000116422, (-17)); (63396252464065406, (-17)); (44054794582065926, (-17)); (49201221844389337, (-17)); (23195920440969686, (-17)); (83911793235011911, (-17)); (1060128742976334, (-16)); (940715562452625, (-15)); ((-32220412946235755), (-17)); ((-86410951122243351), (-17)); (24748567241168112, (-17)); (43825288882774671, (-17))];
  [(55753636309857346, (-17)); (283423464272614, (-15)); (9868224614554969, (-16)); (46784877270389769, (-17)); (707936166852005, (-15)); (52909725905767735, (-17)); ((-71941744954355202), (-17)); (65278597551668816, (-17)); ((-23729518212761216), (-17)); ((-51337711204504188), (-17)); ((-26962354094480706), (-17)); (8147067490801071, (-16))];
  [(33818882663412508, (-17)); (34242610751153679, (-17)); (50300947266626816, (-17)); (82650892015059951, (-17)); (4547589078479688, (-16)); (3317790539567147, (-16)); ((-35647335472606112), (-17)); (87897300672016176, (-17)); ((-31675416465717732), (-17)); ((-43567161059889792), (-17)); (14352975019221992, (-17)); (88858846409793157, (-17))];
  [(76279579262222552, (-17)); (38915581930549448, (-18)); (88718254207800173, (-17)); (45658732304658545, (-17)); (56046649330904752, (-17)); (69094524118124756, (-17)); ((-75772985202904186), (-17)); (65196199401626009, (-17)); ((-28125250263565132), (-18)); ((-46623329758523169), (-17)); ((-51070820263258099), (-17)); (72235977461829881, (-17))];
  [(7602822243123678, (-16)); (32728345338664322, (-17)); (91084801771877821, (-17)); (44426035522043616, (-17)); (57248416129471569, (-17)); (6891259840160564, (-16)); ((-6122712051762309), (-16)); (75555105463876959, (-17)); ((-23295187302592946), (-17)); ((-65403112165359367), (-17)); ((-31844071489200154), (-17)); (68617694730121426, (-17))];
  [(37145165703584659, (-17)); (6412605235437312, (-16)); (99074163576029095, (-17)); (51069210987581248, (-17)); (77938915740450343, (-17)); (36296847002307137, (-17)); ((-55126659003130174), (-17)); (62080600888057824, (-17)); ((-55740922673833448), (-17)); ((-65977171478159902), (-17)); (8457210330874787, (-17)); (74669193360855501, (-17))];
  [(61636828565871149, (-17)); (39983476044693689, (-17)); (17074831359294862, (-17)); (80411712008712966, (-17)); (13865173162306166, (-17)); (57807556123806791, (-17)); (65235443623753081, (-18)); (94596647307049742, (-17)); ((-31763464660168328), (-17)); ((-5908806936074259), (-16)); (29312647295065408, (-17)); (75162282880279563, (-17))];
  [(2593902577410151, (-16)); (49157776965397537, (-17)); (67435815753779049, (-17)); (75497712371411652, (-17)); (60350789440332209, (-17)); (25649125533091433, (-17)); ((-45589343485724548), (-17)); (76421088353889044, (-17)); ((-45622680931174031), (-17)); ((-47134988991451154), (-17)); (22750812485178909, (-17)); (85209702170820933, (-17))];
  [(62218896299434667, (-17)); (69275321640521081, (-17)); (92857773600199989, (-17)); (48672864118289771, (-17)); (65070848790482672, (-17)); (58281531690653432, (-17)); ((-39323430716373942), (-17)); (75896644889985021, (-17)); ((-51897659784792316), (-17)); ((-78003974868060666), (-17)); (23417796928086487, (-18)); (62529160978325227, (-17))];
  [(66321762489793323, (-17)); (19653210818830336, (-17)); (22801786546745628, (-17)); (7676186626431597, (-16)); (17812861897388738, (-17)); (61565557243022062, (-17)); ((-10458866772205383), (-17)); (98253936906207395, (-17)); ((-15387527035631018), (-17)); ((-63231542709794197), (-17)); (53726933148630251, (-18)); (77284579141533127, (-17))];
  [(14177444810424644, (-17)); (23475157229602084, (-17)); (73800460969522153, (-17)); (73238988672228311, (-17)); (66606258656037309, (-17)); (14129998093215279, (-17)); ((-63004412476604388), (-17)); (74163414893458801, (-17)); ((-23026764857847273), (-17)); ((-2581655567164432), (-16)); (79620474242337216, (-18)); (96281416971641742, (-17))];
  [(56930071010902372, (-17)); (51772867554045554, (-17)); (76656262905195116, (-17)); (60669234528753824, (-17)); (58425751510241408, (-17)); (53904318399907325, (-17)); ((-41059666916883797), (-17)); (81095404840459517, (-17)); ((-41684998098075227), (-17)); ((-68068698638725444), (-17)); (31570356706093761, (-18)); (73189380318492092, (-17))];
  [(5804422881199568, (-16)); (79144469062353839, (-17)); (50710542978621742, (-17)); (73098514551143079, (-17)); (40610948345981035, (-17)); (54839384067077046, (-17)); ((-30632334796543148), (-20)); (80382821017082273, (-17)); ((-59486142478696535), (-17)); ((-68239330536549003), (-17)); (434666879319759, (-15)); (58771088199452559, (-17))];
  [(25593638449656753, (-17)); (63689634937172246, (-17)); (94525034222511262, (-17)); (56646697438583327, (-17)); (78423818714637028, (-17)); (25315140282355614, (-17)); ((-56356012778341091), (-17)); (59278447667599976, (-17)); ((-57533168397430257), (-17)); ((-60126129869043232), (-17)); (18324036136543648, (-17)); (77775820192638212, (-17))];
  [(74639701812078096, (-17)); (96145522448279341, (-18)); (74363030718387602, (-17)); (54033869245983612, (-17)); (4969866248233899, (-16)); (67899807965667303, (-17)); ((-62586277147539249), (-17)); (77674254653516939, (-17)); ((-70475582177098373), (-18)); ((-56243211920367353), (-17)); ((-38687893603647561), (-17)); (73074947837090465, (-17))];
  [(63773196545937749, (-17)); (86196511702074574, (-17)); (56198097584295803, (-17)); (67987877747748948, (-17)); (42812823255078392, (-17)); (59537472605801478, (-17)); (35585529717579278, (-18)); (79166657488887981, (-17)); ((-60991614528427507), (-17)); ((-73246059143849751), (-17)); (43585576822688887, (-17)); (52300213316287247, (-17))];
  [(59776830628889377, (-17)); (25231097369228317, (-17)); (70670273498310798, (-17)); (62863028557031364, (-17)); (5367318282516097, (-16)); (56279917253445799, (-17)); ((-52192055911099811), (-17)); (82765779842752041, (-17)); ((-2063528499424549), (-16)); ((-57656126651124362), (-17)); ((-16401680780881789), (-17)); (80042213407373741, (-17))];
  [(44581996202193275, (-17)); (11583536824286211, (-17)); (906001258272217, (-15)); (55660065718113705, (-17)); (71011557474775233, (-17)); (43119784197766531, (-17)); ((-75102498846707677), (-17)); (65198711652250818, (-17)); ((-10427975156612435), (-17)); ((-35518611335967737), (-17)); ((-26579817604591394), (-17)); (89621099886528499, (-17))];
  [(56039236796945735, (-17)); (6886927523098253, (-16)); (97184744948909441, (-17)); (47754340003117729, (-17)); (69960009048313465, (-17)); (53151859279112035, (-17)); ((-44724056245441385), (-17)); (7142724104207312, (-16)); ((-53832221114051959), (-17)); ((-75625933407933721), (-17)); (19355544625465848, (-18)); (65398561338161643, (-17))];
  [(17736467891763874, (-17)); (73758864614633568, (-17)); (78260069183093961, (-17)); (69795809662542108, (-17)); (69406394438738228, (-17)); (17643621072911314, (-17)); ((-43772266698586304), (-17)); (60845246409122933, (-17)); ((-66195503302572933), (-17)); ((-56679216840196589), (-17)); (38478674618902875, (-17)); (72848184452013443, (-17))];
  [(45771242011667479, (-17)); (60879304717885496, (-18)); (7201280371797445, (-16)); (67434340588385333, (-17)); (59159773064973942, (-17)); (44189715549100683, (-17)); ((-63804857846650276), (-17)); (76805933583235353, (-17)); ((-54579008397361815), (-18)); ((-37169205326162125), (-17)); ((-24514685747698764), (-17)); (89540383951115476, (-17))];
  [(89764623628125428, (-18)); (6620223597516981, (-16)); (6657310993425658, (-17)); (99376760812823162, (-17)); (66256111054798797, (-18)); (89644122969593398, (-18)); (25125547897446865, (-19)); (79066928685565818, (-17)); ((-61223832442243709), (-17)); ((-11144338519410628), (-17)); (6086478510362614, (-16)); (78557505390982152, (-17))];
  [(15132487351438462, (-17)); (81793627351421927, (-18)); (98691343985870728, (-17)); (54496792342722755, (-17)); (82479391587848649, (-17)); (15074799754971113, (-17)); ((-82474940104191563), (-17)); (55970066106924032, (-17)); ((-8076877787645971), (-17)); ((-1509913504688824), (-16)); ((-80312927530303169), (-18)); (98526719510754823, (-17))];
  [(85405706153757321, (-17)); (51292285386819647, (-17)); (47460365017306061, (-17)); (58432186228721672, (-17)); (30020765118279014, (-17)); (75395180709678733, (-17)); ((-69087265222349648), (-18)); (9440883935102149, (-16)); ((-32237254074036525), (-17)); ((-80857585360762274), (-17)); (13628085489390623, (-17)); (57239201387867955, (-17))];
  [(40989397661483529, (-17)); (12261651317476752, (-17)); (6514173373033344, (-16)); (72935123554148162, (-17)); (55608892251548825, (-17)); (39851208948998962, (-17)); ((-56300119731151199), (-17)); (81880755020548268, (-17)); ((-11217774980939836), (-17)); ((-38868551174428684), (-17)); ((-14254580310222867), (-17)); (91027702760095108, (-17))];
  [(3882581825266489, (-16)); (76156544756774136, (-17)); (77748440525386253, (-17)); (6596355577778712, (-16)); (64927692471407461, (-17)); (37857681644404817, (-17)); ((-32152732092805658), (-17)); (69906341332981725, (-17)); ((-63869439174028408), (-17)); ((-67933873201217021), (-17)); (29958274178847305, (-17)); (66988735471764049, (-17))];
  [(35638583621101672, (-17)); (73858990317641038, (-17)); (36977381758718475, (-17)); (87382014681491726, (-17)); (33869528910785807, (-17)); (3488894554962948, (-16)); ((-48217166752972329), (-18)); (77433041169574979, (-17)); ((-63094177096892756), (-17)); ((-48385272123929679), (-17)); (53450716988571345, (-17)); (6929564412645951, (-16))];
  [(66429953798088315, (-17)); (66755480351619079, (-17)); (86366323506585641, (-17)); (51150662518466539, (-17)); (59856422749163396, (-17)); (61650777607386076, (-17)); ((-34908732578467649), (-17)); (80034851364877779, (-17)); ((-48742209190463975), (-17)); ((-785174510136885), (-15)); (34104578395509899, (-18)); (61833475267347471, (-17))];
  [(47388193891762787, (-17)); (41211981198025716, (-17)); (10341828319864865, (-17)); (88504936147694968, (-17)); (91858003484612163, (-18)); (45634387795287085, (-17)); (87222439808279276, (-18)); (93024833975893517, (-17)); ((-35641306425219021), (-17)); ((-45725252732285127), (-17)); (35524658136506498, (-17)); (81530361993879286, (-17))];
  [(77856024533141477, (-17)); (68415722292232029, (-18)); (36782956753408591, (-17)); (66430467169915763, (-17)); (25600196889694987, (-17)); (70225514955716739, (-17)); ((-31395320721841385), (-17)); (94819023511308242, (-17)); ((-48668898831481767), (-18)); ((-67833080929288936), (-17)); ((-18814427962891259), (-17)); (71025984203456938, (-17))];
  [(9282605427525471, (-16)); (57035917574495643, (-17)); (60315475259856599, (-17)); (4934938972523743, (-16)); (33990781560287009, (-17)); (80057882201988595, (-17)); ((-12146493521494822), (-17)); (93838470726562284, (-17)); ((-32354352208511278), (-17)); ((-8612258953885974), (-16)); (62424498893436986, (-18)); (5043740071117977, (-16))];
  [(48966535630885755, (-17)); (87177089916882522, (-17)); (28111265410854203, (-17)); (84785022288459622, (-17)); (24482469492168962, (-17)); (47033059470019822, (-17)); (16737682728069431, (-17)); (71809354077819765, (-17)); ((-67551955144324249), (-17)); ((-50312523018030919), (-17)); (65146184496801685, (-17)); (56785778792482755, (-17))];
  [(18314525012414273, (-17)); (70844696751031044, (-17)); (46045902647695225, (-17)); (88086620908278213, (-17)); (43692778790730813, (-17)); (18212311728760527, (-17)); ((-23127714776536146), (-17)); (7329398046157225, (-16)); ((-63977349408316819), (-17)); ((-4130200995322717), (-16)); (5214339372962723, (-16)); (74667331974435758, (-17))];
  [(56506569184880884, (-17)); (74031330639366355, (-17)); (60474045849019498, (-17)); (69477161192399883, (-17)); (4801696542679022, (-16)); (53547129744251631, (-17)); ((-12260582223381689), (-17)); (81267872281289599, (-17)); ((-56966753974714945), (-17)); ((-70870319571658358), (-17)); (33013693614535716, (-17)); (62349770149829598, (-17))];
  [(82064282551135082, (-17)); (46051292419797318, (-17)); (44957260602156468, (-17)); (61400745553864466, (-17)); (2962758210422044, (-16)); (73158422782939148, (-17)); ((-96492820406096469), (-18)); (94810075761151491, (-17)); ((-30297539343410101), (-17)); ((-78337984410695427), (-17)); (11543652490541795, (-17)); (61072942336580172, (-17))];
  [(33777532051127768, (-18)); (56189739950751283, (-17)); (6902879371725279, (-17)); (99704941055625229, (-17)); (68934643487273475, (-18)); (33771109497799275, (-18)); ((-40418786976394457), (-18)); (84547139423589468, (-17)); ((-53248891367630302), (-17)); ((-65259440457198892), (-18)); (529552770227949, (-15)); (84576300993547737, (-17))];
  [(11080851524779423, (-17)); (63522313623117987, (-17)); (83364539462695841, (-17)); (66805875384003555, (-17)); (73584587125369461, (-17)); (11058189352959008, (-17)); ((-55186145210608417), (-17)); (58964524229855098, (-17)); ((-58971809020416455), (-17)); ((-49914570928443608), (-17)); (33294044811883988, (-17)); (80000263681400652, (-17))];
  [(64917103433008039, (-17)); (77686788021115505, (-17)); (83332419765269528, (-17)); (53563903093746057, (-17)); (58960903598785641, (-17)); (6045262717350246, (-16)); ((-24285220336234264), (-17)); (79319696505734782, (-17)); ((-55844550490255329), (-17)); ((-80877291983500144), (-17)); (15231467199611159, (-17)); (56805510721785024, (-17))];
  [(16219359283815438, (-17)); (92067045970948935, (-17)); (36306526699357167, (-17)); (92254359966268273, (-17)); (3504802697028957, (-16)); (16148339626848729, (-17)); ((-94799603393816836), (-18)); (6114801343409505, (-16)); ((-78556036082706482), (-17)); ((-37406729597466132), (-17)); (70940512110877707, (-17)); (59734247482231384, (-17))];
  [(37356495396291711, (-18)); (92623026537201303, (-17)); (32889290872125332, (-18)); (99876190059449721, (-17)); (32860419946997982, (-18)); (37347807456055829, (-18)); (1008019823211205, (-17)); (60150839063940409, (-17)); ((-79880288281527578), (-17)); ((-48714017740985056), (-18)); (79819035874364019, (-17)); (60043242391149232, (-17))];
  [(23409829736189447, (-17)); (26094291769017508, (-17)); (74429407699997563, (-17)); (71550293550541122, (-17)); (65897445854342762, (-17)); (23196597222553123, (-17)); ((-61049883839406305), (-17)); (7512076465124703, (-16)); ((-25095465753935559), (-17)); ((-33962732163746656), (-17)); (3794383755752781, (-17)); (93979441772590289, (-17))];
  [(20403875007837824, (-17)); (32057345857331265, (-17)); (99262895747749691, (-17)); (53515381517463656, (-17)); (82009336117353948, (-17)); (20262594370691439, (-17)); ((-75990758622088095), (-17)); (57212095280490805, (-17)); ((-30857426296688889), (-17)); ((-36898625246475703), (-17)); (11157702303382699, (-18)); (9293678772000481, (-16))];
  [(98783361783030443, (-17)); (53370409371889982, (-17)); (3646204890953797, (-18)); (55049606398942053, (-17)); (20072303362256437, (-19)); (83483534577695806, (-17)); (42156032755802708, (-17)); (8624714380522156, (-16)); ((-28005340343104618), (-17)); ((-72058377289620157), (-17)); (50610175811838554, (-17)); (47394096327301632, (-17))];
  [(51494942612494854, (-17)); (46795080340319972, (-17)); (55571954376128285, (-17)); (73935315739356056, (-17)); (4591401602476925, (-16)); (49249083433084939, (-17)); ((-28212526564635992), (-17)); (87538495657136961, (-17)); ((-39256402317649058), (-17)); ((-61136097613124085), (-17)); (15129934255066887, (-17)); (77675367125465955, (-17))];
  [(71032503055977492, (-17)); (17500564434836474, (-17)); (45721160908269021, (-17)); (68027804646111889, (-17)); (33468366643005987, (-17)); (65208022737081672, (-17)); ((-33283051425278815), (-17)); (9337016200899303, (-16)); ((-13200429320163851), (-17)); ((-65302804555797467), (-17)); ((-12723257470621255), (-17)); (746569650902285, (-15))];
  [(44210600752168461, (-17)); (40233141881295109, (-17)); (90680872485814912, (-17)); (5570101566554686, (-16)); (71182108318981219, (-17)); (42784393288807177, (-17)); ((-6214148908778242), (-16)); (69898960623291817, (-17)); ((-35391674695279957), (-17)); ((-55098386435353275), (-17)); ((-68733368205207535), (-18)); (83168053080327375, (-17))];
  [(29583205654010714, (-17)); (87231634950941594, (-17)); (80272233792411851, (-17)); (66457118025786732, (-17)); (68800580450422377, (-17)); (29153586286966637, (-17)); ((-30740387283448267), (-17)); (60734558254780535, (-17)); ((-73255320784638445), (-17)); ((-68106387757465625), (-17)); (39721449662388048, (-17)); (61512001945539929, (-17))];
  [(59706633520944197, (-17)); (7709683999995115, (-16)); (76460517800382988, (-19)); (8269643590713045, (-16)); (63231355314627069, (-19)); (56221878906955536, (-17)); (38627557221534686, (-17)); (72021070238789886, (-17)); ((-57627053236794568), (-17)); ((-4085598256504091), (-16)); (69372657590939957, (-17)); (59314610910089194, (-17))];
  [(40910916013666965, (-17)); (3272753748338908, (-18)); (94548549338956223, (-17)); (53704369195805446, (-17)); (74387194373134757, (-17)); (39779216213672353, (-17)); ((-81001481970580069), (-17)); (58640171883500114, (-17)); ((-30026662044785302), (-19)); ((-23549960676196802), (-17)); ((-32060498354938799), (-17)); (91747064243944898, (-17))];
  [(49661544777537958, (-17)); (23359745494208251, (-17)); (72021209767569017, (-17)); (6608647527326974, (-16)); (57987129867727683, (-17)); (47645257430921611, (-17)); ((-5587306530006152), (-16)); (80399081275720308, (-17)); ((-2035161674155592), (-16)); ((-50107667676021084), (-17)); ((-13171199631142266), (-17)); (85532105903841915, (-17))];
  [(59984812644463048, (-17)); (69884615516389237, (-17)); (18979927738151747, (-17)); (810598544885346, (-15)); (15572546354934585, (-17)); (56451712022940559, (-17)); (21221502522030813, (-17)); (82035367978060159, (-17)); ((-53102224354651117), (-17)); ((-5457973819106352), (-16)); (55024487282733281, (-17)); (63193021594692611, (-17))];
  [(96060720064375116, (-17)); (3629823347552863, (-17)); (38607738933771152, (-17)); (53084415756352465, (-17)); (21577587389923536, (-17)); (81953965896940772, (-17)); ((-34875725037556027), (-17)); (93698235982591971, (-17)); ((-20795136102688894), (-18)); ((-7723812922974963), (-16)); ((-27478142153004431), (-17)); (57264501193215467, (-17))];
  [(53718703130611178, (-17)); (43805297389453079, (-17)); (70141358676214516, (-18)); (85703896956339098, (-17)); (60212655110780493, (-18)); (51172125304137139, (-17)); (15306021011375737, (-17)); (91856496965246726, (-17)); ((-36443239236831587), (-17)); ((-4919926592233399), (-16)); (39065692454105028, (-17)); (77802981342521493, (-17))];
  [(153694448354877, (-15)); (17685275178055038, (-17)); (89499959145800223, (-18)); (98425697123975942, (-17)); (88326924787929792, (-18)); (15309006801044533, (-17)); ((-61160701088669001), (-18)); (98286957940501862, (-17)); ((-17385844392074895), (-17)); ((-16582395245644663), (-17)); (16175828954866306, (-17)); (97279837199391583, (-17))];
  [(92300197443618515, (-17)); (45246096439485406, (-17)); (17293422185749208, (-17)); (59442837109465207, (-17)); (10383417417852442, (-17)); (79741668900921703, (-17)); (18865641423193893, (-17)); (94594635452417219, (-17)); ((-26380722456289218), (-17)); ((-78170561530982097), (-17)); (30725227197710525, (-17)); (54270836768747288, (-17))];
  [(84425004174540452, (-17)); (99469664234882782, (-17)); (54006345432740788, (-17)); (56974737903538164, (-17)); (34157260184312094, (-17)); (74747313112407854, (-17)); (25750491709601919, (-17)); (78953337275627278, (-17)); ((-55707115432005327), (-17)); ((-78043522585393688), (-17)); (50986783677167269, (-17)); (36187794526896705, (-17))];
  [(13424194368622411, (-17)); (4461014679555948, (-16)); (90334440013181305, (-17)); (61341776000434134, (-17)); (77833523846487074, (-17)); (13383911339772475, (-17)); ((-67279542862334007), (-17)); (60376331605630407, (-17)); ((-42757007543586545), (-17)); ((-41360000354786319), (-17)); (17223273425376581, (-17)); (89401953128367351, (-17))];
  [(85995182529304592, (-17)); (80429840087790627, (-17)); (14709535112120264, (-17)); (64542789119124599, (-17)); (95630157148995532, (-18)); (757811131032053, (-15)); (43832953703705008, (-17)); (76613428052070209, (-17)); ((-4700058309977776), (-16)); ((-62553181712308314), (-17)); (63552587457528786, (-17)); (4525669105358997, (-16))];
  [(55976213437238642, (-17)); (91077575897416907, (-17)); (52621461274997972, (-17)); (73274303659371087, (-17)); (42560890939848089, (-17)); (5309846500267813, (-16)); (5476477251686368, (-17)); (74086815727714184, (-17)); ((-66941406709446172), (-17)); ((-67829821023986492), (-17)); (519587749830005, (-15)); (5195576081744816, (-16))];
  [(72531090470397042, (-17)); (9597573243467834, (-16)); (64290816483909885, (-17)); (59890068340423941, (-17)); (44862089266427929, (-17)); (66336812260089806, (-17)); (90900753669949763, (-18)); (78492119030531249, (-17)); ((-61289132641270627), (-17)); ((-79564755036395995), (-17)); (42736169654614187, (-17)); (42930986003705213, (-17))];
  [(34004720684005285, (-18)); (97540801304875857, (-18)); (40736823527095056, (-17)); (91763589492690167, (-17)); (39596526228568524, (-17)); (33998167667285431, (-18)); ((-39127105416084429), (-17)); (91511411954819366, (-17)); ((-97329904856606725), (-18)); ((-69651464575886834), (-18)); (76010915443526589, (-18)); (99467130963744566, (-17))];
  [(34608168414391904, (-17)); (82753557358803065, (-17)); (70860557748376007, (-17)); (7142522492249731, (-16)); (61219057322608372, (-17)); (33921442559270065, (-17)); ((-25074562742793627), (-17)); (67632474299519074, (-17)); ((-6926120648229136), (-16)); ((-65342968619648545), (-17)); (40964319116227021, (-17)); (63657057827985919, (-17))];
  [(8636193474575018, (-16)); (58768790405894389, (-17)); (99797461396661902, (-17)); (35213571878614763, (-17)); (54598345055814934, (-17)); (76019899189066287, (-17)); ((-47093452936418917), (-17)); (80527456015522825, (-17)); ((-36021320328290735), (-17)); ((-80883935649020733), (-17)); ((-23116001921487317), (-17)); (54068839538969837, (-17))];
  [(21791153561269161, (-17)); (58284190776353173, (-17)); (94842198835812552, (-17)); (56917943208540855, (-17)); (79328192736475678, (-17)); (21619102156978801, (-17)); ((-60898702630767165), (-17)); (58339936019016714, (-17)); ((-53738253443766004), (-17)); ((-55242155631353773), (-17)); (17420955842364194, (-17)); (81515731848151163, (-17))];
  [(50834584921053827, (-17)); (48613716048553879, (-17)); (58826808440784406, (-17)); (72670956022034716, (-17)); (4847517625092857, (-16)); (48673292864618328, (-17)); ((-30144846532668212), (-17)); (86171598874145972, (-17)); ((-40813524412811564), (-17)); ((-61726982579463385), (-17)); (14987088940641352, (-17)); (77234492208597638, (-17))];
  [(81933333039197054, (-17)); (42252662557477927, (-17)); (76205584361051537, (-17)); (49388372202912134, (-17)); (47134886143777011, (-17)); (73069085113745569, (-17)); ((-41293360071795748), (-17)); (86666641083068352, (-17)); ((-27995566387548493), (-17)); ((-76522200080288094), (-17)); ((-1634612588939004), (-16)); (62266821528648553, (-17))];
  [(54736316230972437, (-17)); (492992986150113, (-15)); (9964129077196856, (-16)); (46393849636880502, (-17)); (71687232946801682, (-17)); (52043744564563321, (-17)); ((-60573526319773541), (-17)); (68539870465728636, (-17)); ((-40412053470825271), (-17)); ((-64640998020282958), (-17)); ((-12776023989181057), (-17)); (75221769362131108, (-17))];
  [(3254886045870562, (-16)); (29995357516790466, (-17)); (74183348062768195, (-17)); (69852241274067728, (-17)); (64016595607237614, (-17)); (31977177421542924, (-17)); ((-57581637207686964), (-17)); (76815161878528493, (-17)); ((-27996177632987362), (-17)); ((-42485520421335893), (-17)); (1142975255579684, (-17)); (90518916045727049, (-17))];
  [(27065696510872705, (-17)); (2913309710201617, (-17)); (58484506644533418, (-17)); (8034436068712042, (-16)); (53197234116024728, (-17)); (26736454293394157, (-17)); ((-54534227884876152), (-17)); (83774337087892781, (-17)); ((-28068549097715698), (-18)); ((-23891456522746723), (-17)); ((-12325369280024305), (-17)); (96318656434424677, (-17))];
  [(71154992824930308, (-17)); (20182717544218021, (-17)); (56996457676068679, (-17)); (63762874429513738, (-17)); (40866810700073147, (-17)); (65300839410305056, (-17)); ((-41844040634575674), (-17)); (89546570109637391, (-17)); ((-15181832727697084), (-17)); ((-64678992786360257), (-17)); ((-17644136839306743), (-17)); (74197791930338308, (-17))];
  [(12459292500429864, (-17)); (56064856087982506, (-18)); (75617386341793036, (-17)); (72182753031972902, (-17)); (68082433764066341, (-17)); (12427082420533228, (-17)); ((-67999923489235115), (-17)); (7311016043294345, (-16)); ((-55601121326320668), (-18)); ((-12870919554692997), (-17)); ((-44369645289082153), (-18)); (99068929415765017, (-17))];
  [(63276122310507166, (-17)); (58375755135984808, (-17)); (58042602433038648, (-17)); (67433319976226203, (-17)); (44221254816056871, (-17)); (59137365341019876, (-17)); ((-18500380426461965), (-17)); (8764883794875622, (-16)); ((-44445664921439221), (-17)); ((-71487644254514882), (-17)); (19030549879760089, (-17)); (67285621719754418, (-17))];
  [(68016489370895583, (-17)); (1500395345409461, (-16)); (59145325862401976, (-17)); (64540134489756806, (-17)); (43349185406729956, (-17)); (6289212323190444, (-16)); ((-47326368288793258), (-17)); (87322151452241914, (-17)); ((-11621391067562743), (-17)); ((-59956533460813144), (-17)); ((-2226409644078722), (-16)); (76873429122406911, (-17))];
  [(11997882594888654, (-17)); (33687130720223035, (-17)); (22488160749580488, (-18)); (9925601400742301, (-16)); (22324615425795266, (-18)); (11969118548128356, (-17)); (18329838023100498, (-18)); (94444439882136255, (-17)); ((-32815970894215835), (-17)); ((-12036770901646164), (-17)); (32791216671701207, (-17)); (93700865820177082, (-17))];
  [(13466857345449368, (-17)); (1884490273290339, (-16)); (53128275128232794, (-17)); (85435180941669941, (-17)); (50205251711101428, (-17)); (13426189261628282, (-17)); ((-47598510325877319), (-17)); (85963723552793525, (-17)); ((-1856394483121088), (-16)); ((-20861727450560413), (-17)); (94694737743888327, (-18)); (9734021468136741, (-16))];
  [(21535902818713593, (-17)); (92560128136000352, (-17)); (88013131762900187, (-17)); (62233390401407596, (-17)); (75301633530065648, (-17)); (21369817660655957, (-17)); ((-35476683424555894), (-17)); (51470379494666862, (-17)); ((-78052578226915859), (-17)); ((-6977399266445794), (-16)); (40993463166444855, (-17)); (58746284352982703, (-17))];
  [(36161808891466707, (-17)); (26837445607898402, (-17)); (45873332090400909, (-17)); (83862612715921414, (-17)); (41417408642456416, (-17)); (35378813572576912, (-17)); ((-3428482729839743), (-16)); (90605937013497595, (-17)); ((-24801507918373991), (-17)); ((-4232744742573592), (-16)); (86696273997145801, (-18)); (90184393079798897, (-17))];
  [(68227839140278967, (-18)); (82682581345057093, (-17)); (93205224183724056, (-17)); (59480050673161367, (-17)); (80097723925385611, (-17)); (68174917595011333, (-18)); ((-5137924983386124), (-16)); (4440194141813012, (-16)); ((-73407358519501364), (-17)); ((-61824722065107773), (-17)); (40159957921711664, (-17)); (67563906942231544, (-17))];
  [(56639886804789341, (-17)); (84991859855179619, (-17)); (4298262765190819, (-16)); (76708166527874722, (-17)); (35163850214948628, (-17)); (53659675977334209, (-17)); (91389589179983022, (-18)); (76798483521891758, (-17)); ((-63391421806367942), (-17)); ((-63500682026471023), (-17)); (53530333146715781, (-17)); (55697098805724543, (-17))];
  [(10911990523671555, (-17)); (93276076612482461, (-17)); (33900891882334006, (-17)); (93747555698452967, (-17)); (33057466852978434, (-17)); (10890348287804673, (-17)); ((-11557476718799264), (-17)); (59081005700195677, (-17)); ((-79848979313124957), (-17)); ((-32830177161566937), (-17)); (73597816888258838, (-17)); (59207607761354886, (-17))];
  [(77091178066881538, (-17)); (71403045059339365, (-17)); (36612119456359649, (-17)); (6697367450077627, (-16)); (25678210316165129, (-17)); (69678952624324519, (-17)); (15552557590532978, (-17)); (86900094299133557, (-17)); ((-46973306922068514), (-17)); ((-72612980081093115), (-17)); (4229660891561503, (-16)); (54206567849129583, (-17))];
  [(76164400233221019, (-17)); (25475686440209799, (-17)); (85481616320822673, (-17)); (4750073212692616, (-16)); (5459975010287017, (-16)); (69011214567707291, (-17)); ((-6159495504168736), (-16)); (76638342950729066, (-17)); ((-18238034520719371), (-17)); ((-62846972566850978), (-17)); ((-3384422666379846), (-16)); (70034465520277323, (-17))];
  [(93078439413285108, (-17)); (17054239041485053, (-17)); (1220881321773678, (-16)); (59275971494930091, (-17)); (72730648543544468, (-18)); (80208863169581124, (-17)); (1509641621302571, (-17)); (99473569549467733, (-17)); ((-10135578092168007), (-17)); ((-80523786457837798), (-17)); (7218828763141516, (-17)); (58854127516946297, (-17))];
  [(1686162428707193, (-16)); (70117836453760418, (-17)); (14726475577215914, (-17)); (97514756386658619, (-17)); (14465206818858778, (-17)); (16781837758072377, (-17)); ((-50252393606946277), (-19)); (77169792370187706, (-17)); ((-63596938725348995), (-17)); ((-22149938070890837), (-17)); (61932067115749956, (-17)); (75324626160545538, (-17))];
  [(69548037159589271, (-17)); (88526402064867948, (-18)); (80318862717084039, (-17)); (53313493852358218, (-17)); (55245003648409896, (-17)); (64075431681274997, (-17)); ((-67741780989655465), (-17)); (73246011273969736, (-17)); ((-6787705120514019), (-17)); ((-50682565854582728), (-17)); ((-39787075845564174), (-17)); (76473957096878453, (-17))];
  [(95495661870748738, (-17)); (97592162744774424, (-17)); (53901597537337509, (-17)); (49574242265219598, (-17)); (29649997907610476, (-17)); (81628868226308327, (-17)); (29255781898207589, (-17)); (82796637829897235, (-17)); ((-47841571771727354), (-17)); ((-81770983419265686), (-17)); (47598260347869059, (-17)); (32371467104576079, (-17))];
  [(43856163620826594, (-17)); (28878826285236092, (-17)); (24628668420197952, (-18)); (90508881315036083, (-17)); (22295640417472798, (-18)); (42463766287088345, (-17)); (97289856026806398, (-18)); (96127707504941429, (-17)); ((-25783923072086223), (-17)); ((-41394314129401222), (-17)); (27468034040101502, (-17)); (86787198731888338, (-17))];
  [(5609143606814404, (-16)); (31579764583249714, (-17)); (66269302237639294, (-17)); (66754042408627312, (-17)); (52096796936044099, (-17)); (53196067252305135, (-17)); ((-45457355797958943), (-17)); (85100041926593684, (-17)); ((-26298510755359589), (-17)); ((-58970557280434044), (-17)); ((-66262065389317143), (-18)); (80489544419995718, (-17))];
  [(9177075327057016, (-17)); (41890840806018226, (-17)); (98544510630798121, (-17)); (55016728845442486, (-17)); (83001066237973387, (-17)); (9164199392560865, (-17)); ((-74085166330137053), (-17)); (535790838434546, (-15)); ((-40505183672364581), (-17)); ((-38529828405833644), (-17)); (15495314706569135, (-17)); (90968937254215498, (-17))];
  [(85108703857801382, (-17)); (43212480628919814, (-17)); (47307072418843521, (-17)); (58677211406128249, (-17)); (30033050828291474, (-17)); (75199738826313722, (-17)); ((-13339126950938512), (-17)); (95183921032146035, (-17)); ((-27605957131259423), (-17)); ((-79868971157686008), (-17)); (61674171977780357, (-18)); (59857417345900188, (-17))];
  [(92526206250397247, (-17)); (68704317309555962, (-17)); (63205851815466818, (-17)); (48539911882475534, (-17)); (35544433710972756, (-17)); (79877845405392434, (-17)); ((-48013014082751215), (-18)); (92308666823892638, (-17)); ((-38158321949248214), (-17)); ((-87297333631837837), (-17)); (14686839733647472, (-17)); (4651314093253377, (-16))];
  [(17639613517590402, (-17)); (80430360285819391, (-17)); (56918684957727317, (-17)); (82926849628650579, (-17)); (53058416429803268, (-17)); (17548277882138719, (-17)); ((-26734188289171246), (-17)); (65238525789208313, (-17)); ((-70916979133138058), (-17)); ((-49075663899598082), (-17)); (54117826996400953, (-17)); (68284991132761386, (-17))];
  [(93662530525609367, (-17)); (84725784626582978, (-18)); (36280944589226605, (-17)); (55393956340585881, (-17)); (21028307007932501, (-17)); (80556315117546196, (-17)); ((-28989644054087654), (-17)); (95574366387518339, (-17)); ((-50140828913874384), (-18)); ((-78045564502760589), (-17)); ((-20575490127929907), (-17)); (59038454141693897, (-17))];
  [(12927227747096315, (-18)); (5183344535740213, (-16)); (42448577823970257, (-17)); (9111744968601595, (-16)); (41181783881122125, (-17)); (12926867698335003, (-18)); ((-35191760326247074), (-17)); (79419148380591764, (-17)); ((-49539265998211268), (-17)); ((-21427794283507925), (-17)); (44683996540932847, (-17)); (86857297248265597, (-17))];
  [(40754378062410368, (-17)); (47802800476793861, (-18)); (71836579552564106, (-17)); (69121907144211048, (-17)); (60425038718034729, (-17)); (39635547790727832, (-17)); ((-64314399840437486), (-17)); (76448750242077168, (-17)); ((-43870901049379622), (-18)); ((-32951781832116483), (-17)); ((-22458924336408295), (-17)); (917048351600944, (-15))];
  [(57930837483921838, (-17)); (9316658916626096, (-16)); (37717867542533334, (-17)); (77801773485397041, (-17)); (30820782246554662, (-17)); (54744528715091079, (-17)); (18881249331923325, (-17)); (7163943871111097, (-16)); ((-67166131679758956), (-17)); ((-5991980028498689), (-16)); (62592892590672267, (-17)); (49917405090207256, (-17))];
  [(17622803867594494, (-17)); (75797086172572392, (-17)); (26103379071436894, (-17)); (95116035593610626, (-17)); (25408232076545006, (-17)); (17531728828025617, (-17)); ((-70986769418029561), (-18)); (73273454687515804, (-17)); ((-67680201121395045), (-17)); ((-30042445949537971), (-17)); (63130203396638906, (-17)); (71498453552983166, (-17))];
  [(64256925033571943, (-17)); (88988951182691345, (-19)); (85417440354374108, (-17)); (52584002732537982, (-17)); (60364443683599367, (-17)); (59925425283380329, (-17)); ((-75049634002493804), (-17)); (66083620687109434, (-17)); ((-71239944832048189), (-19)); ((-40030926703189917), (-17)); ((-44599204204243398), (-17)); (80052706960052478, (-17))];
  [(29474245850608127, (-17)); (97222893783263764, (-17)); (35253773342186223, (-17)); (89802858044036982, (-17)); (33039103981597606, (-17)); (29049342423120755, (-17)); (30678220475397755, (-18)); (61167011773370916, (-17)); ((-79051787700221765), (-17)); ((-43886617037625164), (-17)); (71881946821225462, (-17)); (53916143836362618, (-17))];
  [(71581791538402495, (-18)); (61511428897676501, (-17)); (35548407681471594, (-17)); (93507734705963341, (-17)); (34715291701242762, (-17)); (71520676910111367, (-18)); ((-24555953245340711), (-17)); (78000959362347988, (-17)); ((-57557410459175296), (-17)); ((-2555990434981753), (-16)); (52064372277508209, (-17)); (81461600947791435, (-17))];
  [(8646225638347399, (-16)); (65983662447240343, (-17)); (54973925276379343, (-18)); (64794700910140302, (-17)); (35656116869710063, (-18)); (76085038918720416, (-17)); (42227481222683722, (-17)); (81452529402649154, (-17)); ((-39778452502560568), (-17)); ((-63391533847615311), (-17)); (57903124848390597, (-17)); (51271254804601107, (-17))];
  [(81745860953618477, (-17)); (11578470560644372, (-17)); (35285732972462258, (-17)); (64193052667740802, (-17)); (23640371745394342, (-17)); (72940968001091244, (-17)); ((-26419243259278874), (-17)); (96122671885885269, (-17)); ((-79028814444788334), (-18)); ((-71981077894150092), (-17)); ((-14197350923957652), (-17)); (67949684708159575, (-17))];
  [(26239810469349001, (-17)); (68794436672920523, (-17)); (30469798102454115, (-17)); (92128498101940748, (-17)); (28973611584952025, (-17)); (25939731479046468, (-17)); ((-74652029491434096), (-18)); (78637940342109325, (-17)); ((-61321652649606218), (-17)); ((-38165568021566254), (-17)); (54558263997997491, (-17)); (74610892281998675, (-17))];
  [(47709497301499759, (-17)); (62958496446508661, (-17)); (22527629398426552, (-17)); (86588664871941712, (-17)); (19843191477887326, (-17)); (45920048646168338, (-17)); (83001353098868441, (-18)); (84824554499042204, (-17)); ((-52305857299891256), (-17)); ((-49330628108023677), (-17)); (49102369657796741, (-17)); (71801437481828634, (-17))];
  [(9706496774982567, (-16)); (36973029388418654, (-17)); (73063103828559961, (-17)); (42060955751879964, (-17)); (37688912633931587, (-17)); (82525280161355818, (-17)); ((-40014629265862939), (-17)); (89343840556687781, (-17)); ((-20408517812342408), (-17)); ((-81423003174495734), (-17)); ((-24438167260517391), (-17)); (52659951908381342, (-17))];
  [(49266429624523433, (-17)); (77129230178570451, (-17)); (12422908226829588, (-17)); (87428581869392019, (-17)); (10917392572447018, (-17)); (47297501115028223, (-17)); (2383077014448805, (-16)); (75233700710589613, (-17)); ((-6141648534155959), (-16)); ((-42288739241405554), (-17)); (64966920942957629, (-17)); (63174058889419937, (-17))];
  [(21736798143292091, (-17)); (82028799683031928, (-17)); (15734385625137814, (-17)); (96440611110983177, (-17)); (15300814421011782, (-17)); (21566028994552178, (-17)); (48905203529857832, (-18)); (69829995176436632, (-17)); ((-71413266164879119), (-17)); ((-25986368334516063), (-17)); (69926081341031787, (-17)); (66596184643493406, (-17))];
  [(33982349608562334, (-17)); (98428226637964356, (-18)); (36472943332374175, (-17)); (88079552784207915, (-17)); (33629831654709513, (-17)); (33332068705824874, (-17)); ((-32436948761722806), (-17)); (94138221246738574, (-17)); ((-92649692675942003), (-18)); ((-34494010151956833), (-17)); ((-26513625508393812), (-18)); (93825015535627299, (-17))];
  [(12078696943998546, (-18)); (74137964580038163, (-17)); (20458495624652628, (-17)); (97907396416736636, (-17)); (2031459693538239, (-16)); (12078403242720578, (-18)); ((-14185220017990552), (-17)); (72381362401338778, (-17)); ((-67525683335803877), (-17)); ((-14591821679872094), (-17)); (65941303659231776, (-17)); (73748377689165479, (-17))];
  [(4372817050817438, (-16)); (56854949978683766, (-17)); (78674764164750133, (-17)); (6397073590196507, (-16)); (64143623548511042, (-17)); (42347851258687697, (-17)); ((-43566400253485449), (-17)); (75650352960578682, (-17)); ((-48774920460139842), (-17)); ((-63322300314455893), (-17)); (1275224117583903, (-16)); (76339155273549464, (-17))];
  [(86274262988885086, (-17)); (34267166334651089, (-17)); (12161048517180195, (-17)); (6455533620150421, (-16)); (78895372345279949, (-18)); (75962910490157998, (-17)); (13909586030197782, (-17)); (96586755133642377, (-17)); ((-2185228018359491), (-16)); ((-75094154129194957), (-17)); (24672939325885038, (-17)); (6125450253362531, (-16))];
  [(58436849976156591, (-17)); (87287421940628529, (-17)); (41257017832745602, (-18)); (83335088973110372, (-17)); (34401093243533638, (-18)); (55167278287770138, (-17)); (39581514997756923, (-17)); (65951377136753886, (-17)); ((-63903986763331133), (-17)); ((-38581946766928715), (-17)); (75090488755914719, (-17)); (53598991427747256, (-17))];
  [(1746124783013836, (-16)); (3640941907232399, (-16)); (59240093973690633, (-17)); (81698750716794044, (-17)); (5498640821277776, (-16)); (17372652162894162, (-17)); ((-47042950748099799), (-17)); (80976165975069092, (-17)); ((-3506880848973799), (-16)); ((-33350785841221203), (-17)); (20478170226751952, (-17)); (92023744913675243, (-17))];
  [(96693230068107738, (-17)); (82651553270172429, (-17)); (66103722865230907, (-17)); (44821786329374386, (-17)); (34860962053965217, (-17)); (82314766566612485, (-17)); (62038227628327614, (-18)); (90647385368896694, (-17)); ((-41767979468847788), (-17)); ((-89176903138487973), (-17)); (23827816737056073, (-17)); (38467065083965074, (-17))];
  [(80039239611554613, (-17)); (62240521996765841, (-17)); (65086267911052476, (-17)); (554048996054327, (-15)); (42194516771467122, (-17)); (71762942067158197, (-17)); ((-15941855455607779), (-17)); (8998566026909085, (-16)); ((-40600962926613859), (-17)); ((-81707737359104693), (-17)); (11054578253291453, (-17)); (56583053605275002, (-17))];
  [(52910070999336611, (-17)); (32873134603762844, (-17)); (66133068986034538, (-17)); (68126484322749614, (-17)); (53018709819767262, (-17)); (50475722311517912, (-17)); ((-45267872612617666), (-17)); (84700039536657157, (-17)); ((-27869750835207258), (-17)); ((-5752913907707965), (-16)); ((-38626042427397145), (-18)); (81703601178369112, (-17))];
  [(44193577653683913, (-17)); (22899526551708882, (-17)); (10364700076279432, (-18)); (90387689238800351, (-17)); (93687483834186784, (-19)); (42769006296702022, (-17)); (86986110056850585, (-18)); (97484889127228425, (-17)); ((-20519029178393325), (-17)); ((-41885555990601703), (-17)); (22266985817331983, (-17)); (88032843541310801, (-17))];
  [(49774986233792129, (-17)); (44253520119541701, (-17)); (13353206732539691, (-17)); (87083714266489098, (-17)); (11698079945944663, (-17)); (47744964500256681, (-17)); (82328507554426014, (-18)); (92284509011192972, (-17)); ((-37626979217067807), (-17)); ((-48462840176686839), (-17)); (36697742739047745, (-17)); (79401692676337687, (-17))];
  [(18591038812359595, (-17)); (7228610576900466, (-16)); (62546378669916547, (-17)); (79672214160702137, (-17)); (57538467041161767, (-17)); (1848413106652175, (-16)); ((-33992562787422054), (-17)); (67954161728701956, (-17)); ((-65013364617535285), (-17)); ((-49968429691900296), (-17)); (45514357232664071, (-17)); (73699384799488366, (-17))];
  [(6847756272207064, (-16)); (45031391803285425, (-17)); (42914159740904123, (-17)); (70432631563624881, (-17)); (32228738145936908, (-17)); (63249923703853617, (-17)); ((-12427918802864651), (-17)); (93322053669611904, (-17)); ((-3371262572264993), (-16)); ((-69891281611171474), (-17)); (15884040304869076, (-17)); (6973453963669094, (-16))];
  [(18115011184538365, (-17)); (93455954223233506, (-17)); (8830613302747401, (-16)); (62440171657737742, (-17)); (76004244341956995, (-17)); (18016098505512848, (-17)); ((-36712148044793141), (-17)); (48914421391169116, (-17)); ((-79117618555567804), (-17)); ((-6894521846574595), (-16)); (42787080082371071, (-17)); (58445039385180753, (-17))];
  [(25918949407156888, (-17)); (13160007971395138, (-17)); (79288744778559905, (-17)); (67835006245055096, (-17)); (68858763904509623, (-17)); (25629720273080225, (-17)); ((-68262052862750155), (-17)); (71968149569964279, (-17)); ((-12683752853093438), (-17)); ((-27179110851836946), (-17)); ((-88913486613817275), (-18)); (95824004572368526, (-17))];
  [(30741627250202175, (-17)); (44941747547781241, (-17)); (77450776232789353, (-17)); (68125615745179724, (-17)); (66657713203490865, (-17)); (30259705051789265, (-17)); ((-5359542327843646), (-16)); (73572822092074663, (-17)); ((-41407371964580925), (-17)); ((-49864126212592474), (-17)); (11991210109454803, (-17)); (85847421610468633, (-17))];
  [(47229569839537711, (-17)); (90868112801155065, (-17)); (81546575366608354, (-17)); (6104819060364427, (-16)); (64834315241415541, (-17)); (45493186206264713, (-17)); ((-20162298593049963), (-17)); (68267806579234647, (-17)); ((-70235235461304624), (-17)); ((-76593734335556563), (-17)); (33704868372936292, (-17)); (54748348911151867, (-17))];
  [(67867012215325107, (-17)); (52778571494438609, (-17)); (3302696877029907, (-16)); (73633911173208122, (-17)); (25243635705630912, (-17)); (62775839155661561, (-17)); (1889711907295627, (-17)); (91976122003962846, (-17)); ((-39202320977457056), (-17)); ((-6763487350652414), (-16)); (30052484713805949, (-17)); (67248583987195887, (-17))];
  [(10886417815089811, (-18)); (54201774723006635, (-17)); (92170517617660752, (-17)); (60442681730668735, (-17)); (79658628729689607, (-17)); (10886202784042077, (-18)); ((-67905709590373331), (-17)); (52229847595409851, (-17)); ((-51583501482432703), (-17)); ((-41659294643968248), (-17)); (30439216301766514, (-17)); (85661877639363648, (-17))];
  [(57803637294838517, (-17)); (24685409492657195, (-17)); (33850403393343875, (-17)); (79000900822690301, (-17)); (27812631410453226, (-17)); (54638038061681182, (-17)); ((-19607561971292287), (-17)); (95899438933456072, (-17)); ((-2046560836599445), (-16)); ((-58089596166141355), (-17)); (54548277951370794, (-18)); (81214799580987806, (-17))];
  [(33109189036820008, (-17)); (98229824948920652, (-17)); (78347986307512285, (-17)); (66998391035032379, (-17)); (66741836798176035, (-17)); (32507580954640825, (-17)); ((-20020898121407196), (-17)); (58410350396595589, (-17)); ((-78659993675051598), (-17)); ((-71486916545121215), (-17)); (46192620485880198, (-17)); (52496310113362377, (-17))];
  [(98411734668765383, (-17)); (14269309430042465, (-17)); (76441846644128186, (-17)); (39957899627116561, (-17)); (38315506318378212, (-17)); (83278377943831239, (-17)); ((-59960237553413009), (-17)); (79641639335847825, (-17)); ((-78726867356078062), (-18)); ((-6934072519037825), (-16)); ((-46788152981978837), (-17)); (54797194915500802, (-17))];
  [(7832367351435835, (-16)); (59248572032212476, (-17)); (59961725995206117, (-17)); (58501355712067127, (-17)); (39990068705503645, (-17)); (70557677008099484, (-17)); ((-14286309489271209), (-17)); (90719182108626717, (-17)); ((-3957185058496232), (-16)); ((-79834157733560085), (-17)); (1306998096673907, (-16)); (58785056404686109, (-17))];
  [(78701256377987039, (-17)); (73077653535335829, (-17)); (82089489456380771, (-17)); (48116171753581516, (-17)); (51659365462675122, (-17)); (70824741268666935, (-17)); ((-22271769976995776), (-17)); (85344744658074401, (-17)); ((-47119452685062807), (-17)); ((-84786804857074505), (-17)); (68981533211324941, (-18)); (52570078969757261, (-17))];
  [(63159591018307337, (-17)); (55562366871893898, (-17)); (32750357264032603, (-17)); (76418828698300834, (-17)); (25962374552867323, (-17)); (5904335464687267, (-16)); (21594008991411839, (-18)); (90459893497059518, (-17)); ((-42571641455990827), (-17)); ((-64463164738760237), (-17)); (33807732489436138, (-17)); (68567759302650266, (-17))];
  [(80769799062587055, (-17)); (99735655427161096, (-17)); (64582033540327255, (-17)); (55196787069975572, (-17)); (41597960842372328, (-17)); (72269802482836742, (-17)); (15830938252753529, (-17)); (79864619834870343, (-17)); ((-58060519224935814), (-17)); ((-81869995060396095), (-17)); (43488528974754875, (-17)); (37497356659138298, (-17))];
  [(30529863887384912, (-17)); (32840697275562025, (-17)); (32408463355654626, (-17)); (90410712241368185, (-17)); (30371560141053461, (-17)); (30057801759391672, (-17)); ((-20952258057064771), (-17)); (92815400050669128, (-17)); ((-30762060980116596), (-17)); ((-37241186800620096), (-17)); (21514410241338727, (-17)); (90278591912195316, (-17))];
  [(62142469878391315, (-17)); (11719784016351753, (-17)); (51972560955768499, (-17)); (70569106122644398, (-17)); (40379469235461696, (-17)); (58219410210971356, (-17)); ((-43414836367873377), (-17)); (89581077835156753, (-17)); ((-95069699190839588), (-18)); ((-55992439169960551), (-17)); ((-18566877986187941), (-17)); (80747246378091908, (-17))];
  [(49254956084610291, (-17)); (75060609129273737, (-17)); (74473444153056279, (-17)); (64786669589119528, (-17)); (59720934566656803, (-17)); (47287391744896995, (-17)); ((-25848901394127305), (-17)); (75629275617288072, (-17)); ((-60100307539320963), (-17)); ((-71655577174892249), (-17)); (26713716403551446, (-17)); (64434894394603359, (-17))];
  [(87191509342804352, (-17)); (24392232473268338, (-17)); (785849842922129, (-15)); (45471982631335289, (-17)); (45513078723395767, (-17)); (76556243773408328, (-17)); ((-55580600167742011), (-17)); (81666219840864496, (-17)); ((-15537870571516116), (-17)); ((-69592353607053248), (-17)); ((-35485041947580809), (-17)); (62431691610986262, (-17))];
  [(19023599762602594, (-18)); (13030476735887841, (-17)); (65512322533615797, (-17)); (79282937516837571, (-17)); (60914672138709924, (-17)); (19022452351648018, (-18)); ((-60213189145209667), (-17)); (78775620859830597, (-17)); ((-12991282119615019), (-17)); ((-94121024040559512), (-18)); (91544675640749473, (-18)); (99134293016866082, (-17))];
  [(81207310462967852, (-17)); (36930295435528593, (-17)); (9303195384725419, (-16)); (41113079735221364, (-17)); (55164225561761993, (-17)); (72571501933309712, (-17)); ((-59121185806419452), (-17)); (7673294568375254, (-16)); ((-24834259311223839), (-17)); ((-69385877983406363), (-17)); ((-3269500366822623), (-16)); (64161021435186927, (-17))];
  [(13858909192842395, (-17)); (71444777553278882, (-17)); (78014837274506754, (-18)); (98739944212186725, (-17)); (77188468152087089, (-18)); (13814587247456714, (-17)); (31360969629232988, (-18)); (76021158431578006, (-17)); ((-64891820490413565), (-17)); ((-15510909477312879), (-17)); (64507386201614603, (-17)); (7482117890425376, (-16))];
  [(39339807329507936, (-17)); (70705903136976178, (-17)); (47526746282655552, (-17)); (82124825756052711, (-17)); (42262286145637418, (-17)); (3833291228542704, (-16)); ((-1264710284814248), (-16)); (78995600587166148, (-17)); ((-5999788227447217), (-16)); ((-55637790970584788), (-17)); (44425153433805709, (-17)); (70219954131972595, (-17))];
  [(23946935360653154, (-17)); (79119420557015929, (-17)); (21350682084360384, (-17)); (94940578771389406, (-17)); (20584193763204031, (-17)); (2371871559913134, (-16)); (15898914374773143, (-18)); (72277676402301805, (-17)); ((-6908986712319819), (-16)); ((-31364928626901745), (-17)); (65971421547538422, (-17)); (68293577964742358, (-17))];
  [(43550266185411901, (-17)); (72639705450560532, (-18)); (75880462280790584, (-17)); (6579246231563034, (-16)); (62383018683058711, (-17)); (42186619708570022, (-17)); ((-66402231419459257), (-17)); (74481174279171192, (-17)); ((-65801474536903562), (-18)); ((-35525984363039687), (-17)); ((-23683615813149736), (-17)); (90426714952231801, (-17))];
  [(30463021484744679, (-17)); (13442515129113242, (-17)); (7115947079591588, (-16)); (72245278244272382, (-17)); (62297488861573547, (-17)); (2999404362452292, (-16)); ((-61670793796329115), (-17)); (77674041732392285, (-17)); ((-12785008153506755), (-17)); ((-31262324992526019), (-17)); ((-92610000808066667), (-18)); (94535183469251172, (-17))];
  [(96954316896116866, (-17)); (87548350389119989, (-17)); (61991811109401418, (-17)); (4604186720610573, (-16)); (32864012093211326, (-17)); (82462738090076693, (-17)); (14318883146047134, (-17)); (88928704171022344, (-17)); ((-43435643887395525), (-17)); ((-87607739667367135), (-17)); (31806324584900614, (-17)); (36238676393802982, (-17))];
  [(84510435302483955, (-17)); (27405444519168232, (-17)); (69743774578110995, (-17)); (50868377629616646, (-17)); (42623516969057668, (-17)); (74804037046934646, (-17)); ((-46311399447060503), (-17)); (86790900612303989, (-17)); ((-17960897866197448), (-17)); ((-72578663797189891), (-17)); ((-25506379047085953), (-17)); (63888670273537973, (-17))];
  [(94429825818245217, (-17)); (69652877302453664, (-17)); (23651234781842634, (-17)); (56998922125411144, (-17)); (13738069751752771, (-17)); (81008569398782071, (-17)); (32551354354076351, (-17)); (86749616582308353, (-17)); ((-37615334008059087), (-17)); ((-75442244175638562), (-17)); (47809721420632306, (-17)); (44974418633539465, (-17))];
  [(34859769941136809, (-17)); (82466957384473871, (-17)); (39841778192441146, (-17)); (86623960355457741, (-17)); (36462573210481453, (-17)); (34158018783389149, (-17)); ((-32163145588200409), (-18)); (72294561384854572, (-17)); ((-69015590375147973), (-17)); ((-49859250024391738), (-17)); (58685408314518672, (-17)); (63797163243857602, (-17))];
  [(31921702658575313, (-17)); (36724144821564775, (-17)); (64082397745226605, (-17)); (76110754756006882, (-17)); (56765330636687517, (-17)); (31382323817374047, (-17)); ((-46767060509707165), (-17)); (81551747097690597, (-17)); ((-34090388624885215), (-17)); ((-44944355171171013), (-17)); (11269861712632492, (-17)); (88617126760157228, (-17))];
  [(99946673279908504, (-17)); (12100839913178463, (-17)); (96175692531003554, (-17)); (30935272323042767, (-17)); (44352281914159986, (-17)); (84118273967706103, (-17)); ((-75611007023516141), (-17)); (65118094859797171, (-17)); ((-65275829156167184), (-18)); ((-57671349413629791), (-17)); ((-61583348486724365), (-17)); (53679666969660755, (-17))];
  [(78332100761435708, (-19)); (97890696764079732, (-17)); (52828063297964856, (-17)); (86364849505713581, (-17)); (5040336487382765, (-16)); (78331299698313674, (-19)); ((-27560968488133258), (-17)); (48514679834106983, (-17)); ((-82986257034464572), (-17)); ((-42207887720798948), (-17)); (71455067349977985, (-17)); (55791285736739737, (-17))];
  [(14583391083306385, (-17)); (60137294356578863, (-17)); (90599575138017685, (-17)); (61035381512681397, (-17)); (77868545202743988, (-17)); (1453175390686364, (-16)); ((-59824138269653471), (-17)); (57338071891241627, (-17)); ((-55976941610704234), (-17)); ((-51920657583420615), (-17)); (25472243320976362, (-17)); (81580697081492026, (-17))];
  [(76273304548603926, (-18)); (83200360493771064, (-17)); (60664748071010111, (-17)); (81917534341612386, (-17)); (56845880462954024, (-17)); (7619937124563321, (-17)); ((-33763298796499525), (-17)); (58535405439377719, (-17)); ((-73713268577820934), (-17)); ((-4636331763117314), (-16)); (5781134996208972, (-16)); (67143805327012396, (-17))];
  [(42027403529995266, (-17)); (55714001462683926, (-17)); (69914142665269963, (-18)); (91074676359307438, (-17)); (63778028438651754, (-18)); (40801065634762446, (-17)); (15592027223691113, (-17)); (86176828073540546, (-17)); ((-48274661989900114), (-17)); ((-3823992694949982), (-16)); (50327705432179359, (-17)); (77490838509005056, (-17))];
  [(6044441419105373, (-16)); (29815905681226684, (-17)); (8773704750014264, (-16)); (52592527990661075, (-17)); (63279717216932319, (-17)); (5683047939703314, (-16)); ((-62842133702279857), (-17)); (7393659434541634, (-16)); ((-24171186324757218), (-17)); ((-57313979370623991), (-17)); ((-23001247912807388), (-17)); (78651448576343841, (-17))];
  [(33446503530176375, (-17)); (47459547912619404, (-17)); (17017387065624168, (-17)); (93094182636708966, (-17)); (15996915346023846, (-17)); (32826389667692984, (-17)); ((-27935795595845636), (-19)); (90203412849382114, (-17)); ((-43165568100702278), (-17)); ((-36515683183195635), (-17)); (40092929672650141, (-17)); (84018818558275454, (-17))];
  [(16399756910339569, (-18)); (95267831025125638, (-17)); (97917742948969011, (-17)); (55763050455662611, (-17)); (82992728143619343, (-17)); (16399021795582048, (-18)); ((-47355597893511647), (-17)); (33428492795783227, (-17)); ((-81486092172531521), (-17)); ((-68175725533559683), (-17)); (44662545210517979, (-17)); (57942449924827788, (-17))];
  [(75449601795031751, (-17)); (45354166281559372, (-17)); (46503675865878868, (-17)); (65124141969782423, (-17)); (32675233632038547, (-17)); (68492154585699228, (-17)); ((-13488661565405063), (-17)); (93802363451969062, (-17)); ((-31924483081150457), (-17)); ((-74678659213148624), (-17)); (11551870753968563, (-17)); (65495436025802733, (-17))];
  [(24266718805771026, (-18)); (60479281189415424, (-17)); (42001249710739996, (-17)); (91281501210330207, (-17)); (40765180683874902, (-17)); (24264337204049764, (-18)); ((-32284389757347343), (-17)); (75674678404136708, (-17)); ((-56842424529801439), (-17)); ((-25008112979274777), (-17)); (51103259115652477, (-17)); (82237772300654588, (-17))];
  [(80061270744496704, (-17)); (9990904031752178, (-16)); (6528043828296648, (-17)); (69478399255233492, (-17)); (45420342018737153, (-18)); (71778283360912021, (-17)); (56705861696314164, (-17)); (57929293054031161, (-17)); ((-58554609174160377), (-17)); ((-44240222492759462), (-17)); (81385299234991992, (-17)); (37672745881100217, (-17))];
  [(99669394214087814, (-17)); (32197692440402403, (-17)); (26862762235112037, (-17)); (52360425646745545, (-17)); (14413840852046983, (-17)); (83968011873471748, (-17)); (44114242334406528, (-19)); (98511255115928065, (-17)); ((-17185401038290118), (-17)); ((-85195018747893692), (-17)); (93687676551614002, (-18)); (51517326921819662, (-17))];
  [(12288525195947753, (-17)); (43794033011298494, (-17)); (50096538750993036, (-17)); (87050505605278472, (-17)); (47665083719198353, (-17)); (12257620809406435, (-17)); ((-38935379125178909), (-17)); (81930826640756405, (-17)); ((-42087716715698709), (-17)); ((-30103915463672892), (-17)); (31865019064863809, (-17)); (89879779893766443, (-17))];
  [(24212393233117602, (-17)); (77790879481757091, (-17)); (74121997620797964, (-18)); (96816523405971633, (-17)); (71894053091547241, (-18)); (23976514485672107, (-17)); (11504816405251808, (-17)); (72288736546974985, (-17)); ((-68132061233486052), (-17)); ((-22230609417251596), (-17)); (68721546983044124, (-17)); (69160313657435524, (-17))];
  [(77610952256201249, (-17)); (48049738656422303, (-17)); (33411993770290471, (-17)); (67417920407126775, (-17)); (23403099659446011, (-17)); (70050831075072595, (-17)); (15079489624996667, (-18)); (94390911927525711, (-17)); ((-32986085481860111), (-17)); ((-73841384723641357), (-17)); (23294863636006199, (-17)); (63283483076353042, (-17))];
  [(15713886837359081, (-17)); (20090986023553781, (-17)); (64414823490288975, (-17)); (7897596007189287, (-16)); (59311864162797634, (-17)); (15649297117015351, (-17)); ((-56346663040964184), (-17)); (80228179640682373, (-17)); ((-19710219574891583), (-17)); ((-2424564486399205), (-16)); (67484784267448264, (-18)); (96781231362557774, (-17))];
  [(45108803550033183, (-17)); (10426506564595517, (-17)); (72346845306050511, (-19)); (89994975902342422, (-17)); (65109661964147698, (-19)); (43594499487076321, (-17)); (38175002054704074, (-18)); (99487153824418795, (-17)); ((-93665850819637922), (-18)); ((-43431912282537594), (-17)); (10093676094878649, (-17)); (89508584495419408, (-17))];
  [(37677744087389742, (-17)); (65710532354824047, (-17)); (33823721481241686, (-18)); (92932327767359812, (-17)); (3144516417663884, (-17)); (36792587191430931, (-17)); (19783541369302005, (-17)); (79891089940379512, (-17)); ((-56798109467017532), (-17)); ((-31180024801611717), (-17)); (60062681963405806, (-17)); (73622552853956691, (-17))];
  [(27560128692151331, (-17)); (31720287315498175, (-17)); (49255633982030789, (-17)); (84787470663357822, (-17)); (45503422919047476, (-17)); (27212558151716304, (-17)); ((-37449971768103385), (-17)); (87730632559237187, (-17)); ((-30013925523402846), (-17)); ((-37531112867572902), (-17)); (15256952952880784, (-17)); (91425603380645437, (-17))];
  [(34384157291514184, (-17)); (18110005024245657, (-17)); (59558905435724263, (-17)); (77936316984404275, (-17)); (5281594487143404, (-16)); (33710628327637232, (-17)); ((-50155956155667913), (-17)); (84834208682392886, (-17)); ((-16956918922461445), (-17)); ((-37554101733594625), (-17)); ((-3692289881611921), (-17)); (9260699994283893, (-16))];
  [(56964049263700123, (-17)); (40467265465437574, (-17)); (192334103988404, (-15)); (8265673187799476, (-16)); (16096684731911623, (-17)); (53932934426848389, (-17)); (32716637362475431, (-18)); (94287096795922387, (-17)); ((-33154782372883768), (-17)); ((-56188618880038399), (-17)); (2916916382822457, (-16)); (77408003397038905, (-17))];
  [(42732851220891432, (-17)); (20934246510098675, (-17)); (67291472513266637, (-17)); (71168715086851586, (-17)); (56722132766410316, (-17)); (41444102684414147, (-17)); ((-54230799029310162), (-17)); (81861604707703095, (-17)); ((-1891290858969967), (-16)); ((-44654612634408941), (-17)); ((-90153940074455374), (-18)); (89020718045640368, (-17))];
  [(33163465843323947, (-17)); (17252828182361202, (-17)); (82683361523845178, (-17)); (64030876674768378, (-17)); (69569853613807298, (-17)); (32558905086228324, (-17)); ((-68701448530738396), (-17)); (70828208732572118, (-17)); ((-1623193819337348), (-16)); ((-34353424895327445), (-17)); ((-1197498709346352), (-16)); (93147420157900662, (-17))];
  [(66242786828183275, (-17)); (75772534658073165, (-17)); (5942113694988268, (-16)); (65334454067248438, (-17)); (4414467926011989, (-16)); (61503304014953086, (-17)); ((-56439283196587808), (-18)); (8385366934794467, (-16)); ((-54191403469628985), (-17)); ((-75495398434985139), (-17)); (31934455215436247, (-17)); (57276831138219741, (-17))];
  [(18276923919665233, (-17)); (91189797677777218, (-17)); (74333843120476928, (-17)); (7239511208102577, (-16)); (66547763509292368, (-17)); (18175338200072444, (-17)); ((-30853868331379175), (-17)); (54799709120101736, (-17)); ((-77749795429583968), (-17)); ((-61700782456672565), (-17)); (5067925662698235, (-16)); (60204870168208413, (-17))];
  [(93666772326762426, (-17)); (506704755040562, (-15)); (98952935060581904, (-17)); (3253185265458442, (-16)); (4951720647446447, (-16)); (80558828354350231, (-17)); ((-51608750479462051), (-17)); (80683424799754366, (-17)); ((-28752770936572464), (-17)); ((-79235190646637765), (-17)); ((-32221595639378819), (-17)); (51803024406334919, (-17))];
  [(14808868985820389, (-17)); (79999621763259432, (-17)); (65566429236313173, (-18)); (98692970378931122, (-17)); (64802344031709716, (-18)); (14754801247844096, (-17)); (59968622410636302, (-18)); (70214724416511787, (-17)); ((-70950194632396946), (-17)); ((-14957781956063126), (-17)); (70907679677121449, (-17)); (68908386439979918, (-17))];
  [(27917569115875751, (-17)); (94057699174592702, (-17)); (16179947498892555, (-17)); (94872759421706465, (-17)); (15485733131398632, (-17)); (2755633482693427, (-16)); (12478292562160276, (-17)); (61748883194920945, (-17)); ((-77661880217473134), (-17)); ((-29042240520389317), (-17)); (77118528860210445, (-17)); (56650514313576572, (-17))];
  [(25338144397947293, (-17)); (49598627544142737, (-17)); (74665473359354251, (-17)); (7105297514126987, (-16)); (65750101191934485, (-17)); (25067886165858905, (-17)); ((-50978455014847956), (-17)); (72654769012642739, (-17)); ((-46070398999994011), (-17)); ((-48504348752181048), (-17)); (19955168076713919, (-17)); (85141760723847437, (-17))];
  [(36822980591017329, (-17)); (35435090258363555, (-17)); (62459386115336524, (-17)); (75682266810250898, (-17)); (54556854046060477, (-17)); (35996446589335052, (-17)); ((-4471175174951485), (-16)); (83384046736899331, (-17)); ((-32372210385890288), (-17)); ((-47676553419387935), (-17)); (84053807989550422, (-18)); (87500261872024165, (-17))];
  [(3234303642372186, (-16)); (82569221222027678, (-17)); (46771699002640788, (-17)); (84631927847609323, (-17)); (42747343480573113, (-17)); (31782092664753087, (-17)); ((-97183050721981912), (-18)); (71054611421163094, (-17)); ((-69690722067655486), (-17)); ((-52373574780806542), (-17)); (55891920893286717, (-17)); (64289204720060444, (-17))];
  [(43971233637293894, (-17)); (96307113861546323, (-17)); (19163151971514569, (-17)); (88831025187459112, (-17)); (17234305706495368, (-17)); (42567918330123528, (-17)); (23431058313629585, (-17)); (62710774805968206, (-17)); ((-7428555868766441), (-16)); ((-39497271683602342), (-17)); (7596273711531335, (-16)); (5166844394310226, (-16))];
  [(60058617017218374, (-18)); (66216576602790955, (-17)); (80640572921196307, (-17)); (69084942262046434, (-17)); (72050286092989169, (-17)); (60022517914631056, (-18)); ((-54371919903097987), (-17)); (57246821177056073, (-17)); ((-61371783346854625), (-17)); ((-47654643831433774), (-17)); (39135121553926167, (-17)); (78724057201459174, (-17))];
  [(83512227366056702, (-17)); (95126258493777416, (-17)); (57191755560620416, (-17)); (56429336849850398, (-17)); (36322280347943098, (-17)); (74137857353794245, (-17)); (1932626668659061, (-16)); (81494465930218429, (-17)); ((-54636502804510167), (-17)); ((-80263474623547759), (-17)); (45159096238453389, (-17)); (3896704592705495, (-16))];
  [(2981292843800617, (-16)); (69712412276510849, (-17)); (51690417162305047, (-18)); (95461091800851994, (-17)); (49388231209017884, (-18)); (29373252771352271, (-17)); (14871596921521066, (-17)); (77541116015298039, (-17)); ((-61369462537208963), (-17)); ((-25807277213861851), (-17)); (62952230725229541, (-17)); (73287114075561421, (-17))];
  [(27805990066587738, (-17)); (35875301021557393, (-17)); (83885671654327998, (-17)); (64264365475871088, (-17)); (71530696267831462, (-17)); (27449058661872361, (-17)); ((-6321116283504622), (-16)); (69745757917393081, (-17)); ((-33762081475668421), (-17)); ((-43294805958970883), (-17)); (43461182643414309, (-18)); (90037053666851063, (-17))];
  [(31211383443724305, (-17)); (17496870003087084, (-17)); (29220201622123254, (-17)); (91134639480456836, (-17)); (27414436322967656, (-17)); (30707102889414833, (-17)); ((-23247518908028128), (-17)); (9583891253069784, (-16)); ((-16566704849007327), (-17)); ((-3397102223054278), (-16)); (79593671876098226, (-18)); (93715623684553095, (-17))];
  [(94208752124905759, (-18)); (34823192461041674, (-17)); (67609119295722764, (-17)); (77656569041508472, (-17)); (6229740487045542, (-16)); (94069458969415931, (-18)); ((-56315111530306772), (-17)); (75329207622932859, (-17)); ((-33972322443868697), (-17)); ((-28250053062437575), (-17)); (21084207960168494, (-17)); (93580931159407843, (-17))];
  [(87295120995747988, (-17)); (92389797367596993, (-17)); (91578489837396015, (-17)); (39143208919837885, (-17)); (50958278511303845, (-17)); (7662286242775268, (-16)); ((-10552097428484619), (-17)); (85203361179335235, (-17)); ((-51274169750504195), (-17)); ((-91413688446083907), (-17)); (11985036291481982, (-17)); (38728496869542561, (-17))];
  [(50012757819217768, (-18)); (77051760778174894, (-17)); (90277210556345577, (-17)); (61866158889912226, (-17)); (78406546106890596, (-17)); (49991911141876448, (-18)); ((-54174213559404716), (-17)); (47181164598197395, (-17)); ((-69563584527954103), (-17)); ((-56901080564679485), (-17)); (40328045263139678, (-17)); (71665303988931861, (-17))];
  [(66724020501768344, (-17)); (78771130379466481, (-18)); (84751460926511801, (-17)); (51990335595889814, (-17)); (58886481147600467, (-17)); (61882043782344875, (-17)); ((-71508469611424896), (-17)); (69629949880996467, (-17)); ((-61813310380405891), (-18)); ((-46728404407369573), (-17)); ((-41037207722056529), (-17)); (78309666095049268, (-17))];
  [(15263989492813634, (-17)); (3663115048472958, (-16)); (10397886004322787, (-18)); (98831970302321204, (-17)); (10276805973030148, (-18)); (15204786047525459, (-17)); (44748799442785411, (-18)); (93417060068775404, (-17)); ((-35400965207054758), (-17)); ((-14567672966036535), (-17)); (35667867341582599, (-17)); (92279933591533725, (-17))];
  [(93977078670022918, (-18)); (70791697422857491, (-17)); (91013053700660262, (-18)); (99146683648989531, (-17)); (90486406819601989, (-18)); (93838810316396834, (-18)); ((-82824481381746501), (-19)); (76211952868365163, (-17)); ((-6473833679141342), (-16)); ((-13009578468788935), (-17)); (64108192470220704, (-17)); (75636568710284324, (-17))];
  [(19879674163091499, (-17)); (56455434534777027, (-17)); (57644178995416684, (-17)); (8218948344036916, (-16)); (53430947499498094, (-17)); (19748991394781684, (-17)); ((-37187788586414933), (-17)); (76590128559719173, (-17)); ((-52450172423527786), (-17)); ((-43150401989522535), (-17)); (35764312610639754, (-17)); (82818818825379559, (-17))];
  [(28578823884342697, (-17)); (67974121723725089, (-17)); (69054817233803611, (-17)); (73962918204284722, (-17)); (61112460169410432, (-17)); (28191380646369774, (-17)); ((-3587765913153938), (-16)); (71242870159787153, (-17)); ((-60309593155954688), (-17)); ((-56941024805910867), (-17)); (34492327602496348, (-17)); (74619025929146998, (-17))];
  [(96355659086462964, (-17)); (35786331505207658, (-17)); (5647980711055034, (-16)); (48198633178300965, (-17)); (30541246212596768, (-17)); (82122615883355354, (-17)); ((-25835574108018783), (-17)); (94514836064177898, (-17)); ((-19986717446110258), (-17)); ((-83722248358800389), (-17)); ((-11583524659753708), (-17)); (53445365432413527, (-17))];
  [(93489358818883062, (-17)); (3649006917996459, (-16)); (44783265422074592, (-17)); (53533780273796727, (-17)); (25716813156726304, (-17)); (80453588426240386, (-17)); ((-14571110857248459), (-17)); (96635931767645422, (-17)); ((-21193853349137648), (-17)); ((-8319745848271225), (-16)); ((-37711067474384685), (-19)); (55480092732045483, (-17))];
  [(35989998260652833, (-17)); (13745395844325659, (-18)); (69822508196430111, (-17)); (71690936623902868, (-17)); (60167247534208756, (-17)); (35218062555239943, (-17)); ((-63909050420683733), (-17)); (76902395014361979, (-17)); ((-12864351447075078), (-18)); ((-27857546200518951), (-17)); ((-21585271951316359), (-17)); (93584363835384754, (-17))];
  [(57759985077147891, (-17)); (47282625958221991, (-17)); (64955234785680316, (-17)); (66716646237591648, (-17)); (50671178349236679, (-17)); (5460147250311016, (-16)); ((-34045140258169881), (-17)); (85937786228489477, (-17)); ((-38152658137382567), (-17)); ((-66255698167097954), (-17)); (68650260630453375, (-18)); (74585882561944117, (-17))];
  [(40780395420050819, (-17)); (18912119881450784, (-17)); (80864239375278979, (-17)); (63385748417253851, (-17)); (66403134555668886, (-17)); (39659432910296799, (-17)); ((-65897202886405515), (-17)); (73210131715738536, (-17)); ((-17257904447299666), (-17)); ((-40494512582972403), (-17)); ((-15195405073440732), (-17)); (90162598206360167, (-17))];
  [(6949348137745649, (-16)); (12272384663315383, (-17)); (29800922418012632, (-17)); (73424003253528947, (-17)); (22552646504989354, (-17)); (64033537164885412, (-17)); ((-21647720359098432), (-17)); (97174920047258084, (-17)); ((-94027185996006332), (-18)); ((-64345100431035496), (-17)); ((-69579486510028196), (-18)); (76231850306089011, (-17))];
  [(4088021433670237, (-16)); (61843700436601234, (-17)); (24808288855720428, (-17)); (88950533640706753, (-17)); (22531242375730168, (-17)); (39751046301193105, (-17)); (23338666578701511, (-18)); (84642983215975665, (-17)); ((-53198857682504297), (-17)); ((-45632835014458384), (-17)); (48248404215125756, (-17)); (74764536106613122, (-17))];
  [(223699457105759, (-15)); (27964323596344653, (-17)); (33261565143454974, (-17)); (92164060519514335, (-17)); (31838076842454732, (-17)); (22183841225749099, (-17)); ((-25595827023759998), (-17)); (92846726440498739, (-17)); ((-26913547299695584), (-17)); ((-29165726247173329), (-17)); (19126480393871259, (-17)); (93720532223295683, (-17))];
  [(52630672672512668, (-17)); (73954885654058022, (-17)); (37601349982744792, (-17)); (80425900847601428, (-17)); (31751950773316112, (-17)); (50234331835316526, (-17)); (4361497463540609, (-17)); (81148222866635111, (-17)); ((-58274722354228758), (-17)); ((-59267628708489029), (-17)); (49058939528650936, (-17)); (6387932873470773, (-16))];
  [(27510787818047711, (-17)); (33097319041238404, (-17)); (48504360424029969, (-17)); (85138797708988778, (-17)); (44871413731722021, (-17)); (27165076005498578, (-17)); ((-36284780136391698), (-17)); (87780004500587971, (-17)); ((-31274359151395437), (-17)); ((-3787875202698211), (-16)); (16769825270210326, (-17)); (91016334277342847, (-17))];
  [(90004805560207624, (-19)); (52908747393611444, (-17)); (50814375732991157, (-17)); (87361379265020156, (-17)); (48653667367274062, (-17)); (90003590370494099, (-19)); ((-41605967044992903), (-17)); (75640377380266766, (-17)); ((-50472535264456375), (-17)); ((-25237529973519013), (-17)); (43719034315564193, (-17)); (86323305771675873, (-17))];
  [(37620163611425927, (-17)); (19658185938452977, (-17)); (48850966853124178, (-18)); (92895728098264463, (-17)); (45416594734283743, (-18)); (36739039594425132, (-17)); (23781374505041232, (-18)); (9830739909314572, (-16)); ((-18165895128164769), (-17)); ((-36942227374101694), (-17)); (17749045404426378, (-17)); (91215367257232383, (-17))];
  [(40113473038341274, (-17)); (30476700272777768, (-17)); (60006427478631064, (-17)); (75978583632843544, (-17)); (51986915223611918, (-17)); (39046324726918774, (-17)); ((-44197502624494961), (-17)); (8534304570608473, (-16)); ((-27625084820990037), (-17)); ((-47684752184579526), (-17)); (37316477784111318, (-18)); (87819355576963309, (-17))];
  [(2478477403675251, (-16)); (342383133070709, (-15)); (5645633406387951, (-16)); (81900678709092667, (-17)); (51869735254832916, (-17)); (24531803675708769, (-17)); ((-43441068281894557), (-17)); (83985367649337517, (-17)); ((-32547374814774027), (-17)); ((-37485362656879162), (-17)); (15999643289747259, (-17)); (91317353230824061, (-17))];
  [(47923587435902104, (-17)); (37283065195205756, (-17)); (26196093279001653, (-17)); (85707477552443578, (-17)); (22980089722006491, (-17)); (46110126522987466, (-17)); ((-78955981359336763), (-18)); (94302459715438025, (-17)); ((-32321906219993107), (-17)); ((-50910586538294977), (-17)); (24061620227796798, (-17)); (82638675027737818, (-17))];
  [(7757552461914079, (-16)); (85423715084466845, (-17)); (66938803843390737, (-17)); (55983549690484469, (-17)); (44297464470615744, (-17)); (70025543950244273, (-17)); (65463908888200306, (-19)); (84271196383909086, (-17)); ((-53832489332074707), (-17)); ((-82857791496734712), (-17)); (30595752997747339, (-17)); (46888018584543223, (-17))];
  [(61167079167256944, (-17)); (91174826316122026, (-17)); (18522441073245943, (-17)); (80468600023964632, (-17)); (15077572221849794, (-17)); (57423612095357623, (-17)); (33343430957463666, (-17)); (6854976595113369, (-16)); ((-64723606203839157), (-17)); ((-49122500162024052), (-17)); (71229182249550604, (-17)); (50133657096727469, (-17))];
  [(39309976756316189, (-17)); (57310275593872628, (-17)); (90432787646123336, (-17)); (57106043517123684, (-17)); (72605779989500296, (-17)); (38305358710455312, (-17)); ((-53201543737393509), (-17)); (68269759688866838, (-17)); ((-50088278628662997), (-17)); ((-62517961721241211), (-17)); (82243920225541001, (-18)); (77613554473949764, (-17))];
  [(29379524465756424, (-17)); (11895255003649075, (-18)); (21266432827740611, (-17)); (93558904113048469, (-17)); (20202118175220857, (-17)); (28958692691484056, (-17)); ((-2076829912983309), (-16)); (97812992499827722, (-17)); ((-11385295263706643), (-18)); ((-28555370990746642), (-17)); ((-49490321743806479), (-18)); (95708400196209364, (-17))];
  [(71165136684740549, (-17)); (88222915919540135, (-17)); (29125700504923036, (-17)); (7253903889083072, (-16)); (21745915752680164, (-17)); (65308521533348818, (-17)); (30057760461779282, (-17)); (75347800513596463, (-17)); ((-58474267791786605), (-17)); ((-61924299534325355), (-17)); (62046950818236102, (-17)); (48120235050782345, (-17))];
  [(40675132664560754, (-17)); (2802004250101211, (-16)); (9679623621520117, (-16)); (52071987260558916, (-17)); (75652458990182836, (-17)); (39562780380995638, (-17)); ((-72957330354516592), (-17)); (63499168585403609, (-17)); ((-25398494768478386), (-17)); ((-44336622450048246), (-17)); ((-15638447419779078), (-17)); (88259293403135075, (-17))];
  [(47754284047870676, (-17)); (25605755226625637, (-17)); (15659237528983438, (-17)); (87726018536661488, (-17)); (13850622285793263, (-17)); (45959829568892141, (-17)); ((-35890902766868724), (-18)); (97371260317615616, (-17)); ((-22493467832793781), (-17)); ((-47867150559555116), (-17)); (18083083986295695, (-17)); (85917041213332412, (-17))];
  [(95157326086501659, (-17)); (73796040162065546, (-17)); (25740551980663495, (-18)); (58021038551175097, (-17)); (1493823497246771, (-17)); (81432963698996774, (-17)); (5286416253618148, (-16)); (75369800024724887, (-17)); ((-39048349050647047), (-17)); ((-61959175307546188), (-17)); (65705111944140648, (-17)); (42940643446701005, (-17))];
  [(19755738238709109, (-17)); (33372723156339656, (-17)); (4813310525079717, (-17)); (97941328029393948, (-17)); (47178642560376696, (-18)); (19627481262257035, (-17)); (18758720119255876, (-18)); (94682714929556877, (-17)); ((-32119536076399696), (-17)); ((-20099188243148602), (-17)); (31826486617750782, (-17)); (92645007321153605, (-17))];
  [(26155085370235898, (-17)); (74768718068476514, (-17)); (53511822031109724, (-17)); (83095276850906552, (-17)); (49259964672025891, (-17)); (25857897160866661, (-17)); ((-22268104298626987), (-17)); (72041713785786476, (-17)); ((-65681983874973626), (-17)); ((-50983394316352315), (-17)); (4882056283286364, (-16)); (70832521829070505, (-17))];
  [(1993347217729321, (-16)); (62760542093413385, (-17)); (74617648234325251, (-17)); (71974975606166669, (-17)); (66539420606245869, (-17)); (1980172699228066, (-16)); ((-46409310983543139), (-17)); (67329381235790842, (-17)); ((-57558060047558235), (-17)); ((-51631179925743476), (-17)); (32237554618653064, (-17)); (79340792356043843, (-17))];
  [(66989736216782103, (-17)); (78366817903255526, (-17)); (35431539830642578, (-17)); (73519375331392101, (-17)); (27196776081906227, (-17)); (6209055340092039, (-16)); (16530822781370128, (-17)); (81639332628346351, (-17)); ((-55333093770086228), (-17)); ((-65739131033599985), (-17)); (50944624237978975, (-17)); (55524876516731636, (-17))];
  [(35891754502348383, (-18)); (37224792415031405, (-18)); (10085496600524613, (-17)); (99427768029843944, (-17)); (10061923023292514, (-17)); (35884048931074213, (-18)); ((-99285643082513475), (-18)); (99436366551905087, (-17)); ((-37192227322506065), (-18)); ((-39424047712606464), (-18)); (33416630632827495, (-18)); (99866364370547867, (-17))];
  [(93636521682764684, (-17)); (71110924808191955, (-17)); (30999637336249108, (-17)); (56446725800908282, (-17)); (18081213128651935, (-17)); (80540901895579364, (-17)); (26949225413664207, (-17)); (88188364239095307, (-17)); ((-38685290000673), (-14)); ((-78022473659584701), (-17)); (43541728774003907, (-17)); (44906697266782925, (-17))];
  [(26179698826100062, (-17)); (24431109035228737, (-17)); (24425715319840291, (-17)); (93725508391142831, (-17)); (23359539665517554, (-17)); (25881672732590655, (-17)); ((-17390772776305516), (-17)); (95664291804872159, (-17)); ((-23364594918705114), (-17)); ((-30217380744609978), (-17)); (17397562475455633, (-17)); (93724248307723934, (-17))];
  [(67324838500986484, (-17)); (39232221174641424, (-18)); (77792282906286059, (-17)); (55693331910102428, (-17)); (54866842249194914, (-17)); (6235288607877848, (-16)); ((-68383929366987006), (-17)); (72898802865015522, (-17)); ((-30663895999263318), (-18)); ((-47136938647753734), (-17)); ((-40931579036845916), (-17)); (78119874887689988, (-17))];
  [(67112155726639566, (-17)); (28526273944752267, (-19)); (67330847495621937, (-17)); (61221780903416601, (-17)); (48833764212259495, (-17)); (62186469717097603, (-17)); ((-62218649583640417), (-17)); (78286587217847781, (-17)); ((-22339599475544349), (-19)); ((-48792757526114616), (-17)); ((-38554814675261434), (-17)); (78312151536999852, (-17))];
  [(58285806301153853, (-17)); (45430003859323809, (-17)); (62789366933200808, (-18)); (83324770476695131, (-17)); (52387960574704719, (-18)); (55041235822556767, (-17)); (18467990378567983, (-17)); (91195383155336429, (-17)); ((-36637895989378283), (-17)); ((-52114450552444613), (-17)); (40693452876594444, (-17)); (75020843347680333, (-17))];
  [(83655371646246557, (-17)); (73769809860797242, (-17)); (84209387942390235, (-17)); (44617117423537106, (-17)); (49986491092739282, (-17)); (74233843636509877, (-17)); ((-21960685377558536), (-17)); (86526741717448963, (-17)); ((-45064967164192687), (-17)); ((-86758521947772893), (-17)); (38044284718436017, (-18)); (49583113994992661, (-17))];
  [(28680265473493649, (-17)); (17305172817375103, (-17)); (54189539600758008, (-17)); (82173791749307112, (-17)); (49469362090760827, (-17)); (28288693216101418, (-17)); ((-46632576610112902), (-17)); (8690591470347161, (-16)); ((-16515592276841562), (-17)); ((-32754705741976342), (-17)); (37974186773812868, (-19)); (9448272354176942, (-16))];
  [(96178530379628091, (-17)); (49958043771693339, (-17)); (28508309937311671, (-17)); (54896738310941673, (-17)); (16088358578652406, (-17)); (8202141696572115, (-16)); (13020486128126693, (-17)); (95286119550530313, (-17)); ((-27404787209341858), (-17)); ((-82564005860951595), (-17)); (25723921537097488, (-17)); (5021418919932894, (-16))];
  [(79843650548895528, (-17)); (60788272526054343, (-18)); (46287370374716119, (-17)); (62439716844899629, (-17)); (311594787433429, (-15)); (71626591743373635, (-17)); ((-40676158158456627), (-17)); (91255016193739102, (-17)); ((-42393604409905736), (-18)); ((-66683820509903158), (-17)); ((-26487901085657495), (-17)); (69653852573130826, (-17))];
  [(4793431509728473, (-16)); (94131353222295611, (-17)); (33146819530169314, (-17)); (83899848308704839, (-17)); (28875487181733733, (-17)); (46119645421380351, (-17)); (16091642673696485, (-17)); (67800064332746657, (-17)); ((-71723150464389718), (-17)); ((-51979558384410973), (-17)); (67597022985431443, (-17)); (5223761091080511, (-16))];
  [(46544015039023712, (-17)); (34931522445330387, (-17)); (89333111838218082, (-17)); (56014148087626758, (-17)); (69627980255165733, (-17)); (44881617390683121, (-17)); ((-63582284615473517), (-17)); (7086515485235434, (-16)); ((-30584684252559441), (-17)); ((-53100925576625668), (-17)); ((-11405007380010296), (-17)); (83965573359368972, (-17))];
  [(78628497430798694, (-17)); (41044743326526412, (-18)); (7748606902527021, (-16)); (50479262800435287, (-17)); (49426469858453942, (-17)); (7077335730665838, (-16)); ((-67827727665100801), (-17)); (73423399986631366, (-17)); ((-2898912587861124), (-17)); ((-53397035375697688), (-17)); ((-46540610349827649), (-17)); (70588442406331686, (-17))];
  [(10738588795027015, (-17)); (69354632488942058, (-17)); (53765318780680171, (-17)); (85396528087341494, (-17)); (50917170871583262, (-17)); (10717961609461352, (-17)); ((-33496356061116334), (-17)); (69557890693285107, (-17)); ((-63558586933064476), (-17)); ((-39817422333129621), (-17)); (50686699959012838, (-17)); (76455420514246064, (-17))];
  [(92396118449757025, (-17)); (60134344299457054, (-17)); (14480678664152813, (-18)); (60260070192354886, (-17)); (87266771016741643, (-19)); (79799513729596705, (-17)); (43947901091236635, (-17)); (83102716483628047, (-17)); ((-34095754907563136), (-17)); ((-66613106293636715), (-17)); (55616337205081789, (-17)); (49694236142668397, (-17))];
  [(56006859796738695, (-17)); (82613225959853376, (-17)); (6938151036437562, (-16)); (65135184070909058, (-17)); (54177509691058079, (-17)); (5312443166495151, (-16)); ((-13306530105257036), (-17)); (77084247496887104, (-17)); ((-62297311694779745), (-17)); ((-74701700466633847), (-17)); (33508450150879265, (-17)); (57418113134091719, (-17))];
  [(68207130716538378, (-17)); (67988273980772684, (-17)); (48153268611259736, (-17)); (68799610952697021, (-17)); (35951959106386505, (-17)); (63040226595168936, (-17)); ((-88914441020367385), (-19)); (87277512622210829, (-17)); ((-4880415159284745), (-16)); ((-7256599034654827), (-16)); (3301654777369285, (-16)); (6036625396802523, (-16))];
  [(32616351371067787, (-17)); (79247771642606546, (-18)); (10304027752910949, (-19)); (94727806202370246, (-17)); (97607828952544573, (-20)); (32041117408697073, (-17)); (24338120009346449, (-18)); (9968871456514149, (-16)); ((-74991164475460212), (-18)); ((-31948697801792952), (-17)); (78835690560478969, (-18)); (94430556747846373, (-17))];
  [(95046552725820188, (-17)); (94081174040325266, (-17)); (70622268415746481, (-18)); (5798553326202931, (-16)); (41018915640750012, (-18)); (81368620597344909, (-17)); (61427801158002937, (-17)); (63405848557939593, (-17)); ((-46971519174287746), (-17)); ((-53519185132164937), (-17)); (77219640340033957, (-17)); (34246517611939109, (-17))];
  [(93878193288716161, (-17)); (20414645135124654, (-17)); (2473114256204173, (-16)); (57279649028651325, (-17)); (14461966414945671, (-17)); (80683910010407323, (-17)); ((-81119880513384868), (-18)); (98948229799785992, (-17)); ((-11976788774278579), (-17)); ((-81567379858675515), (-17)); (3151934354127417, (-18)); (57850351736949779, (-17))];
  [(9464934598863296, (-16)); (71149890107790448, (-17)); (96811388934519516, (-17)); (33134438337757227, (-17)); (48154782035054228, (-17)); (81137081308103409, (-17)); ((-32362681387239273), (-17)); (86578569199804023, (-17)); ((-38168156999556341), (-17)); ((-88627116896971214), (-17)); ((-13611330664970411), (-17)); (44271501307945665, (-17))];
  [(32734420966199929, (-17)); (88576784341570014, (-18)); (26372628781942842, (-17)); (91416084122510921, (-17)); (24683760308457287, (-17)); (32152939846002182, (-17)); ((-2321984356769479), (-16)); (96905496800414637, (-17)); ((-8376368816892675), (-17)); ((-33225568895021035), (-17)); (19148602940566861, (-19)); (94318741004652695, (-17))];
  [(67569700301744029, (-17)); (55469328829727771, (-18)); (4985800191227574, (-16)); (68528290279696114, (-17)); (37310923116433037, (-17)); (62544131999263775, (-17)); ((-44698968224024538), (-17)); (89349252322789086, (-17)); ((-43258928634692488), (-18)); ((-57496744873508732), (-17)); ((-24992121269676015), (-17)); (77907112662403655, (-17))];
  [(66188421578257783, (-17)); (37505906962975788, (-17)); (9529212421708263, (-16)); (4569759469717688, (-16)); (64298877491485407, (-17)); (61460427855877342, (-17)); ((-62802127946339237), (-17)); (72255405460221422, (-17)); ((-28897216253311336), (-17)); ((-62989067022017309), (-17)); ((-25393123776210669), (-17)); (7340004564427639, (-16))];
  [(83716595327352272, (-17)); (1173785538921519, (-16)); (96971620371445355, (-18)); (66642481068141501, (-17)); (64827623329704639, (-18)); (74274851124836472, (-17)); ((-95794637524272974), (-19)); (99687494500247953, (-17)); ((-78412868207452982), (-18)); ((-7455107011857417), (-16)); (45141148409465537, (-18)); (66496321036416628, (-17))];
  [(58346308728083884, (-18)); (3214761260677178, (-16)); (37569285021323051, (-17)); (92867064837516333, (-17)); (3662927741829497, (-16)); (58313209719688543, (-18)); ((-33098000279033457), (-17)); (88935724983624564, (-17)); ((-31542973847850814), (-17)); ((-16740090979252148), (-17)); (27362983343390845, (-17)); (94715555726373046, (-17))];
  [(45262432691296195, (-17)); (44840117832449566, (-17)); (9910314915044437, (-16)); (49266239026982916, (-17)); (7523488391842299, (-16)); (43732710114027973, (-17)); ((-65002336221147017), (-17)); (6522811431434179, (-16)); ((-38987041293077362), (-17)); ((-57857877406012259), (-17)); ((-92198343139440114), (-18)); (81039870911140255, (-17))];
  [(15782497762655712, (-17)); (90755243867995572, (-17)); (73169115613457725, (-17)); (73479816305591883, (-17)); (65982502619879291, (-17)); (15717059003328099, (-17)); ((-31920083538970945), (-17)); (5408391536957986, (-16)); ((-77820552331381199), (-17)); ((-59848348870805024), (-17)); (52165500537364218, (-17)); (60802431621808217, (-17))];
  [(94623473774387534, (-17)); (69715231407665856, (-17)); (39063380429477101, (-19)); (58473722019155827, (-17)); (22841928669030294, (-19)); (811219554612434, (-15)); (51783415543737132, (-17)); (7687023083803417, (-16)); ((-37542582297066102), (-17)); ((-62444388922073146), (-17)); (63960264504900277, (-17)); (44830601787306629, (-17))];
  [(71567336106325263, (-18)); (30214753058129062, (-17)); (76507996586807403, (-17)); (71948048773171147, (-17)); (69082174456961787, (-17)); (71506258489227703, (-18)); ((-645871360674108), (-15)); (70338777715852163, (-17)); ((-29680940080288937), (-17)); ((-25533901627897554), (-17)); (16736472798586791, (-17)); (95225576112297772, (-17))];
  [(83942994286013939, (-17)); (50023041997906126, (-17)); (9056779771685467, (-16)); (41218809872204049, (-17)); (52552287473605264, (-17)); (74426250705047914, (-17)); ((-47012922452000405), (-17)); (82241265255716423, (-17)); ((-32033723037778294), (-17)); ((-78043544481534732), (-17)); ((-21786036133965309), (-17)); (5860523691896713, (-16))];
  [(61504258551420254, (-17)); (64745848212627477, (-17)); (90534329804312819, (-17)); (504273469055454, (-15)); (64248501538375868, (-17)); (57699330447944486, (-17)); ((-41256404791802659), (-17)); (76622802202156304, (-17)); ((-49263122580122282), (-17)); ((-75861661909838907), (-17)); (1037416388218515, (-17)); (65145468142571139, (-17))];
  [(28730495123403876, (-17)); (79985922017700151, (-17)); (9464955517696868, (-16)); (56057080975706641, (-17)); (77811474785824741, (-17)); (28336867578086833, (-17)); ((-44656544175378299), (-17)); (57221516749965062, (-17)); ((-68785834901860088), (-17)); ((-69738058008490278), (-17)); (25905065382824799, (-17)); (66824627591300623, (-17))];
  [(44773119767662939, (-17)); (26969095598563286, (-17)); (65621568786668683, (-17)); (71421040927450474, (-17)); (54998407570002306, (-17)); (4329214799017666, (-16)); ((-49668046847596997), (-17)); (83404201855495852, (-17)); ((-24017165427931175), (-17)); ((-49316529026122208), (-17)); ((-43490547951957559), (-18)); (86884783979728175, (-17))];
  [(91831472537609926, (-17)); (78976936298693867, (-17)); (44982124411512092, (-17)); (54676275490953019, (-17)); (2639959856157808, (-16)); (79457951736908838, (-17)); (2020626271642903, (-16)); (87933930089793932, (-17)); ((-43119959253202977), (-17)); ((-81253995873877249), (-17)); (39631870189921137, (-17)); (42744625624482674, (-17))];
  [(91486248017540039, (-17)); (4084671515595073, (-16)); (18030977071603893, (-17)); (60001198535838085, (-17)); (10937592993596147, (-17)); (79247872108778905, (-17)); (14509126429894634, (-17)); (9593026320410265, (-16)); ((-24225396835406487), (-17)); ((-78672367604542537), (-17)); (26033702408570825, (-17)); (55972358485217488, (-17))];
  [(81427816654466478, (-17)); (71543252610041164, (-17)); (2308098101669952, (-16)); (66819135573353738, (-17)); (15702345248369642, (-17)); (72723032630183793, (-17)); (29169767509381134, (-17)); (84391960813680134, (-17)); ((-45023567311697227), (-17)); ((-6844214918219933), (-16)); (51297498025959132, (-17)); (51809641106634707, (-17))];
  [(47286622333849582, (-17)); (86365483211108629, (-17)); (11383464574390767, (-17)); (88450459828037964, (-17)); (10112444661913302, (-17)); (45543985543300708, (-17)); (2701999461081257, (-16)); (68478711709975293, (-17)); ((-67680026106479552), (-17)); ((-38032039748615937), (-17)); (72169276742266408, (-17)); (5783735338911925, (-16))];
  [(79996170094073238, (-17)); (86989252702630759, (-17)); (1405130039098712, (-17)); (69666540276626088, (-17)); (97896991443665055, (-19)); (71732940716186044, (-17)); (53911028093333779, (-17)); (65254805762190471, (-17)); ((-53248580965679926), (-17)); ((-47330478719372893), (-17)); (75768409926864788, (-17)); (44932992793153315, (-17))];
  [(59406378879869237, (-17)); (47353597097026656, (-17)); (88581274952107425, (-17)); (52426843394226164, (-17)); (64174868014170505, (-17)); (55973318707050768, (-17)); ((-52772033841596222), (-17)); (76072287999172539, (-17)); ((-37790467618069679), (-17)); ((-6683216692535644), (-16)); ((-97259094142781999), (-18)); (73748682361968665, (-17))];
  [(62210215992447904, (-17)); (90479868738881131, (-17)); (56315364175617066, (-17)); (68716153943174163, (-17)); (43384045717771413, (-17)); (58274477813330172, (-17)); (57614170756076388, (-18)); (76705314899663446, (-17)); ((-63899145060199092), (-17)); ((-72421656019031255), (-17)); (47266470603396959, (-17)); (50209406450976135, (-17))];
  [(15775298777078095, (-17)); (53334255249541362, (-17)); (49078225185221014, (-17)); (87101289488371814, (-17)); (4654635171252503, (-16)); (15709949449847654, (-17)); ((-33541208470454065), (-17)); (79711537563419199, (-17)); ((-50210139549867339), (-17)); ((-35893630407140359), (-17)); (38464372106269062, (-17)); (85041985952034771, (-17))];
  [(48721510977796312, (-18)); (82896834694808907, (-18)); (59849394341883078, (-18)); (99702502612499833, (-17)); (59742692776410478, (-18)); (4870223752836933, (-17)); ((-5558285368392217), (-17)); (99502293936923258, (-17)); ((-82703666819337981), (-18)); ((-53400783297606925), (-18)); (79750616228564636, (-18)); (99538344147085656, (-17))];
  [(48664140337382877, (-17)); (50480119889964725, (-17)); (76800688978637532, (-17)); (6357924978100038, (-16)); (61405388567798769, (-17)); (46765983921252119, (-17)); ((-44536551198154872), (-17)); (78670439617867816, (-17)); ((-42748772353197967), (-17)); ((-63041054913915362), (-17)); (63513923803416417, (-18)); (77365917626378899, (-17))];
  [(94321796085150011, (-17)); (51913172383476902, (-17)); (91228119204067593, (-19)); (58716185113404462, (-17)); (53567157410259452, (-19)); (80945183066647752, (-17)); (39365297292356544, (-17)); (87187773496322185, (-17)); ((-29131864372854754), (-17)); ((-70730353984783689), (-17)); (48969431370179456, (-17)); (50982465774700192, (-17))];
  [(92034998876660667, (-18)); (52695073785913427, (-18)); (10237750118310485, (-17)); (9905539274315901, (-16)); (10176622701545285, (-17)); (91905124388641596, (-18)); ((-97241537025430452), (-18)); (99387791720817131, (-17)); ((-52447775576085605), (-18)); ((-96679885843872465), (-18)); (4301535452587734, (-17)); (99438557861034416, (-17))];
  [(42726667448918787, (-17)); (49049078568393933, (-17)); (4913503907875364, (-16)); (80243359167649075, (-17)); (42940145636871319, (-17)); (41438474901665362, (-17)); ((-24408375349559955), (-17)); (86984455643451974, (-17)); ((-42871152179610583), (-17)); ((-54453967002291603), (-17)); (24286794129662662, (-17)); (80280241084694803, (-17))];
  [(47710979241251239, (-17)); (88366483567900755, (-17)); (58978143324407273, (-17)); (73825409291933064, (-17)); (49406853477455742, (-17)); (45921365096605998, (-17)); ((-5776676133630565), (-17)); (72460703145540806, (-17)); ((-68673695928652001), (-17)); ((-67204456368054244), (-17)); (48045908557451922, (-17)); (56348484586218128, (-17))];
  [(56054348985930535, (-18)); (43792443486313171, (-17)); (99325651728088926, (-17)); (54510691282635015, (-17)); (83649247042649932, (-17)); (56024998962054123, (-18)); ((-74577652922388948), (-17)); (51434847370663117, (-17)); ((-42339463394618976), (-17)); ((-38298279602051977), (-17)); (18901321254195733, (-17)); (90421135993575852, (-17))];
  [(88350336822910358, (-17)); (93055316935185539, (-19)); (39512506077497001, (-17)); (58556191742757813, (-17)); (24421365585083615, (-17)); (77296631954730566, (-17)); ((-37826840531478589), (-17)); (92567713534403706, (-17)); ((-59037819968285679), (-19)); ((-71695903258076521), (-17)); ((-2889317071510612), (-16)); (63441958844571189, (-17))];
  [(78605889596120315, (-17)); (76767246626614338, (-17)); (44325441426348311, (-19)); (70663247657514039, (-17)); (31322001583116888, (-19)); (70757383527901307, (-17)); (48818925819450365, (-17)); (72170000491159536, (-17)); ((-49073450163413562), (-17)); ((-51219311907988752), (-17)); (69219888199329782, (-17)); (50844755534316877, (-17))];
  [(25253474818442445, (-17)); (27481279120887181, (-17)); (16849784122405442, (-17)); (95456919061655809, (-17)); (16238252692911154, (-17)); (24985911084802481, (-17)); ((-94565609630608755), (-18)); (96021598456951429, (-17)); ((-26275960201748988), (-17)); ((-28258628027708727), (-17)); (22719414148545897, (-17)); (93194839786001282, (-17))];
  [(53582143906556046, (-17)); (52368549163067246, (-17)); (11093186651917952, (-17)); (85456435679414122, (-17)); (95189202136083173, (-18)); (51054752559748184, (-17)); (15787469530481346, (-17)); (88892336481662737, (-17)); ((-42998933947889628), (-17)); ((-49476796650493438), (-17)); (44805609836244958, (-17)); (74461425721026264, (-17))];
  [(6220960953770851, (-16)); (20093377391035261, (-17)); (9074810271005912, (-16)); (50038044419372618, (-17)); (6403387217697033, (-16)); (58273984973642545, (-17)); ((-70048881457332557), (-17)); (69498814517201191, (-17)); ((-16219401569732358), (-17)); ((-5088563959764546), (-16)); ((-32704403292631551), (-17)); (79630858892840317, (-17))];
  [(98466520201798613, (-17)); (51222503440049028, (-17)); (86472407333841128, (-17)); (35890628036965572, (-17)); (42089478716175821, (-17)); (83308694627348256, (-17)); ((-39832479463257925), (-17)); (87626452887633888, (-17)); ((-27110483841872191), (-17)); ((-84411115375413193), (-17)); ((-23453795763838764), (-17)); (48214967233700612, (-17))];
  [(49289468889178201, (-17)); (92777268978660632, (-17)); (72290948566048785, (-18)); (87866589256356631, (-17)); (63630473369961374, (-18)); (47317799199052568, (-17)); (33437965145067822, (-17)); (62540298818753393, (-17)); ((-70502578042354336), (-17)); ((-34078805428182823), (-17)); (77770319867210147, (-17)); (52824353932063173, (-17))];
  [(86110267023263298, (-18)); (5078108248863844, (-17)); (64262718669930519, (-17)); (79755794703524496, (-17)); (59708010536625133, (-17)); (86003888846678006, (-18)); ((-59503340281129924), (-17)); (80210834964493838, (-17)); ((-50571187139312322), (-18)); ((-9917948709149263), (-17)); ((-1084173444147845), (-17)); (99501049548965514, (-17))];
  [(54972240866069344, (-17)); (60831008669399256, (-17)); (71963412625117851, (-18)); (85046266137789195, (-17)); (61308064673897704, (-18)); (5224505553714861, (-16)); (23879476196207727, (-17)); (83995862301930935, (-17)); ((-48728489949410575), (-17)); ((-46871134321830527), (-17)); (53917606847990485, (-17)); (69971340127015225, (-17))];
  [(89303429562807479, (-17)); (58056186891583572, (-17)); (26776638024566202, (-18)); (62682648651137918, (-17)); (16788318468210921, (-18)); (77897798952910702, (-17)); (40472472661219522, (-17)); (84729420469795702, (-17)); ((-34393375285647748), (-17)); ((-66579760549019973), (-17)); (53085843974478419, (-17)); (52431180176994863, (-17))];
  [(19055156584433008, (-17)); (67888657106736927, (-17)); (98588119671891927, (-17)); (54213504970126158, (-17)); (81866784236979107, (-17)); (1894005062163287, (-16)); ((-58322706572514404), (-17)); (52886511565627248, (-17)); ((-61656133453819173), (-17)); ((-60492625806047551), (-17)); (22379600825633239, (-17)); (76418555927044474, (-17))];
  [(15122658243980858, (-17)); (59480787207789509, (-17)); (24096021764785158, (-17)); (96002604556061799, (-17)); (23591167747317124, (-17)); (15065082899551743, (-17)); ((-11567282283642609), (-17)); (82447215784252681, (-17)); ((-55395438350060955), (-17)); ((-25489172191794496), (-17)); (51438442956050101, (-17)); (81880331504178894, (-17))];
  [(40401871559643698, (-18)); (26477760948040008, (-17)); (39845561678672148, (-17)); (92090918976193403, (-17)); (38767878577485615, (-17)); (40390881051932018, (-18)); ((-36473201713295927), (-17)); (89364321773647037, (-17)); ((-26148107975861279), (-17)); ((-13746570441437689), (-17)); (22606848177873121, (-17)); (96436311711726019, (-17))];
  [(22693923483543954, (-17)); (29901404677501642, (-17)); (30482716767806894, (-18)); (97390696830145407, (-17)); (29696528808232113, (-18)); (22499629612643091, (-17)); (37122592958833134, (-18)); (95720349649099323, (-17)); ((-28702505012181417), (-17)); ((-22389088901936932), (-17)); (28788814230905552, (-17)); (93112474316385641, (-17))];
  [(44378110125740533, (-17)); (73535707336086142, (-17)); (64388982433460684, (-17)); (72229705138816369, (-17)); (54216161663727258, (-17)); (42935736979959199, (-17)); ((-21482433037429424), (-17)); (76601070853701791, (-17)); ((-60586970669101115), (-17)); ((-65737164270692472), (-17)); (34538149320986339, (-17)); (66975678235679292, (-17))];
  [(97430191043663605, (-17)); (14742602593226273, (-17)); (62310937630009622, (-17)); (45617565486835177, (-17)); (32781402273357435, (-17)); (82730994095602528, (-17)); ((-4785456722512621), (-16)); (87417681521420942, (-17)); ((-82516273010416974), (-18)); ((-7502651607765205), (-16)); ((-35826367697713035), (-17)); (55565216303350096, (-17))];
  [(20060715873580226, (-17)); (64557144274601685, (-17)); (1815228993771224, (-16)); (96384517416234872, (-17)); (17690731758073375, (-17)); (19926435012400312, (-17)); ((-26278955915978827), (-18)); (80727562029716515, (-17)); ((-58958925477809843), (-17)); ((-26516390538668333), (-17)); (56303629888331075, (-17)); (78273765044225729, (-17))];
  [(93778358434246356, (-17)); (88334743328766152, (-17)); (94969910822118742, (-17)); (34425479529183972, (-17)); (4810939026196116, (-16)); (80624890249897718, (-17)); ((-15344314141673188), (-17)); (87602173717493037, (-17)); ((-45721014681345601), (-17)); ((-92625257801030625), (-17)); (33683421133382796, (-18)); (37539524353674603, (-17))];
  [(77544037253305387, (-18)); (60326737249209372, (-17)); (67853183855218968, (-17)); (77615564705341578, (-17)); (62576463350260825, (-17)); (77466347560987817, (-18)); ((-48264736331703889), (-17)); (66866493042070607, (-17)); ((-56563126991758739), (-17)); ((-40575107421940804), (-17)); (40162897590041824, (-17)); (82101171214969737, (-17))];
  [(24876870106287852, (-17)); (15784670257195377, (-17)); (40461250002863502, (-17)); (89095695409277731, (-17)); (38154419397847972, (-17)); (24621075117677721, (-17)); ((-35319123778964412), (-17)); (92306255698915229, (-17)); ((-15235309459694912), (-17)); ((-28539736421757594), (-17)); (48780569143462529, (-18)); (95716707035485726, (-17))];
  [(44559032722137992, (-17)); (28020734486079735, (-17)); (78163208284398944, (-17)); (64046079097321762, (-17)); (63565481408737423, (-17)); (430990640911733, (-15)); ((-59236561906467045), (-17)); (76604648983908574, (-17)); ((-24955109447835574), (-17)); ((-48878722218987081), (-17)); ((-95476346456918021), (-18)); (8671627982629031, (-16))];
  [(41987038091073314, (-17)); (52376438842160189, (-17)); (63189709647571257, (-17)); (73682176898830798, (-17)); (53937148832084003, (-17)); (4076420958776249, (-16)); ((-34697993657757253), (-17)); (81916319501446189, (-17)); ((-45670185410869801), (-17)); ((-5802573604510024), (-16)); (19506423947064397, (-17)); (79072835924998597, (-17))];
  [(90855862835180345, (-17)); (95548647845300516, (-17)); (66570755785419644, (-17)); (4835932342843744, (-16)); (37976148520987235, (-17)); (78861828415626412, (-17)); (14998356258839152, (-17)); (85169845124762178, (-17)); ((-50211022604174915), (-17)); ((-86234709642212648), (-17)); (36109688795888872, (-17)); (35491762818819461, (-17))];
  [(30210521881123997, (-17)); (78084429132409572, (-17)); (88035258956549312, (-17)); (60803650961058286, (-17)); (73604827297758324, (-17)); (29753074265913537, (-17)); ((-4142514658128793), (-16)); (61384744011115755, (-17)); ((-67200226438670552), (-17)); ((-67726459087454172), (-17)); (28534936501715913, (-17)); (67815073090858169, (-17))];
  [(75247945371595271, (-17)); (4357220408989102, (-16)); (73822610762516583, (-17)); (53995179579068719, (-17)); (49127079261035961, (-17)); (68345085159827046, (-17)); ((-39673376235870678), (-17)); (86468085655883153, (-17)); ((-30810605009540259), (-17)); ((-74233037121427092), (-17)); ((-10478561269885595), (-17)); (66178969117402264, (-17))];
  [(4050810633040528, (-16)); (582234091900522, (-15)); (83036600166034047, (-17)); (62001010312733951, (-17)); (67843789019618161, (-17)); (39409326455317623, (-17)); ((-47036053518913007), (-17)); (72342454949779178, (-17)); ((-50538884843307741), (-17)); ((-62797168642911039), (-17)); (12798027320673624, (-17)); (76764093866423522, (-17))];
  [(36352351868308386, (-17)); (1834604972386038, (-16)); (53620839462024039, (-17)); (8034734634853079, (-16)); (47749407252492782, (-17)); (3555696896228398, (-16)); ((-44654313751484509), (-17)); (87836507886177539, (-17)); ((-17051103945066221), (-17)); ((-393738009104178), (-15)); ((-21776109379459035), (-18)); (91896473340763851, (-17))];
  [(9562178067679723, (-16)); (3565712648396222, (-16)); (2023823576272803, (-16)); (56484580701885334, (-17)); (11590155304797385, (-17)); (81701655080805302, (-17)); (91009498448275744, (-18)); (97529775881899317, (-17)); ((-20127481917726908), (-17)); ((-82016247505321382), (-17)); (18804550418373944, (-17)); (54034470745152097, (-17))];
  [(2053655336495227, (-16)); (15475074290996182, (-17)); (36055007319002574, (-18)); (97835025400602027, (-17)); (35289718676839027, (-18)); (2039250260317875, (-16)); ((-42051148740842662), (-19)); (98854086175793687, (-17)); ((-15089493577907501), (-17)); ((-20691326080087619), (-17)); (14677057058751586, (-17)); (96728760051711793, (-17))];
  [(96556914959929918, (-17)); (10903776774133878, (-17)); (84095112728356347, (-17)); (37934912076645538, (-17)); (42402489643330465, (-17)); (82237286663559284, (-17)); ((-68118236697839407), (-17)); (72949107710618288, (-17)); ((-6191406415487221), (-17)); ((-62616677290593248), (-17)); ((-53669885003341167), (-17)); (56557008131741193, (-17))];
  [(4780735699545412, (-16)); (19616382911172492, (-17)); (90530889258129577, (-18)); (88424687219641918, (-17)); (80271071916929088, (-18)); (46006958606732196, (-17)); (63070783501055494, (-20)); (98491184969434531, (-17)); ((-17305562845307895), (-17)); ((-46701934779886439), (-17)); (15331406766820341, (-17)); (87085459488743189, (-17))];
  [(23786349670326268, (-17)); (59716357531413444, (-17)); (43530784143571555, (-17)); (88120973903192501, (-17)); (40981629804288888, (-17)); (23562681870642141, (-17)); ((-22857283726646177), (-17)); (80568504965892285, (-17)); ((-54646688721281056), (-17)); ((-41379204185103202), (-17)); (4276940525825923, (-16)); (80365038635356401, (-17))];
  [(80891413400775158, (-17)); (17539655386280273, (-17)); (30929797211090526, (-17)); (65752877608825211, (-17)); (21011569816406642, (-17)); (72353804461196936, (-17)); ((-17945465919884854), (-17)); (97636413946575851, (-17)); ((-1204536942443603), (-16)); ((-73174581236089786), (-17)); ((-50640503061439468), (-18)); (67969375864574033, (-17))];
  [(39053598753728935, (-18)); (24206429310083188, (-17)); (40973936512959019, (-17)); (91652530404167543, (-17)); (39806652548664728, (-17)); (39043672192852569, (-18)); ((-37817152931075565), (-17)); (8942115650315331, (-16)); ((-23952446927740093), (-17)); ((-13025997647043702), (-17)); (20476503180681191, (-17)); (97010495322881263, (-17))];
  [(93253195500978758, (-17)); (73289150638094747, (-17)); (45069807163025621, (-17)); (53630750852291553, (-17)); (25952795450462002, (-17)); (80313105850327493, (-17)); (15990552485573689, (-17)); (90307506472559096, (-17)); ((-39860462941551639), (-17)); ((-82873667676925833), (-17)); (34219974912544543, (-17)); (44282598419235519, (-17))];
  [(24422879164233824, (-17)); (76327939564040959, (-17)); (24061319345378074, (-17)); (94237103483236118, (-17)); (23122648574542337, (-17)); (24180807471795923, (-17)); ((-98427177197198124), (-19)); (74159110008303741, (-17)); ((-67077996480628455), (-17)); ((-33442481010964864), (-17)); (62974356095751538, (-17)); (70112986943623612, (-17))];
  [(90408886241449216, (-17)); (62820587364973079, (-17)); (82852530804077262, (-17)); (41801693277671342, (-17)); (45572218565286321, (-17)); (78586203204870886, (-17)); ((-28405075476709629), (-17)); (88726150661642511, (-17)); ((-36343113184342685), (-17)); ((-86288876028616324), (-17)); ((-71304336337481011), (-18)); (50033856436545021, (-17))];
  [(11392528373345068, (-17)); (86322637866413188, (-17)); (65998381974750064, (-17)); (78488098710737852, (-17)); (60912964132885039, (-17)); (11367900479830527, (-17)); ((-33026289715042073), (-17)); (5664585371798494, (-16)); ((-75501731398814675), (-17)); ((-52429786843278103), (-17)); (55505477721631336, (-17)); (64577545590258467, (-17))];
  [(10883442524624654, (-17)); (85211994832500282, (-17)); (43365631055001574, (-17)); (90206651511455893, (-17)); (41770535532136394, (-17)); (10861969639493703, (-17)); ((-20246146994002795), (-17)); (63179854207229647, (-17)); ((-74822453543374534), (-17)); ((-38116316125617172), (-17)); (65295699580536992, (-17)); (65449354934180048, (-17))];
  [(24592123720667791, (-17)); (70599184400279735, (-17)); (15522732199184541, (-17)); (95825162084761673, (-17)); (14995317201847291, (-17)); (24344994833540956, (-17)); (38399239845673214, (-18)); (77623830153773565, (-17)); ((-62926909792638441), (-17)); ((-28333607169259223), (-17)); (61234642599382361, (-17)); (73807352279457961, (-17))];
  [(17014084528921281, (-19)); (40043142388080288, (-17)); (84735885605491057, (-18)); (99641062024798377, (-17)); (8463439648923983, (-17)); (17014076320220125, (-19)); ((-77278472248009641), (-18)); (91764493029486749, (-17)); ((-38981510954700194), (-17)); ((-34553054626787413), (-18)); (38828443290329018, (-17)); (92089157102284769, (-17))];
  [(95748280944787689, (-17)); (55183639210971902, (-17)); (17990091244826478, (-17)); (56629118498192699, (-17)); (10298977082368212, (-17)); (81774531543595552, (-17)); (26941388466055433, (-17)); (91452921065969051, (-17)); ((-30174903745044973), (-17)); ((-77892904205959257), (-17)); (3911897620795422, (-16)); (49014295616715409, (-17))];
  [(93959907920509034, (-17)); (12208622095100186, (-17)); (25679679321781756, (-17)); (57076109581427092, (-17)); (14987875917391347, (-17)); (8073215772251976, (-16)); ((-15699904677780518), (-17)); (98498051963653677, (-17)); ((-71865675029171933), (-18)); ((-80596716484963171), (-17)); ((-85730586636427783), (-18)); (58571938306600435, (-17))];
  [(81045977825999771, (-17)); (11056612528515364, (-17)); (18162221261930611, (-17)); (67782993926011492, (-17)); (12448072596659486, (-17)); (72460411419302495, (-17)); ((-10088394932070635), (-17)); (99198783401341406, (-17)); ((-76043184696804891), (-18)); ((-72826437659141752), (-17)); ((-21556577469643484), (-18)); (68495716052590416, (-17))];
  [(92516866620881988, (-17)); (57608578921850095, (-17)); (15725706391125926, (-17)); (59427524910324647, (-17)); (94232043860067824, (-18)); (79872226099766908, (-17)); (2983984807807093, (-16)); (89639441455426783, (-17)); ((-32777339767540037), (-17)); ((-74685693072437853), (-17)); (43312512680040366, (-17)); (50458631527529085, (-17))];
  [(4651357366165062, (-16)); (428864771314584, (-15)); (29331368733825502, (-17)); (85558911827319351, (-17)); (25840942638424746, (-17)); (44854412162937057, (-17)); ((-84386435807463411), (-18)); (92452560611556267, (-17)); ((-37166023877779059), (-17)); ((-51073103503136785), (-17)); (28013741626640243, (-17)); (81282029862902183, (-17))];
  [(85186372112556863, (-17)); (57796025068567158, (-17)); (7420890686408731, (-16)); (48541320872972443, (-17)); (44508879428848186, (-17)); (75250912419022442, (-17)); ((-26304937926898675), (-17)); (89518331027394671, (-17)); ((-35979419822056552), (-17)); ((-83377397468193615), (-17)); ((-23298201771904281), (-18)); (55161413409853988, (-17))];
  [(706095108399167, (-15)); (3273119210787665, (-16)); (11627588876019845, (-17)); (75576349564930112, (-17)); (88275260787912188, (-18)); (64886748799487159, (-17)); (97346642435426289, (-18)); (96471774391451504, (-17)); ((-24462891444601867), (-17)); ((-64756866033687732), (-17)); (24804667486042689, (-17)); (72050515420792627, (-17))];
  [(85236937139183089, (-17)); (39204432514679965, (-17)); (3772690416201826, (-16)); (61191266471981642, (-17)); (2424701084478468, (-16)); (75284204004876287, (-17)); ((-73017847349843679), (-18)); (96510307327660116, (-17)); ((-25148449638189302), (-17)); ((-78754763965355679), (-17)); (98915643157939714, (-18)); (60826343866351418, (-17))];
  [(80965548842586099, (-17)); (37269392676245106, (-17)); (17045628556057624, (-18)); (68964771545041492, (-17)); (11756617456089847, (-18)); (72404959120215973, (-17)); (24773211748001206, (-17)); (93570827674801049, (-17)); ((-25115496967836026), (-17)); ((-68045192816457867), (-17)); (35257878945174753, (-17)); (64239658365051056, (-17))];
  [(42055565685280782, (-17)); (31919286293185767, (-17)); (26970830732207229, (-17)); (87986103088412604, (-17)); (24323241396385009, (-17)); (40826775421142569, (-17)); ((-12950860194357805), (-17)); (94929986442860814, (-17)); ((-28645643546348565), (-17)); ((-4572440140167422), (-16)); (19916766854372855, (-17)); (86675264721413614, (-17))];
  [(65859488280857015, (-17)); (86613333040345919, (-17)); (52466793560249247, (-17)); (68447558187237911, (-17)); (39615851639194927, (-17)); (61200621541827316, (-17)); (79042052773998728, (-18)); (79419872680657644, (-17)); ((-60249542424161628), (-17)); ((-72473825048340068), (-17)); (46076763366033258, (-17)); (51229645329371265, (-17))];
  [(9609573429988485, (-16)); (46070047590066943, (-18)); (41555109173700422, (-17)); (5239922431369971, (-16)); (23120997961332546, (-17)); (81974024816368729, (-17)); ((-36872666523254249), (-17)); (929163559540919, (-15)); ((-26376617822184496), (-18)); ((-76777130415166372), (-17)); ((-28843894492327948), (-17)); (57212778255630858, (-17))];
  [(98879488429814166, (-17)); (81804930919892793, (-17)); (85343336788921298, (-17)); (36137069953268591, (-17)); (41421971981059746, (-17)); (83536413691233324, (-17)); ((-11436556573066742), (-17)); (9088333498200728, (-16)); ((-40117634480354092), (-17)); ((-92538194000875218), (-17)); (49436484248531753, (-18)); (37579821597605151, (-17))];
  [(27851763557056441, (-17)); (64201144052044434, (-17)); (12036379825298327, (-17)); (95450786801606669, (-17)); (11544623862719493, (-17)); (27493071105690592, (-17)); (67273579824661714, (-18)); (81486622076997617, (-17)); ((-5757319755803314), (-16)); ((-29049784053069649), (-17)); (56803627369639809, (-17)); (770029737355716, (-15))];
  [(82159061282374835, (-17)); (4811602056883888, (-16)); (7662316839477008, (-16)); (49072146919341147, (-17)); (47226220203160274, (-17)); (7322300541530109, (-16)); ((-37051834569310693), (-17)); (8737081250256693, (-16)); ((-31519877501185284), (-17)); ((-78861181526623292), (-17)); ((-1166298623697678), (-16)); (60372914458895066, (-17))];
  [(12277907625198237, (-17)); (93085176809641801, (-17)); (10045342679776303, (-17)); (98746885853385358, (-17)); (99529637033011417, (-18)); (12247083235581194, (-17)); (37857127999527146, (-18)); (60399230545356064, (-17)); ((-79609053053815448), (-17)); ((-15320604193528337), (-17)); (79075100145682387, (-17)); (59265568622055287, (-17))];
  [(41155323303282654, (-17)); (65704427785854758, (-17)); (15792206509742268, (-17)); (9050958379149564, (-16)); (14413481163495259, (-17)); (40003334893978509, (-17)); (11676787746667926, (-17)); (82037320933750468, (-17)); ((-55977947460871536), (-17)); ((-40886035144160127), (-17)); (55336511769015528, (-17)); (72568606128463764, (-17))];
  [(94795446083973411, (-17)); (29976445381331496, (-17)); (27517307757085829, (-17)); (56139921866454723, (-17)); (15850291812578274, (-17)); (8122239483224114, (-16)); ((-28774358170398695), (-18)); (98463130684041011, (-17)); ((-17225918234343177), (-17)); ((-82704471075916897), (-17)); (73334947571791959, (-18)); (55733206607006303, (-17))];
  [(75548397146155422, (-17)); (27414145886822372, (-17)); (23088796805705958, (-17)); (70862287747042196, (-17)); (16658321244424482, (-17)); (68564105102983364, (-17)); ((-39605083260975005), (-18)); (97958947309127953, (-17)); ((-19706826631561103), (-17)); ((-70447502078173829), (-17)); (11249221102149673, (-17)); (70075705316041192, (-17))];
  [(20572820903968614, (-17)); (40417843632061068, (-17)); (78172762582706889, (-17)); (69473171822239566, (-17)); (6896502693048735, (-16)); (20428006692644668, (-17)); ((-59072732301993458), (-17)); (7091113350090783, (-16)); ((-38497057601762841), (-17)); ((-41035237239896616), (-17)); (14677745265999945, (-17)); (90003739358827861, (-17))];
  [(18707968429108579, (-17)); (93538434694258532, (-17)); (4283143079251962, (-16)); (89379491384456633, (-17)); (40809098082772449, (-17)); (18599033134184692, (-17)); ((-11033872450391821), (-17)); (60206775709597915, (-17)); ((-79078428268413725), (-17)); ((-43469071517624192), (-17)); (68627703388098515, (-17)); (58315333738827613, (-17))];
  [(48486501997947262, (-17)); (18709334984606374, (-17)); (46528547747455451, (-17)); (79068449639772853, (-17)); (39696237293486586, (-17)); (46608894175917831, (-17)); ((-36336995578513276), (-17)); (91699551681235691, (-17)); ((-1645645690261088), (-16)); ((-49272741185058999), (-17)); ((-39244064773653886), (-18)); (86929833831145698, (-17))];
  [(92608020308462824, (-17)); (66375467253681775, (-17)); (42252802862391392, (-17)); (54811924052763705, (-17)); (2464388863160655, (-16)); (79927040072475075, (-17)); (12610441997367827, (-17)); (92033458156908077, (-17)); ((-37024577408954618), (-17)); ((-82683914604142239), (-17)); (30373036278805327, (-17)); (47337605906311853, (-17))];
  [(47635003723281699, (-17)); (99874580084477682, (-17)); (14759579650848853, (-17)); (87901237376966956, (-17)); (13068891090520141, (-17)); (45853860832673937, (-17)); (30173189838774928, (-17)); (59216844713493222, (-17)); ((-74719100082450662), (-17)); ((-36918167378018035), (-17)); (79514586006858845, (-17)); (48109037920192199, (-17))];
  [(58795627430747277, (-17)); (68819404954048424, (-17)); (15594794878498985, (-17)); (82197853581729363, (-17)); (12923522580994179, (-17)); (55466164737208179, (-17)); (22804884156949717, (-17)); (81773754088805573, (-17)); ((-52848750229420338), (-17)); ((-52186685324368753), (-17)); (56089532947975995, (-17)); (64269076300606875, (-17))];
  [(91758114687144343, (-18)); (87199688086156957, (-17)); (20931840089509723, (-17)); (97405777395307702, (-17)); (20691907716848437, (-17)); (91629408517783908, (-18)); ((-65051560154069238), (-18)); (64383484412420722, (-17)); ((-76239424710124826), (-17)); ((-21674811999899246), (-17)); (73665540722599776, (-17)); (64059274385650189, (-17))];
  [(67641591739933693, (-17)); (65048040401550911, (-17)); (96186469933505958, (-17)); (44605114903274573, (-17)); (6396559505633882, (-16)); (62600210651036592, (-17)); ((-43592210465810766), (-17)); (76613678820704723, (-17)); ((-47223547137655375), (-17)); ((-78167147262581671), (-17)); ((-62246981168875504), (-18)); (62057636292268548, (-17))];
  [(51828480533321797, (-17)); (73239769918144759, (-17)); (13138791807919337, (-17)); (86118309580994667, (-17)); (11380467078921869, (-17)); (4953909288609894, (-16)); (23097463079496333, (-17)); (78056098898975124, (-17)); ((-58084013497387732), (-17)); ((-45278515371015282), (-17)); (61463244250031179, (-17)); (64591993714838547, (-17))];
  [(72066143153763518, (-17)); (23878027311954153, (-17)); (59915148374202787, (-17)); (62049171203389564, (-17)); (42372874693435586, (-17)); (65988179571699501, (-17)); ((-41905341440434213), (-17)); (89040026142626805, (-17)); ((-17771215582535801), (-17)); ((-66286067251972947), (-17)); ((-16625679978116453), (-17)); (73005096079192855, (-17))];
  [(38074629165881135, (-17)); (76821134190508467, (-17)); (89428454201965024, (-17)); (58124197260963151, (-17)); (72392073793469547, (-17)); (37161342072771064, (-17)); ((-39910620404847219), (-17)); (65159264052178956, (-17)); ((-64509012448483594), (-17)); ((-7091346890167507), (-16)); (22664023474645437, (-17)); (66765424946388852, (-17))];
  [(43071355803594791, (-17)); (35531491624424316, (-17)); (40275491759570414, (-17)); (83596069570668075, (-17)); (35615635983390337, (-17)); (41751929606123067, (-17)); ((-23384483783707641), (-17)); (91945062004332934, (-17)); ((-31611255767351049), (-17)); ((-49647387348233529), (-17)); (16662294155307725, (-17)); (85190990620936324, (-17))];
  [(19236656286244613, (-17)); (22200986844731907, (-17)); (89772247407172334, (-17)); (61189364176263794, (-17)); (76748647189417118, (-17)); (1911823386976266, (-16)); ((-73647597262740372), (-17)); (64100807991363218, (-17)); ((-21612908926833099), (-17)); ((-28842557603821506), (-17)); ((-85531833182749539), (-19)); (9574641142842627, (-16))];
  [(90943153877309113, (-17)); (57183780491890579, (-17)); (78638294918267271, (-17)); (43387315833815238, (-17)); (43472854522536242, (-17)); (78915472148363697, (-17)); ((-29350788093486724), (-17)); (89630956385000782, (-17)); ((-33238876271639034), (-17)); ((-85182580748812753), (-17)); ((-87408567756536604), (-18)); (51648091540728835, (-17))];
  [(79908990251764378, (-17)); (2979069558638604, (-16)); (88995164877758182, (-17)); (43895252155778863, (-17)); (5418769747552884, (-16)); (71672172288002811, (-17)); ((-61039625154420096), (-17)); (76519204885111569, (-17)); ((-20468889680639848), (-17)); ((-65934596375411891), (-17)); ((-34763554565822008), (-17)); (6666426535079073, (-16))];
  [(34398665252146055, (-17)); (46205824010114527, (-17)); (12433323670599361, (-17)); (93415047713485899, (-17)); (11674816702101594, (-17)); (3372428673314653, (-16)); (38170715242525882, (-18)); (90687104161465559, (-17)); ((-41967595878084757), (-17)); ((-35483218930445043), (-17)); (40491329859364045, (-17)); (84269765518567108, (-17))];
  [(7627425828418416, (-16)); (19538039075710134, (-17)); (89785221603566456, (-17)); (4506043672948804, (-16)); (56533488585006497, (-17)); (69090677447516358, (-17)); ((-68350825986135599), (-17)); (71632237500207074, (-17)); ((-14035210640632945), (-17)); ((-57425792365110762), (-17)); ((-40899721504221365), (-17)); (70918905463327042, (-17))];
  [(34757029912091753, (-17)); (30364363570136499, (-18)); (77031016656458728, (-17)); (67477878244363543, (-17)); (65471781962225861, (-17)); (34061440285601607, (-17)); ((-68861523716302919), (-17)); (72456488953652876, (-17)); ((-28544281350617342), (-18)); ((-26548568682848045), (-17)); ((-21529119238834094), (-17)); (93976968059690902, (-17))];
  [(5266081803287791, (-16)); (64290044883064557, (-18)); (34132613984556703, (-17)); (81464418020094387, (-17)); (28938577402597959, (-17)); (50260395288548687, (-17)); ((-30361808488312136), (-17)); (95117358851176104, (-17)); ((-55541543456809631), (-18)); ((-49413653801013113), (-17)); ((-10735305449331031), (-17)); (86273078274414128, (-17))];
  [(66089395983953969, (-17)); (10784614002563453, (-17)); (44660410322348831, (-17)); (71201437971087089, (-17)); (34096489356554988, (-17)); (61382282821737499, (-17)); ((-3698059950616982), (-16)); (92521512410603057, (-17)); ((-84973526123668625), (-18)); ((-59689115347889932), (-17)); ((-16649298928572284), (-17)); (78485733443558603, (-17))];
  [(32892555476581875, (-17)); (7827084271114394, (-16)); (44906654068358764, (-17)); (85255798508665948, (-17)); (4108513670341824, (-16)); (32302637086021146, (-17)); ((-1025838679615742), (-16)); (73760330091202675, (-17)); ((-66739637436663124), (-17)); ((-51246603019031189), (-17)); (53585681360772663, (-17)); (67099630640649321, (-17))];
  [(44270131439987148, (-18)); (48002548107977183, (-17)); (58108118011451027, (-17)); (83505069503866858, (-17)); (54839016418368347, (-17)); (44255672427716268, (-18)); ((-46980691575217148), (-17)); (75262093107337502, (-17)); ((-46134932103740878), (-17)); ((-28630717529756156), (-17)); (36445845022010226, (-17)); (88611412325743499, (-17))];
  [(32866842250661232, (-17)); (71326464677597967, (-17)); (27986054774843949, (-18)); (94610236934272041, (-17)); (26484587505120859, (-18)); (32278301279462379, (-17)); (18995505766882106, (-17)); (76184355600883147, (-17)); ((-61928303079759361), (-17)); ((-26231161390629565), (-17)); (6472194085412627, (-16)); (71575111206156883, (-17))];
  [(11782652359497603, (-18)); (28876841143880871, (-17)); (18995525624159504, (-17)); (98194451832894847, (-17)); (18880184970401737, (-17)); (11782379728691474, (-18)); ((-17770219680503724), (-17)); (94198629647896504, (-17)); ((-28475207900295901), (-17)); ((-64860559467162071), (-18)); (2775169882983477, (-16)); (95852878362176563, (-17))];
  [(93215147049750069, (-17)); (60741995123039938, (-17)); (80493191494526051, (-18)); (59417784325387901, (-17)); (47930832740245885, (-18)); (80290430678817226, (-17)); (39075104681249484, (-17)); (85531151109641312, (-17)); ((-3402290969345651), (-16)); ((-70304075984334524), (-17)); (51589228939653364, (-17)); (48947812590563733, (-17))];
  [(56172959564115688, (-17)); (2526024117020883, (-16)); (98377100205458989, (-17)); (46877383250847149, (-17)); (70465183392500363, (-17)); (53265081141536674, (-17)); ((-73243510734998651), (-17)); (64714612635167246, (-17)); ((-21151998645338196), (-17)); ((-4937508556716973), (-16)); ((-2909771195371797), (-16)); (81947691146810997, (-17))];
  [(96015428706337758, (-17)); (56473474129067003, (-18)); (42765955885303408, (-17)); (52175314322508892, (-17)); (23781056529418745, (-17)); (81928004526486475, (-17)); ((-37200279185576829), (-17)); (92766722143986879, (-17)); ((-32364318586174723), (-18)); ((-76771582007032635), (-17)); ((-28788827919957505), (-17)); (57247948287537243, (-17))];
  [(94009338639317441, (-17)); (24068946960042059, (-17)); (92276814219880876, (-18)); (58720368406624512, (-17)); (54339606995545846, (-18)); (8076131750600648, (-16)); (10220384806598064, (-17)); (98478125933039684, (-17)); ((-14057113755015169), (-17)); ((-80296089995686304), (-17)); (16508506408275508, (-17)); (57271346654086752, (-17))];
  [(79445288494751476, (-17)); (26375119956613413, (-17)); (98316744194307548, (-17)); (38844678173463781, (-17)); (58314223918416441, (-17)); (71348036177548813, (-17)); ((-70035677278394681), (-17)); (69002356812697208, (-17)); ((-18266873362723265), (-17)); ((-5988401193771653), (-16)); ((-4287337219167634), (-16)); (67644505106899977, (-17))];
  [(60018794734289005, (-17)); (11220328051134232, (-17)); (24037965590167787, (-17)); (80150219847931359, (-17)); (19646352334622535, (-17)); (5647975830571641, (-16)); ((-17515336878478122), (-17)); (98019572961364465, (-17)); ((-92399291396186092), (-18)); ((-57176526935112937), (-17)); ((-24867964161990691), (-18)); (82004028018278985, (-17))];
  [(89468634941193703, (-17)); (35747739422444125, (-17)); (26284640625445665, (-18)); (62554734662816491, (-17)); (16446074808955161, (-18)); (78001284845176799, (-17)); (24822159051838522, (-17)); (94363210861454772, (-17)); ((-21896229262634598), (-17)); ((-7396462391758547), (-16)); (33058731103150452, (-17)); (58620429089010739, (-17))];
  [(247034137674779, (-15)); (20453988374120424, (-17)); (48027239321848769, (-17)); (85994546582017861, (-17)); (4479947087560715, (-16)); (24452921449568893, (-17)); ((-40834076078125214), (-17)); (89132954222225935, (-17)); ((-19695042586002598), (-17)); ((-30618886148895769), (-17)); (69515380229270979, (-18)); (94942929858503711, (-17))];
  [(35799359322834823, (-17)); (60244716704810175, (-17)); (15318441350499912, (-17)); (92563431878864233, (-17)); (14291233765905406, (-17)); (35039573574104832, (-17)); (70506917395496777, (-18)); (84459984227426121, (-17)); ((-53073522685956864), (-17)); ((-37179279508897239), (-17)); (51597206336692081, (-17)); (77171429126640612, (-17))];
  [(63052053277424913, (-17)); (12311877299210294, (-17)); (10707809579441419, (-17)); (80309460309543002, (-17)); (86324015594716169, (-18)); (58956528290817545, (-17)); ((-34075976191455901), (-18)); (99448442485886057, (-17)); ((-99194538961278209), (-18)); ((-59487636221789231), (-17)); (59572586352653945, (-18)); (80160664956677008, (-17))];
  [(22521048345769901, (-17)); (79503911959664375, (-17)); (54043289466554156, (-17)); (83583204687636714, (-17)); (50151445407997997, (-17)); (22331153522225847, (-17)); ((-22358670937717484), (-17)); (68248325348102634, (-17)); ((-69586319927686935), (-17)); ((-50139183559801725), (-17)); (53169527087121327, (-17)); (68257334120872171, (-17))];
  [(67055229662858939, (-17)); (36867308144748767, (-17)); (31865423001940119, (-17)); (74403661518062625, (-17)); (24545508199452298, (-17)); (62141879436787129, (-17)); ((-79566046148988268), (-18)); (95600659245532704, (-17)); ((-28234843630197676), (-17)); ((-66338432267485326), (-17)); (1606337383771427, (-16)); (73083379952230576, (-17))];
  [(12817489667865878, (-17)); (36468190736123218, (-17)); (3952149765617583, (-16)); (91534300658380863, (-17)); (38184833094966175, (-17)); (12782422481310493, (-17)); ((-31761299431234752), (-17)); (87977245641861934, (-17)); ((-35372646320439904), (-17)); ((-24752609184095789), (-17)); (28318240954922663, (-17)); (92657355713393619, (-17))];
  [(17349514169900271, (-17)); (10090734160594872, (-17)); (9045162494118687, (-16)); (60878718422830935, (-17)); (77432448319520553, (-17)); (17262606710414377, (-17)); ((-77137939277020329), (-17)); (62859243949007548, (-17)); ((-99223875279029788), (-18)); ((-18534291658663149), (-17)); ((-72753967179761292), (-18)); (97997697091858604, (-17))];
  [(72127554426984231, (-17)); (19653686507710921, (-17)); (43534282117561807, (-17)); (68091826323290217, (-17)); (31669751075891406, (-17)); (66034309678756831, (-17)); ((-29668227431999772), (-17)); (94364995011697228, (-17)); ((-14664378523670712), (-17)); ((-66957445209640576), (-17)); ((-96059660229168842), (-18)); (73650702289689995, (-17))];
  [(56426827870008289, (-17)); (86920656681254238, (-17)); (96399826291005697, (-17)); (48184153734058294, (-17)); (69413268605110723, (-17)); (5347976692626274, (-16)); ((-2972729091718343), (-16)); (70361524397345843, (-17)); ((-64541026171008853), (-17)); ((-8242921511004323), (-16)); (15200461375775931, (-17)); (54537789378611268, (-17))];
  [(79649236121456024, (-18)); (39537604270962867, (-17)); (73035339345150641, (-17)); (74257699157995438, (-17)); (66501790567440378, (-17)); (7956504702753639, (-17)); ((-59283625650098948), (-17)); (70791222460439873, (-17)); ((-38393418086117892), (-17)); ((-31164817431513592), (-17)); (23793164436047856, (-17)); (91992605575554898, (-17))];
  [(49627677863454889, (-17)); (392530246831162, (-15)); (20194220487481862, (-17)); (86149186617770257, (-17)); (17637568256224248, (-17)); (47615478902386604, (-17)); ((-68767950700701075), (-19)); (94170126499672702, (-17)); ((-33637990010273849), (-17)); ((-5077248016388638), (-16)); (28651412897842776, (-17)); (81248087958825799, (-17))];
  [(53326762087192769, (-17)); (90966628266313565, (-17)); (34782048618981554, (-17)); (80958301213015693, (-17)); (29352284556993385, (-17)); (50834996370491747, (-17)); (16792813430507078, (-17)); (71400350507914434, (-17)); ((-67970518347553777), (-17)); ((-56247265549454073), (-17)); (6356440307776241, (-16)); (52875436448098911, (-17))];
  [(82040489621861012, (-17)); (12540662240002176, (-17)); (58574956863640193, (-17)); (56824679231349196, (-17)); (37698467213846643, (-17)); (73142199857406542, (-17)); ((-47224856112812563), (-17)); (87732903695563214, (-17)); ((-85293947188052333), (-18)); ((-6738522683332322), (-16)); ((-29694497451069324), (-17)); (6765698800382719, (-16))];
  [(64875695054372506, (-17)); (30294529386323721, (-17)); (73663454194291333, (-17)); (5902428467213563, (-16)); (53531311596087516, (-17)); (60419636689947753, (-17)); ((-50768804319719607), (-17)); (82809484875312234, (-17)); ((-23772204833196561), (-17)); ((-62758762948999514), (-17)); ((-16642953268215968), (-17)); (76054912922330442, (-17))];
  [(52831531538539134, (-17)); (75155912988193674, (-17)); (85801460746896097, (-18)); (86048038373599822, (-17)); (74012186278274286, (-18)); (5040790667026942, (-16)); (28029653290057777, (-17)); (75743192619496913, (-17)); ((-58968697698397088), (-17)); ((-42544960083359407), (-17)); (64870569094381214, (-17)); (63100995529995141, (-17))];
  [(67917952435350892, (-17)); (17562905588678679, (-18)); (77369256902362737, (-18)); (77576070856897561, (-17)); (60140077009869078, (-18)); (62815483296541452, (-17)); ((-6628151537950415), (-17)); (9977073890842848, (-16)); ((-13664789995315237), (-18)); ((-6275365198612407), (-16)); ((-31034447052694984), (-18)); (77796836653978163, (-17))];
  [(14989160812449853, (-17)); (9820375953563989, (-16)); (42766736735376665, (-17)); (89973281919950443, (-17)); (41009891414542488, (-17)); (14933095684437073, (-17)); ((-11731916180214891), (-17)); (55682080990097416, (-17)); ((-82230578250141506), (-17)); ((-42037729283270414), (-17)); (72233611724595814, (-17)); (54910241794466752, (-17))];
  [(36831512205095907, (-17)); (31904320449514889, (-17)); (39813093780537434, (-19)); (93292790594658126, (-17)); (37142942458891453, (-19)); (3600440616429908, (-16)); (10914948817211093, (-17)); (94997804510579897, (-17)); ((-29262279994684404), (-17)); ((-34312084101361873), (-17)); (31229460103437501, (-17)); (8858556149999206, (-16))];
  [(53260166660385078, (-17)); (62371487642201151, (-17)); (4137500074170446, (-16)); (78879613412759231, (-17)); (34635794032469369, (-17)); (50777636412046723, (-17)); ((-54801796650291668), (-18)); (86245592874476307, (-17)); ((-50315657012197323), (-17)); ((-61220700900044056), (-17)); (36906090032275696, (-17)); (69928293986317913, (-17))];
  [(41764076091410585, (-17)); (22668586833934379, (-17)); (27321438996735803, (-17)); (88014501292817615, (-17)); (24663584223684196, (-17)); (40560512514240288, (-17)); ((-17514659329925264), (-17)); (96287144883310249, (-17)); ((-20543184728203248), (-17)); ((-44121245117667168), (-17)); (10976945998849467, (-17)); (89066393133465749, (-17))];
  [(11437397940532623, (-17)); (90648831156429266, (-17)); (91344690581385624, (-17)); (60702861290670529, (-17)); (78644249479619821, (-17)); (11412478035594602, (-17)); ((-43313829719385311), (-17)); (44783398578879718, (-17)); ((-78219942257491393), (-17)); ((-66626382058203526), (-17)); (42538561747107895, (-17)); (61248640624276585, (-17))];
  [(16343668342510009, (-17)); (65331479308305562, (-17)); (83636512557974241, (-17)); (66123442661476639, (-17)); (73232129133938451, (-17)); (16271004674099723, (-17)); ((-52309234721620468), (-17)); (60556408285414498, (-17)); ((-59972205048744032), (-17)); ((-53772058668353284), (-17)); (31144448591688789, (-17)); (78349148230767818, (-17))];
  [(3346273545239381, (-16)); (59893766000050064, (-17)); (81860293263898876, (-18)); (94136981743115566, (-17)); (77233402892041142, (-18)); (3284172168254097, (-16)); (11699444936836829, (-17)); (83830872891778785, (-17)); ((-53249485803830532), (-17)); ((-31644140950043947), (-17)); (53969757874012947, (-17)); (78012265564808259, (-17))];
  [(21904966561420425, (-17)); (98350279460066226, (-17)); (56176205776686972, (-17)); (82609454321481535, (-17)); (51994961760139824, (-17)); (21730209577191262, (-17)); ((-14207053797374775), (-17)); (56531030608390587, (-17)); ((-81255167224932257), (-17)); ((-545329045540906), (-15)); (64037227687609988, (-17)); (54086928097088682, (-17))];
  [(51589721723094684, (-17)); (79818500618781374, (-18)); (57908087496183391, (-17)); (72803526037421595, (-17)); (47602991995884658, (-17)); (49331549231280142, (-17)); ((-51259139662525877), (-17)); (85582693436088642, (-17)); ((-69356459888127289), (-18)); ((-45520843550797047), (-17)); ((-20237532884820936), (-17)); (86708102649981045, (-17))];
  [(22227139073035629, (-17)); (77119157618573519, (-17)); (1991926049711833, (-16)); (95611234955767888, (-17)); (19301001841133483, (-17)); (22044570264841007, (-17)); (87158863404795117, (-19)); (73330523536218417, (-17)); ((-67984370638824898), (-17)); ((-29287063415200043), (-17)); (65192834313540005, (-17)); (69943993814203753, (-17))];
  [(66615900998895972, (-17)); (85494987393240984, (-17)); (70265880447389362, (-17)); (59997098547200989, (-17)); (50808164038872083, (-17)); (61797076248933647, (-17)); ((-68272433699991586), (-18)); (80214123409798632, (-17)); ((-59321860671799542), (-17)); ((-79710331287006064), (-17)); (31372358416234192, (-17)); (51594943681712502, (-17))];
  [(14466768492531901, (-17)); (50498005487423281, (-17)); (47657686509064234, (-17)); (87928833122781325, (-17)); (45394811237515126, (-17)); (14416359400918291, (-17)); ((-33950885591804109), (-17)); (80965754420238334, (-17)); ((-47873625084109567), (-17)); ((-33404455888373674), (-17)); (37200238223323612, (-17)); (86604183518636502, (-17))];
  [(94150365707869577, (-17)); (16522796750275781, (-17)); (80911785431413619, (-17)); (40619610542049522, (-17)); (42593776617046653, (-17)); (80844402607164767, (-17)); ((-622054843348951), (-15)); (77696602617476129, (-17)); ((-96806849118810753), (-18)); ((-66936723538528087), (-17)); ((-46357395690430364), (-17)); (58055722428779821, (-17))];
  [(68927438357435444, (-17)); (68259167275865684, (-17)); (43540621168145666, (-17)); (69970642880776179, (-17)); (3254899047338069, (-16)); (63597738591986586, (-17)); (36472789671126715, (-18)); (87275282984016178, (-17)); ((-4867979392105059), (-16)); ((-71349887813415269), (-17)); (36381151702820919, (-17)); (59879924096389658, (-17))];
  [(70185955319138182, (-17)); (52421335042585215, (-17)); (29963309705099062, (-17)); (72961868576449551, (-17)); (22540422607467561, (-17)); (64563883731616301, (-17)); (53230732629239275, (-18)); (92253367505301287, (-17)); ((-38222782145853346), (-17)); ((-68177933562630422), (-17)); (31324838907943109, (-17)); (66109937547398778, (-17))];
  [(15561840993698162, (-17)); (53293938539109376, (-17)); (17720983530594536, (-17)); (97244450107355329, (-17)); (17415355818625483, (-17)); (15499106588082728, (-17)); ((-74323617564463915), (-18)); (86171025162629078, (-17)); ((-50192772598680579), (-17)); ((-22096988981293245), (-17)); (47657736036578724, (-17)); (85090911816882009, (-17))];
  [(97674412368488361, (-17)); (7155641326696871, (-16)); (52389754005240685, (-17)); (48465121043333997, (-17)); (28000660219229451, (-17)); (82867937524366109, (-17)); (93176188112011005, (-18)); (92546216993268282, (-17)); ((-36720290030500163), (-17)); ((-86973064922101795), (-17)); (25517851545969933, (-17)); (42243641302966589, (-17))];
  [(53950375637053127, (-17)); (29676292899062406, (-17)); (86599545076058149, (-17)); (55585938457986261, (-17)); (65354577227948818, (-17)); (51371029589653316, (-17)); ((-63111707817663754), (-17)); (73399245073414454, (-17)); ((-25089104387974515), (-17)); ((-54102826008285398), (-17)); ((-18475119972788143), (-17)); (82046049020707157, (-17))];
  [(35010853642603745, (-17)); (22587331926770249, (-17)); (75185450375251217, (-17)); (68611272574324589, (-17)); (64156098004838469, (-17)); (34299976159252593, (-17)); ((-60953645656333266), (-17)); (76433580417358038, (-17)); ((-21037130645252605), (-17)); ((-39713302014991131), (-17)); ((-64732428794865821), (-18)); (91547532843268242, (-17))];
  [(52453322069259933, (-17)); (5959434744884764, (-16)); (90716542823983581, (-17)); (53316732202840611, (-17)); (6818525628083747, (-16)); (50080903477544159, (-17)); ((-47881438827983902), (-17)); (73123673063146299, (-17)); ((-48582880251340899), (-17)); ((-69747357533978427), (-17)); (19233469969321959, (-18)); (71635234719771634, (-17))];
  [(59927021811034742, (-17)); (91717618774717358, (-17)); (25691523270921635, (-17)); (79864511846576147, (-17)); (20982098085746931, (-17)); (56404000810476151, (-17)); (2785793554324365, (-16)); (70188797065564323, (-17)); ((-65555077558931396), (-17)); ((-53344120339326828), (-17)); (68068232872678025, (-17)); (50210760787049369, (-17))];
  [(18953013357270909, (-17)); (16777904128578058, (-17)); (68127159596831244, (-18)); (97981464787491424, (-17)); (66855453201035614, (-18)); (18839746332432961, (-17)); ((-35730502064249416), (-18)); (98581259393885179, (-17)); ((-1640026245332353), (-16)); ((-19668906180058576), (-17)); (15396063785538441, (-17)); (96830239850945765, (-17))];
  [(85271556838784146, (-17)); (70440234362501453, (-17)); (22932598770699353, (-17)); (64071556815288977, (-17)); (1495638437065645, (-16)); (75306986221879701, (-17)); (30168607540333092, (-17)); (8529076241957152, (-16)); ((-426068182919772), (-15)); ((-70602342215698144), (-17)); (50017920912862723, (-17)); (50134986398841841, (-17))];
  [(5732462349047891, (-16)); (30443646040380712, (-17)); (22139869478370877, (-18)); (83993886978196663, (-17)); (18599175989146122, (-18)); (54236220893598142, (-17)); (14141619926808871, (-17)); (95738134066024894, (-17)); ((-25183809707856458), (-17)); ((-5239314398029199), (-16)); (2882274088425823, (-16)); (8015115764466102, (-16))];
  [(55545029474146923, (-17)); (5803383595075845, (-16)); (18993318476827603, (-17)); (8343834571398322, (-16)); (16041068015163312, (-17)); (5273259524664724, (-16)); (12605337833979161, (-17)); (87582530026319716, (-17)); ((-46587615224220918), (-17)); ((-53657692110312316), (-17)); (45519057230150456, (-17)); (71055383372924075, (-17))];
  [(99012125249054617, (-17)); (78798996610012884, (-17)); (15513172359352678, (-17)); (54200058960631836, (-17)); (84762539988001151, (-18)); (8360925024667939, (-16)); (47664720861430232, (-17)); (7883861852378834, (-16)); ((-38891472258870763), (-17)); ((-69212917825113895), (-17)); (60931316639380129, (-17)); (38690394915607002, (-17))];
  [(78509524844137646, (-18)); (75942307482800198, (-17)); (8369621274426694, (-16)); (66765893572297619, (-17)); (74032455961859156, (-17)); (78428897574818024, (-18)); ((-50240299461921645), (-17)); (52580460262776374, (-17)); ((-68638236490538063), (-17)); ((-54938399735240406), (-17)); (4188664062454735, (-16)); (72299941713122817, (-17))];
  [(73920902600555038, (-17)); (15273342529269329, (-17)); (89279166718107927, (-17)); (46353159420177703, (-17)); (57555358760257269, (-17)); (67370359133269198, (-17)); ((-70546890419282016), (-17)); (69976616417260484, (-17)); ((-11243193806094734), (-17)); ((-53614558320827455), (-17)); ((-42316117883965537), (-17)); (73039888439762313, (-17))];
  [(91875623163084241, (-17)); (66814274834707099, (-17)); (67430769983887906, (-17)); (47400258752370078, (-17)); (37886539954720011, (-17)); (79484750490064238, (-17)); ((-10544612912733015), (-17)); (92062654000392141, (-17)); ((-37593601542346339), (-17)); ((-8741868569550213), (-16)); (94381051415782236, (-18)); (47632925194738218, (-17))];
  [(91967270928569622, (-17)); (2906541874505979, (-16)); (82664899416820059, (-17)); (41052547374837373, (-17)); (44587265979187307, (-17)); (79540329811598964, (-17)); ((-55041142935407117), (-17)); (8166266300120848, (-16)); ((-17368996974930359), (-17)); ((-72699112363225016), (-17)); ((-36649490911229055), (-17)); (58065944214719534, (-17))];
  [(27919683212658553, (-17)); (47255391622682408, (-17)); (63174300061292621, (-17)); (77575003515786689, (-17)); (56768435192342803, (-17)); (27558367065892325, (-17)); ((-42460679589439759), (-17)); (79263534287808568, (-17)); ((-43753660658376115), (-17)); ((-46682004223561541), (-17)); (22240433854090413, (-17)); (85592952885463713, (-17))];
  [(92223749494745355, (-17)); (88396775151691664, (-17)); (29185616046345497, (-17)); (57849457640836677, (-17)); (17380022696224509, (-17)); (79695514690224345, (-17)); (40774733264390911, (-17)); (7845884398873747, (-16)); ((-46707932165411964), (-17)); ((-70646028748110223), (-17)); (59515918971563186, (-17)); (38301357823078663, (-17))];
  [(7975057974463311, (-16)); (90767719065449437, (-17)); (14647338599785353, (-17)); (69101425769778768, (-17)); (10194530323796329, (-17)); (71561613369605859, (-17)); (46807725670075295, (-17)); (69129637022994961, (-17)); ((-55046617540625864), (-17)); ((-55082027687610857), (-17)); (71534361229734644, (-17)); (42997737025047134, (-17))];
  [(86975431174914697, (-17)); (13481644609673915, (-17)); (7818944567850975, (-16)); (45768921247197236, (-17)); (45449317991396643, (-17)); (76417048765211848, (-17)); ((-62534956806062181), (-17)); (77551391516668, (-14)); ((-86695358060517008), (-18)); ((-63202729570262983), (-17)); ((-43819415422223335), (-17)); (63916146683939112, (-17))];
  [(91600834156382671, (-17)); (35913969257679168, (-17)); (76952682976583098, (-17)); (43740174939151133, (-17)); (42373324094318565, (-17)); (79317706103305186, (-17)); ((-45117453533899754), (-17)); (86638778488559465, (-17)); ((-21404145594410517), (-17)); ((-77789539675388564), (-17)); ((-26423918468088103), (-17)); (5701371808506247, (-16))];
  [(11867764500345546, (-18)); (71513414856864566, (-17)); (99472103486433106, (-17)); (54469849185227559, (-17)); (8385479805901539, (-16)); (11867485918731373, (-18)); ((-62891374730059357), (-17)); (41780501804919118, (-17)); ((-6556725290487927), (-16)); ((-55477117033077827), (-17)); (34968021268165839, (-17)); (75495211598400636, (-17))];
  [(62703050810601779, (-17)); (39753081068355789, (-17)); (153146553126563, (-15)); (80029579066504541, (-17)); (12352980577604902, (-17)); (58674273282993572, (-17)); (83841837440104233, (-18)); (94588030092462339, (-17)); ((-31349801054777232), (-17)); ((-59371474104865962), (-17)); (30008472704833816, (-17)); (74662705740807944, (-17))];
  [(74565977806058725, (-17)); (73405454233779166, (-17)); (68567426383204599, (-17)); (5686060244302521, (-16)); (46517067036299503, (-17)); (67845665772815988, (-17)); ((-11835437745974431), (-17)); (86244145442105302, (-17)); ((-49212496282165491), (-17)); ((-81405124551083397), (-17)); (19952690327407163, (-17)); (54544439180554349, (-17))];
  [(24462004721622355, (-17)); (53596811649032028, (-17)); (60224671912204686, (-17)); (79953204446775128, (-17)); (5496304462056284, (-16)); (24218770091195746, (-17)); ((-38513890624824243), (-17)); (77857364441343246, (-17)); ((-49547058754147399), (-17)); ((-46088668104331831), (-17)); (30286870559466489, (-17)); (8341786465789488, (-16))];
  [(17487991542786385, (-17)); (27247222704967067, (-17)); (92333782737107428, (-17)); (59396145318328486, (-17)); (78545357071322064, (-17)); (17398988587343847, (-17)); ((-73995214920160335), (-17)); (61825662301624063, (-17)); ((-2650086130458445), (-16)); ((-31572236066570991), (-17)); (28660710919404114, (-18)); (9484186599942378, (-16))];
  [(66878699019672849, (-17)); (24389988056665546, (-17)); (87292020467260079, (-17)); (50416104772134318, (-17)); (60114769434288451, (-17)); (6200347470478984, (-16)); ((-64731542043899348), (-17)); (73829897675273948, (-17)); ((-18946600588957055), (-17)); ((-57166807189347779), (-17)); ((-30583667293523131), (-17)); (76135375816075257, (-17))];
  [(13257802483542092, (-17)); (21918573001902852, (-17)); (6964303085726129, (-16)); (76040487973079085, (-17)); (63585393607293528, (-17)); (13218998018820086, (-17)); ((-60408613588353499), (-17)); (76722105383792027, (-17)); ((-21552678483457741), (-17)); ((-23846249037301592), (-17)); (84033484566489541, (-18)); (96750918039919032, (-17))];
  [(25270446358444543, (-17)); (95973954328858868, (-17)); (32891045824094289, (-17)); (91633713594416788, (-17)); (31275315012815785, (-17)); (25002343965027268, (-17)); (84796897622949619, (-19)); (60912459392404128, (-17)); ((-79302920749390249), (-17)); ((-40031780893581886), (-17)); (72880223391657206, (-17)); (55551143614424303, (-17))];
  [(15351398901814228, (-17)); (99724571313084376, (-17)); (76199848743895127, (-17)); (71494979175045381, (-17)); (6822498054720384, (-16)); (15291173339331601, (-17)); ((-28168348780676422), (-17)); (48123397958030656, (-17)); ((-83010136103630006), (-17)); ((-63992281407447826), (-17)); (55040808481586367, (-17)); (53623663824503243, (-17))];
  [(67286931281621332, (-18)); (93689800366714149, (-20)); (71131096917726899, (-18)); (99521406076152286, (-17)); (70910301535280371, (-18)); (67236168828507692, (-18)); ((-7100826389601235), (-17)); (99747528924231166, (-17)); ((-93477774956726646), (-20)); ((-67132702321850896), (-18)); ((-38440196594751565), (-19)); (99773665052047844, (-17))];
  [(56036692695095036, (-18)); (63743686078926298, (-17)); (97819573968447071, (-17)); (55764339469757929, (-17)); (82818899945103308, (-17)); (56007370394052187, (-18)); ((-64798208524872725), (-17)); (47648870291212109, (-17)); ((-59420344427968064), (-17)); ((-51879963526092709), (-17)); (29506185315187922, (-17)); (80236241267129893, (-17))];
  [(7760198301596648, (-16)); (94874520885071956, (-17)); (59325190984622356, (-17)); (59175384045593304, (-17)); (39900523261052029, (-17)); (70044429946647346, (-17)); (14620651129905765, (-17)); (80137481948665579, (-17)); ((-58001901240087672), (-17)); ((-79274904500693832), (-17)); (44563799550998179, (-17)); (41587946402585546, (-17))];
  [(65859147756855663, (-17)); (36179037810025494, (-17)); (32336842030361912, (-17)); (74986536987449603, (-17)); (25130383138534851, (-17)); (61200352237060662, (-17)); ((-91800758886344036), (-18)); (95562334442839036, (-17)); ((-27992256831379164), (-17)); ((-65519046675823711), (-17)); (15372185243010292, (-17)); (73965873506271873, (-17))];
  [(26181964538955005, (-17)); (31193456766133021, (-17)); (33749128525575867, (-17)); (91143138209179686, (-17)); (31983653399802242, (-17)); (25883861237916, (-14)); ((-24018512059084468), (-17)); (92435576804516995, (-17)); ((-29644143085673003), (-17)); ((-33407176412411543), (-17)); (20801683970716378, (-17)); (91930683170160643, (-17))];
  [(85695044263113307, (-17)); (82810840759056181, (-17)); (92410202400030028, (-17)); (39451788700148621, (-17)); (52253930617120192, (-17)); (75584939660093764, (-17)); ((-20421778706563198), (-17)); (85185795890167881, (-17)); ((-48232055036239307), (-17)); ((-89590776996401744), (-17)); (35926193257628525, (-18)); (44278502273238285, (-17))];
  [(20009418274724733, (-17)); (72422197178808689, (-17)); (3492968308487987, (-16)); (92086629587840152, (-17)); (33540882137680095, (-17)); (19876163527657392, (-17)); ((-13260302646349251), (-17)); (74885405038573971, (-17)); ((-64933354186703951), (-17)); ((-36663565359620282), (-17)); (57159297910619689, (-17)); (73407068034937073, (-17))];
  [(34966678741856771, (-18)); (88743998451160133, (-17)); (40285196063888806, (-18)); (99857788514787138, (-17)); (40249681940692138, (-18)); (34959553733959987, (-18)); (16585027090613366, (-19)); (63197882158860252, (-17)); ((-77498388269192098), (-17)); ((-53286552359563949), (-18)); (77393974711675995, (-17)); (63101332091365314, (-17))];
  [(7032858154318663, (-16)); (38981075338328985, (-17)); (99643711488203635, (-17)); (41438413440600358, (-17)); (64033549247330424, (-17)); (64672733530565885, (-17)); ((-64303571901461598), (-17)); (70886906664410143, (-17)); ((-28984428651687499), (-17)); ((-64404258649870594), (-17)); ((-29576190328385998), (-17)); (70550268840165697, (-17))];
  [(91714184605090521, (-17)); (5936073151206176, (-16)); (14313041371813096, (-17)); (60187347899216093, (-17)); (86739535094680964, (-18)); (79386684547059361, (-17)); (32127236441135176, (-17)); (88379269162201579, (-17)); ((-34013900996659047), (-17)); ((-73111721574000188), (-17)); (45976812774165993, (-17)); (50406436648657904, (-17))];
  [(19530467889479264, (-17)); (93236270664908116, (-17)); (70386596485830633, (-17)); (74785268154771112, (-17)); (6348661082409407, (-16)); (19406543048389574, (-17)); ((-26686893572396714), (-17)); (55516635952099924, (-17)); ((-7877634698320034), (-16)); ((-60786292685724364), (-17)); (53734098844514233, (-17)); (5846086933063368, (-16))];
  [(77708924788171008, (-17)); (9975871080838119, (-16)); (28301178389523896, (-17)); (68459525643118269, (-17)); (19909261154525246, (-17)); (70120714977816256, (-17)); (41424793308144126, (-17)); (68527028536908929, (-17)); ((-59900190811709508), (-17)); ((-59977327783894907), (-17)); (70054747734772271, (-17)); (3866590839125143, (-16))];
  [(93524063552293812, (-17)); (4426246580214529, (-16)); (8483112492452406, (-16)); (39253494687078405, (-17)); (44531641740666639, (-17)); (80474194862281312, (-17)); ((-44995111900528417), (-17)); (856094247942085, (-15)); ((-25425701395707534), (-17)); ((-80215977584957687), (-17)); ((-26228977682816296), (-17)); (53641753045588392, (-17))];
  [(78060779046097051, (-17)); (28689488451006551, (-17)); (14478719822610586, (-17)); (70305188394268525, (-17)); (10251023429970778, (-17)); (70371137574183062, (-17)); (58664751604800169, (-18)); (97782274808629499, (-17)); ((-20105004412860256), (-17)); ((-70871467841705382), (-17)); (18263166535074077, (-17)); (68144638777194133, (-17))];
  [(34073120434469417, (-18)); (87319204985946364, (-18)); (87329265623758856, (-17)); (64193356830740167, (-17)); (7660031106751819, (-16)); (34066527795941201, (-18)); ((-76161967443659784), (-17)); (64213628834296732, (-17)); ((-87157665779944271), (-18)); ((-88638396822243379), (-18)); (30003693590333492, (-18)); (9956118786855247, (-16))];
  [(3428780691075064, (-16)); (31918050873044224, (-18)); (4129716894105826, (-16)); (86261669912084393, (-17)); (37797175708413072, (-17)); (3361990202909495, (-16)); ((-39130151534410845), (-17)); (91977161261586859, (-17)); ((-30055028121916069), (-18)); ((-32058626684133534), (-17)); ((-10562921694654186), (-17)); (94131127372405177, (-17))];
  [(30197402086542791, (-17)); (89040221129277508, (-17)); (72062562274177966, (-17)); (71739347079028548, (-17)); (62999729068037669, (-17)); (29740548381435855, (-17)); ((-2414067835725219), (-16)); (6252466380347772, (-16)); ((-74215187560995755), (-17)); ((-65350544979566727), (-17)); (46061920863289368, (-17)); (60063347536227896, (-17))];
  [(50329110261052468, (-17)); (66264419543615249, (-17)); (88550500850197023, (-17)); (55441914546382887, (-17)); (6782295809930684, (-16)); (48231115123862178, (-17)); ((-4225886875329557), (-16)); (72868774310764306, (-17)); ((-53891833724031291), (-17)); ((-71696458232769888), (-17)); (94967407623123723, (-18)); (69061058432159272, (-17))];
  [(57737792152434664, (-17)); (60806803694029343, (-17)); (36762117604676459, (-17)); (78191260251723338, (-17)); (30113721097919183, (-17)); (54582878468289009, (-17)); ((-39877217098684969), (-19)); (87798254093353401, (-17)); ((-47867604482725057), (-17)); ((-62337531239237554), (-17)); (37210621867898019, (-17)); (68770646493990395, (-17))];
  [(18806013984865877, (-17)); (78143145638519929, (-17)); (8552404488931864, (-16)); (64447029977615111, (-17)); (74142186905538165, (-17)); (1869535899437676, (-16)); ((-44940561445727167), (-17)); (56510038047483901, (-17)); ((-69187871312931293), (-17)); ((-61862155345632752), (-17)); (36187728869551428, (-17)); (69738956224312931, (-17))];
  [(85343415891064089, (-18)); (82135508477251074, (-17)); (61159711795820415, (-17)); (8157522283972154, (-16)); (5720860679851868, (-16)); (85239853837424814, (-18)); ((-34005556372145723), (-17)); (59357411066809662, (-17)); ((-72940522943468122), (-17)); ((-46787874011014779), (-17)); (56602765476770334, (-17)); (67875045384228982, (-17))];
  [(85086847641306929, (-17)); (25349244043985009, (-17)); (58928151917979466, (-17)); (54812788922955324, (-17)); (36643202646275796, (-17)); (75185330153637764, (-17)); ((-38125007478578715), (-17)); (90956440774366887, (-17)); ((-16535104669079245), (-17)); ((-74444892203870261), (-17)); ((-19601060723416358), (-17)); (6382598564277, (-13))];
  [(79649826918548916, (-17)); (54703263713235617, (-17)); (38981608467081053, (-17)); (64675863225912922, (-17)); (26571427806548126, (-17)); (71491201838438867, (-17)); (19404575075890163, (-18)); (9313140015540331, (-16)); ((-36370000409064962), (-17)); ((-76244785661999503), (-17)); (24909868113170436, (-17)); (59717929719140539, (-17))];
  [(96771441346090281, (-17)); (67040387551317127, (-17)); (19015332629572268, (-17)); (55696007104631617, (-17)); (10720302818322126, (-17)); (82359151890268389, (-17)); (35437393153200225, (-17)); (8661631868793308, (-16)); ((-35239246635760152), (-17)); ((-75114219420202621), (-17)); (4881278976286737, (-16)); (44442835153259158, (-17))];
  [(75939288725586418, (-17)); (90796785633786248, (-17)); (46845746347870632, (-17)); (64711947173567308, (-17)); (32745983350587055, (-17)); (68848126099469908, (-17)); (2063950639153459, (-16)); (79408891610498267, (-17)); ((-5716851151731992), (-16)); ((-73391925093427246), (-17)); (51204770359754703, (-17)); (44628430663485691, (-17))];
  [(17617942188629954, (-17)); (64632488411405087, (-17)); (36811285924160086, (-17)); (91856561195635911, (-17)); (35428497773748863, (-17)); (175269424261012, (-15)); ((-18878775069601825), (-17)); (78280806025913052, (-17)); ((-59293399799680546), (-17)); ((-34726992630859577), (-17)); (51156006034764367, (-17)); (78594522896874797, (-17))];
  [(15701298565840272, (-17)); (65727668764860991, (-17)); (12797969454238234, (-17)); (97962113712801768, (-17)); (1260606071587739, (-16)); (15636863820718933, (-17)); ((-62857610917395335), (-19)); (79737789247268931, (-17)); ((-6034475833105224), (-16)); ((-2007558639230923), (-16)); (59016711185779702, (-17)); (78192062460451783, (-17))];
  [(75919681970811892, (-19)); (35800407511825705, (-17)); (7849346091921352, (-16)); (70741410007450922, (-17)); (70675855434655843, (-17)); (75918952663381195, (-19)); ((-66008582936373139), (-17)); (66446198020206726, (-17)); ((-35039545479235668), (-17)); ((-25268951084080865), (-17)); (24286338283881001, (-17)); (93657108026413161, (-17))];
  [(74881982886725784, (-17)); (43660020965818214, (-17)); (69134284969499382, (-17)); (56430553555919949, (-17)); (46701710733467872, (-17)); (68077476744808496, (-17)); ((-35598977598578346), (-17)); (88166362943619625, (-17)); ((-30974267371963043), (-17)); ((-74486947979551199), (-17)); ((-67559351581723159), (-18)); (6637809820136612, (-16))];
  [(3917693092751805, (-16)); (3026869966436917, (-16)); (12098851879865924, (-18)); (92416729667158826, (-17)); (11181908850838833, (-18)); (38182426936639341, (-17)); (10225964177794422, (-17)); (95584613219770953, (-17)); ((-27550161020604841), (-17)); ((-36804588494666685), (-17)); (29365479134032607, (-17)); (88221827803367026, (-17))];
  [(64400094289604148, (-17)); (65913270850316763, (-17)); (591414549950671, (-15)); (66387323188330771, (-17)); (44586143741810064, (-17)); (60039979231531804, (-17)); ((-13549501770802053), (-17)); (86126350642383964, (-17)); ((-48976144466343602), (-17)); ((-73546817209524107), (-17)); (24378833262889721, (-17)); (63218179087103343, (-17))];
  [(39813406494324755, (-17)); (77070776207639469, (-17)); (31698241030405172, (-17)); (87586294202537363, (-17)); (28732137494632987, (-17)); (38769902538645556, (-17)); (33012540786898276, (-18)); (76586286159543615, (-17)); ((-64215593852244568), (-17)); ((-48142941220645252), (-17)); (57523951944194529, (-17)); (66130569053558685, (-17))];
  [(21726657013949124, (-17)); (19903186487534008, (-17)); (66282465252458678, (-17)); (76972556329006991, (-17)); (60087927133509389, (-17)); (21556126390794617, (-17)); ((-56960177899975728), (-17)); (79892239552523747, (-17)); ((-1930720572442523), (-16)); ((-28822971841587813), (-17)); (25828418612502402, (-18)); (95721289283726274, (-17))];
  [(49461694627439956, (-17)); (19007836011306611, (-17)); (56085452361326005, (-18)); (87876667956508869, (-17)); (49337769528757965, (-18)); (47469454113574555, (-17)); (34499340324127381, (-18)); (9854728645825267, (-16)); ((-16629199827023838), (-17)); ((-47600306553986482), (-17)); (1625085156828284, (-16)); (8642985965088773, (-16))];
  [(21913571743025373, (-17)); (7985043663863759, (-16)); (24815912133732621, (-17)); (94618450274984656, (-17)); (23974606233039786, (-17)); (21738609052350788, (-17)); ((-20442005103991134), (-18)); (71465030858613765, (-17)); ((-69918313828714918), (-17)); ((-32298144092711301), (-17)); (65711244245928513, (-17)); (68109193709941873, (-17))];
  [(48404365992636889, (-17)); (82861616931543147, (-17)); (49049757341077393, (-17)); (78076344504405981, (-17)); (41694911227975601, (-17)); (46536209627778552, (-17)); ((-15857325106573228), (-18)); (75776843245288339, (-17)); ((-65233085778488542), (-17)); ((-62462547828550496), (-17)); (50193668977972039, (-17)); (59824958949386742, (-17))];
  [(50408883529921977, (-17)); (37404497017981453, (-17)); (86629819431300303, (-17)); (56709334625511165, (-17)); (66716314242899044, (-17)); (48300981151261774, (-17)); ((-59495402013024001), (-17)); (73734051639294196, (-17)); ((-31993542601008629), (-17)); ((-56959182803481812), (-17)); ((-1059353778001669), (-16)); (81507229444159746, (-17))];
  [(74412402081744966, (-17)); (19789723455901964, (-17)); (72264001280245238, (-17)); (55180698512068083, (-17)); (48655558217253686, (-17)); (6773276287209673, (-16)); ((-54857434956887297), (-17)); (82349571493452367, (-17)); ((-14464090182090877), (-17)); ((-6281522380499116), (-16)); ((-29175070341169962), (-17)); (72132259973722279, (-17))];
  [(34282944292727491, (-17)); (96839780631477657, (-17)); (54926734442618907, (-17)); (80327427645346905, (-17)); (49168226188316161, (-17)); (33615322419636834, (-17)); ((-59570311968658696), (-18)); (62787719442792289, (-17)); ((-77602938517125564), (-17)); ((-59262282669511857), (-17)); (60333969044542268, (-17)); (53364726478555957, (-17))];
  [(46766167453052343, (-17)); (84133827720985987, (-17)); (58153551206059761, (-17)); (74589532211877363, (-17)); (49032569066978565, (-17)); (45080027230529568, (-17)); ((-85253069254754177), (-18)); (74152772721596794, (-17)); ((-66548369172547361), (-17)); ((-66058465212565687), (-17)); (45794906576945732, (-17)); (59490383301581296, (-17))];
  [(10619654410735702, (-17)); (9037682906716451, (-16)); (43266024783557333, (-17)); (90273911157409559, (-17)); (41692531981900599, (-17)); (10599704773356748, (-17)); ((-18378946219487638), (-17)); (59656444572300971, (-17)); ((-78123766914129034), (-17)); ((-3889518350908383), (-16)); (68577265897162865, (-17)); (61516853803364457, (-17))];
  [(12937966083020147, (-17)); (57922024571225761, (-17)); (65286616436914802, (-18)); (98952951153727198, (-17)); (64694977181209798, (-18)); (12901901303424579, (-17)); (15871990198658661, (-18)); (83971415117029213, (-17)); ((-54279666934450643), (-17)); ((-14345530915216009), (-17)); (53916111159084767, (-17)); (82989509579475151, (-17))];
  [(69450222017220709, (-17)); (41003949830880315, (-17)); (39211986998635162, (-17)); (71005370727151795, (-17)); (29363215663968156, (-17)); (64000303856864849, (-17)); ((-11470016725473772), (-17)); (94499689910186657, (-17)); ((-30630823090408715), (-17)); ((-69474283329999786), (-17)); (14408683935386296, (-17)); (70467820904530987, (-17))];
  [(61457524814693765, (-17)); (20249438971072764, (-17)); (58119870333256274, (-18)); (81563891462282734, (-17)); (47458276737591232, (-18)); (57661154421498917, (-17)); (58868174974930111, (-18)); (98465002154728642, (-17)); ((-16431333799192785), (-17)); ((-57555859730180148), (-17)); (16796442193520245, (-17)); (80032509271917507, (-17))];
  [(35655310253924988, (-18)); (50695341426077822, (-17)); (58008190107236424, (-17)); (8358861502534064, (-16)); (54774408377403982, (-17)); (35647755961312588, (-18)); ((-46468126093220313), (-17)); (74070574410704193, (-17)); ((-48520750858296807), (-17)); ((-2921740398341327), (-16)); (38901339223395764, (-17)); (8736720844284952, (-16))];
  [(12907608854115171, (-17)); (42646746332631413, (-17)); (90573092867664795, (-18)); (98761639975737203, (-17)); (89696881818148236, (-18)); (12871797202561822, (-17)); ((-29321132091228996), (-18)); (91151686279176558, (-17)); ((-41021613822367631), (-17)); ((-15412371051585599), (-17)); (40136202889456146, (-17)); (9028590164684992, (-16))];
  [(39104209080380625, (-17)); (28471509241005599, (-17)); (46397836089562938, (-17)); (82677220326045364, (-17)); (41372797877196926, (-17)); (38115204774094585, (-17)); ((-33375233875825772), (-17)); (90618722236407279, (-17)); ((-25968075476915786), (-17)); ((-45283230923736928), (-17)); (87486442408794385, (-18)); (88729308692528663, (-17))];
  [(44024925117566582, (-17)); (17273121829752158, (-17)); (3110445808692589, (-16)); (86123550630303225, (-17)); (27686969432345565, (-17)); (4261649622484186, (-16)); ((-2317671734371487), (-16)); (96026480949203197, (-17)); ((-15548463901037352), (-17)); ((-45228020076045167), (-17)); (35137843082178072, (-18)); (89118345585160963, (-17))];
  [(91565607191775755, (-17)); (58500280255029746, (-17)); (97988205263881767, (-17)); (33943706545097663, (-17)); (50595748789189632, (-17)); (79296248274691472, (-17)); ((-4483903557471004), (-16)); (82810269990759855, (-17)); ((-33644019866647124), (-17)); ((-82687881063129087), (-17)); ((-24135645599790251), (-17)); (50795520833742269, (-17))];
  [(417471127206689, (-15)); (47092562914187064, (-17)); (78091324209131296, (-17)); (64927091261537839, (-17)); (64347301893937148, (-17)); (40545006588807558, (-17)); ((-49664531603956757), (-17)); (76244981855489258, (-17)); ((-41474534866779328), (-17)); ((-5760127707677597), (-16)); (67917214921274671, (-18)); (81461435037064367, (-17))];
  [(55969033898634724, (-18)); (55420333143123723, (-17)); (63709200641062225, (-19)); (99841387997990194, (-17)); (6360901080549799, (-18)); (55939817669719248, (-18)); (24021345196291809, (-18)); (85049026677308781, (-17)); ((-52544198642590645), (-17)); ((-50918554952380193), (-18)); (52595232204229825, (-17)); (8489884897334451, (-16))];
  [(21961971800998781, (-17)); (47499030428777689, (-17)); (48772827410728603, (-17)); (86218077753547118, (-17)); (45736417077640718, (-17)); (21785849108616293, (-17)); ((-32872673416584181), (-17)); (83229498210110742, (-17)); ((-4463449305346453), (-16)); ((-38546470797336341), (-17)); (31321410897232393, (-17)); (86793656499060046, (-17))];
  [(68288882811390939, (-17)); (5180081644327077, (-16)); (23826284515683693, (-17)); (75383754140212611, (-17)); (18308927035557937, (-17)); (63103667108454131, (-17)); (98579627393400371, (-18)); (91800765707369802, (-17)); ((-38411456444274278), (-17)); ((-64962375128667849), (-17)); (35176733878335154, (-17)); (67397976314538, (-14))];
  [(26417797811501609, (-17)); (92422199906677771, (-17)); (32045809692325855, (-17)); (91616484095665229, (-17)); (30407317494193087, (-17)); (26111585259345299, (-17)); (80259236201709327, (-19)); (63743495280770812, (-17)); ((-77046237123501249), (-17)); ((-40072131056997107), (-17)); (70796623169454131, (-17)); (58155502408225823, (-17))];
  [(14430396649829891, (-17)); (7988874355366905, (-16)); (50409094313139169, (-17)); (86651299830425943, (-17)); (4779913488308225, (-16)); (14380366550492849, (-17)); ((-24667344345046105), (-17)); (6605174040358478, (-16)); ((-70913254844354512), (-17)); ((-43394404716052348), (-17)); (57900002539605788, (-17)); (69025468815887803, (-17))];
  [(4467581267040508, (-16)); (26011160908967346, (-17)); (94434566431409406, (-17)); (52873183566388604, (-17)); (73060285104205025, (-17)); (43204411812305149, (-17)); ((-71771755271597271), (-17)); (6565687830693212, (-16)); ((-23194600152247885), (-17)); ((-45312709086843672), (-17)); ((-18744841196472836), (-17)); (87151530816905842, (-17))];
  [(33082377778918759, (-17)); (48796049380723805, (-17)); (32928872409425214, (-17)); (89496103575143304, (-17)); (30583533530755558, (-17)); (32482224702756607, (-17)); ((-14152676997122396), (-17)); (88507831584929841, (-17)); ((-44340336962508747), (-17)); ((-42310154557533153), (-17)); (35085769549873741, (-17)); (83539449342276662, (-17))];
  [(28037045038369457, (-17)); (87430652041634838, (-17)); (3749378664816484, (-16)); (89419595481926939, (-17)); (3519151254307854, (-16)); (27671165294922023, (-17)); ((-37418155815435616), (-18)); (67469683468234487, (-17)); ((-73714588982439322), (-17)); ((-44610926464289768), (-17)); (64879883304662256, (-17)); (6164791952994958, (-16))];
  [(51942053666396948, (-17)); (14411305989670387, (-17)); (67779426480016913, (-17)); (67621866602163583, (-17)); (54436936530400382, (-17)); (49637718505430456, (-17)); ((-56504627150644338), (-17)); (81558528997685098, (-17)); ((-12467295548771791), (-17)); ((-47270606805983129), (-17)); ((-19616989802691931), (-17)); (85910787700237157, (-17))];
  [(17266197414406292, (-17)); (33508414235310724, (-17)); (30321918662612468, (-18)); (98467807720419243, (-17)); (29866482394921946, (-18)); (17180534771306866, (-17)); (27840877310343376, (-18)); (94566139844457042, (-17)); ((-32395895579911022), (-17)); ((-17214519982864762), (-17)); (32377849329628627, (-17)); (93034053843457876, (-17))];
  [(43918090973166679, (-17)); (51579828555607055, (-17)); (96192024527502984, (-17)); (51766835554453716, (-17)); (74244590559152168, (-17)); (42519824898298919, (-17)); ((-59362218816346946), (-17)); (66956704204301465, (-17)); ((-44642208046845333), (-17)); ((-61614297966286125), (-17)); ((-21308530689682526), (-18)); (78734603265147518, (-17))];
  [(47182029841413353, (-17)); (41768212895225088, (-17)); (9717980615280799, (-16)); (50221431610606981, (-17)); (7356649002630129, (-16)); (45450845450786048, (-17)); ((-65094986591685899), (-17)); (66761492813403456, (-17)); ((-36132337288834682), (-17)); ((-56924955227117746), (-17)); ((-114400446911711), (-15)); (81416674274098477, (-17))];
  [(56562345795191082, (-17)); (64658931397789587, (-17)); (6316865509589219, (-16)); (68134112233361777, (-17)); (49853801290826255, (-17)); (5359422773980862, (-16)); ((-2107278304245182), (-16)); (83479521793935341, (-17)); ((-5086361426306264), (-16)); ((-70097650210384488), (-17)); (23361676693051914, (-17)); (67383614455384466, (-17))];
  [(24659178824649997, (-17)); (5012181069724696, (-16)); (82262375484297545, (-17)); (65972142177953907, (-17)); (71076205850781216, (-17)); (2441002700345104, (-16)); ((-56298937056516118), (-17)); (68258697011358738, (-17)); ((-46595922231649883), (-17)); ((-49780579976113892), (-17)); (1699774232564141, (-16)); (85046873035243498, (-17))];
  [(91977384902824388, (-17)); (21077638686727063, (-17)); (67896745818371995, (-17)); (47160231720964418, (-17)); (3805618686684637, (-16)); (7954645928751708, (-16)); ((-48457498500339324), (-17)); (86551267107249741, (-17)); ((-12678682944971864), (-17)); ((-73673491726092055), (-17)); ((-32566928060306499), (-17)); (59258854305498243, (-17))];
  [(19334780242989302, (-17)); (24466147335247457, (-17)); (87331733046439641, (-17)); (63031938992636183, (-17)); (7521819042422736, (-16)); (1921453866563706, (-16)); ((-7137440950701065), (-16)); (6588332585726514, (-16)); ((-23771433307879541), (-17)); ((-30539619093140913), (-17)); (12693318282031352, (-18)); (95214077017822174, (-17))];
  [(64859051458751693, (-17)); (60136372263475779, (-17)); (28673526987430975, (-17)); (76439896374290672, (-17)); (22539127428271519, (-17)); (60406373645997347, (-17)); (94601043623240261, (-18)); (88755700652251446, (-17)); ((-45088047497999623), (-17)); ((-63776552648615636), (-17)); (40179762773068606, (-17)); (65712540627784943, (-17))];
  [(87056976358341021, (-17)); (1954923106343559, (-16)); (73902767651663948, (-17)); (47628471482748552, (-17)); (43404213429584104, (-17)); (76469621162760559, (-17)); ((-55094869343773467), (-17)); (82509839019597309, (-17)); ((-12517261559649148), (-17)); ((-68527980243179054), (-17)); ((-36169057514942937), (-17)); (63211669826632577, (-17))];
  [(43688726794582444, (-17)); (94277979062258344, (-17)); (92164603855469363, (-17)); (54773002725137943, (-17)); (72177579902747591, (-17)); (42312115662709637, (-17)); ((-26105730300083374), (-17)); (62791915372372453, (-17)); ((-73318934862476859), (-17)); ((-79488420653396674), (-17)); (29113095391100252, (-17)); (53235501864614332, (-17))];
  [(49071680050308808, (-17)); (22569706169577319, (-17)); (9870780009040856, (-16)); (48609439939372584, (-17)); (7359537494518974, (-16)); (47125822384945892, (-17)); ((-7551341903092349), (-16)); (62515139898752914, (-17)); ((-1973780204834148), (-16)); ((-43986883215802997), (-17)); ((-25991884697272133), (-17)); (85962643251839455, (-17))];
  [(92308079054865499, (-17)); (20553540938604453, (-17)); (22724139877515781, (-17)); (5878546169495662, (-16)); (13593279568101027, (-17)); (79746424646464475, (-17)); ((-61977398578028947), (-18)); (99045186485031922, (-17)); ((-12314181044643228), (-17)); ((-8065889606215666), (-16)); (22964722355596712, (-18)); (59066646267631562, (-17))];
  [(19995948849396961, (-17)); (11014103886161453, (-17)); (89752014767729027, (-17)); (61112611092122171, (-17)); (76620568254459054, (-17)); (19862962665896738, (-17)); ((-76343184737019842), (-17)); (63684097204032553, (-17)); ((-10772831917216368), (-17)); ((-2090375348381929), (-16)); ((-85804594090943806), (-18)); (97413596620885523, (-17))];
  [(75362191479988805, (-17)); (48512968191547512, (-17)); (85106368638905516, (-17)); (48068675893718327, (-17)); (54835672915736222, (-17)); (68428439801759733, (-17)); ((-45487023817082617), (-17)); (8230790569807559, (-16)); ((-34004989690644744), (-17)); ((-74968880624488599), (-17)); ((-14780312428196141), (-17)); (64507436024353737, (-17))];
  [(23271300788983873, (-18)); (12952506568601718, (-17)); (80681909842109001, (-17)); (69161151250319064, (-17)); (72189477078423414, (-17)); (23269200403690703, (-18)); ((-71396237103169591), (-17)); (68817413012320616, (-17)); ((-12912822843966978), (-17)); ((-10923025461770204), (-17)); (72693235885786814, (-18)); (99135485318457262, (-17))];
  [(26604047320161783, (-17)); (85136772960802054, (-17)); (69506847259830962, (-17)); (74099085672869214, (-17)); (61790707871509576, (-17)); (26291327908315165, (-17)); ((-27013917112912122), (-17)); (63273613157399566, (-17)); ((-72572020505319179), (-17)); ((-61478238301544563), (-17)); (46672886119732482, (-17)); (63577259429712618, (-17))];
  [(8382094408185965, (-16)); (7216565774026551, (-16)); (32595202031930726, (-17)); (6335805528051619, (-16)); (21415542437100282, (-17)); (74344679521777557, (-17)); (22489595265833767, (-17)); (868453792610695, (-15)); ((-44182555446465349), (-17)); ((-74026852802547538), (-17)); (44713025430245201, (-17)); (50207274582715633, (-17))];
  [(69966526101578574, (-17)); (5189204761164451, (-16)); (75789819349730869, (-17)); (55564799828051681, (-17)); (52589801561623628, (-17)); (64396162865326045, (-17)); ((-36495264726927656), (-17)); (85020361262616584, (-17)); ((-37942506813409616), (-17)); ((-74703739348040799), (-17)); ((-2418872151068302), (-17)); (66434180847939772, (-17))];
  [(41918781591312815, (-17)); (63980202331701519, (-17)); (98263017093400906, (-17)); (50679844580567934, (-17)); (75992834858886549, (-17)); (40701872234572628, (-17)); ((-53258154743651676), (-17)); (64726781656744203, (-17)); ((-54534509163110778), (-17)); ((-67787331460905953), (-17)); (59609383883880429, (-18)); (73275813928875, (-14))];
  [(66260597278385902, (-17)); (33052417611623164, (-17)); (28462357377998226, (-17)); (75667274922402872, (-17)); (22137740912708376, (-17)); (61517346603208589, (-17)); ((-73981990670941994), (-18)); (96387778735285201, (-17)); ((-25586378427619438), (-17)); ((-64959450092970672), (-17)); (14809339545013497, (-17)); (74571799668905348, (-17))];
  [(21347021959849188, (-17)); (67357326789065974, (-17)); (58413254649862945, (-17)); (81525600482499461, (-17)); (53895836020725951, (-17)); (21185261990235121, (-17)); ((-32079402555944364), (-17)); (7248791719758152, (-16)); ((-60962396540902453), (-17)); ((-48212948443561843), (-17)); (4290385437211422, (-16)); (76385671970565672, (-17))];
  [(21756097686165943, (-17)); (73955863156527268, (-17)); (74674186196594883, (-17)); (71660535469160636, (-17)); (66323908744991744, (-17)); (21584873987567751, (-17)); ((-39504366488035614), (-17)); (64099803634271169, (-17)); ((-6580744792519192), (-16)); ((-57481933550048059), (-17)); (38631001835752138, (-17)); (72135102498811055, (-17))];
  [(40588961562832959, (-17)); (86406041162344049, (-17)); (88643534302872729, (-17)); (58081450572541948, (-17)); (71186996276365422, (-17)); (39483625220312568, (-17)); ((-31331291778069581), (-17)); (64316193347061401, (-17)); ((-69869717538150122), (-17)); ((-75132517959315304), (-17)); (28210615634759745, (-17)); (59659583560405549, (-17))];
  [(8648770779856122, (-16)); (58781491273037001, (-17)); (90642870330450998, (-17)); (39998412554978474, (-17)); (51075245364377098, (-17)); (76101552573192732, (-17)); ((-39496170315105267), (-17)); (84533082396547443, (-17)); ((-35975137400414714), (-17)); ((-82705377839182481), (-17)); ((-1566771494210934), (-16)); (53984656940383213, (-17))];
  [(64502901826862724, (-17)); (67139081835308689, (-17)); (43523591960596275, (-17)); (72458435401496346, (-17)); (33691255459193048, (-17)); (60122162675261237, (-17)); (90231569090614694, (-19)); (86765231864329639, (-17)); ((-49708956596604004), (-17)); ((-68912705400101126), (-17)); (36560823911839169, (-17)); (62564727996902247, (-17))];
  [(5047587650964952, (-16)); (54788390405110865, (-17)); (89478166730215081, (-17)); (54766017908285647, (-17)); (68279055600766514, (-17)); (48359630361870731, (-17)); ((-50828325655399087), (-17)); (73060382303054994, (-17)); ((-45592344190665912), (-17)); ((-66461752862364631), (-17)); (38872097818842821, (-19)); (74717362791141662, (-17))];
  [(30614817835817265, (-17)); (38062330718380477, (-17)); (78333216679018502, (-17)); (67561891202522839, (-17)); (67283301096354864, (-17)); (30138816345631753, (-17)); ((-57580877768073357), (-17)); (7368641890286548, (-16)); ((-35422509576957206), (-17)); ((-46041648239356758), (-17)); (65779223808647314, (-18)); (88526253532806054, (-17))];
  [(28266750758488646, (-17)); (76466381689078067, (-17)); (54310935404050686, (-17)); (82213120630605552, (-17)); (49629111408801135, (-17)); (27891828497793142, (-17)); ((-20762245341056945), (-17)); (71756982332682151, (-17)); ((-66482062655312513), (-17)); ((-53008791389497445), (-17)); (48866008505708186, (-17)); (69297772317332074, (-17))];
  [(21965480177127639, (-17)); (59184712483398372, (-17)); (17760898674577352, (-17)); (96061964031174485, (-17)); (17243162117973426, (-17)); (21789273201431592, (-17)); ((-26977063459723297), (-18)); (83833324461532732, (-17)); ((-54449022858066787), (-17)); ((-27655405383834808), (-17)); (51716990147345832, (-17)); (80997107869078233, (-17))];
  [(82548068393994034, (-17)); (75153072524920128, (-17)); (18364420061057452, (-17)); (666799629839813, (-15)); (12384930596456636, (-17)); (73487386880850769, (-17)); (35987837454242577, (-17)); (8099834123758487, (-16)); ((-46304905486641196), (-17)); ((-65258394799611041), (-17)); (57322615178310821, (-17)); (49552595262986882, (-17))];
  [(48950070605121554, (-17)); (96437593367989727, (-17)); (48819843582939115, (-17)); (77946553966046772, (-17)); (41395563680781156, (-17)); (47018528607013538, (-17)); (73897357396302821, (-18)); (68456119083460731, (-17)); ((-72520008037295991), (-17)); ((-62207126042894711), (-17)); (60001392213693139, (-17)); (5030016304051087, (-16))];
  [(29134549012101196, (-17)); (71640077379115852, (-17)); (4323430502279062, (-16)); (86972237715386613, (-17)); (40134204545295438, (-17)); (28724127354798246, (-17)); ((-14473045254167211), (-17)); (76381328377422641, (-17)); ((-62900108397133614), (-17)); ((-47184328201735687), (-17)); (50548375847466331, (-17)); (72239192072822711, (-17))];
  [(66083431219851407, (-17)); (26127178829360864, (-17)); (47085858329953867, (-17)); (70356847029902114, (-17)); (3581490614650194, (-16)); (61377573866422985, (-17)); ((-29696455351697754), (-17)); (93285825583462723, (-17)); ((-20393020491246353), (-17)); ((-64560317653769139), (-17)); ((-38790775873948136), (-18)); (76268723219386569, (-17))];
  [(19738275505159553, (-17)); (84700742758197345, (-17)); (62789098845303215, (-17)); (79355481357139035, (-17)); (57603311030461091, (-17)); (19610357898435188, (-17)); ((-2701044996568801), (-16)); (62223924393536922, (-17)); ((-73475293981844447), (-17)); ((-54526536394931813), (-17)); (53009827309616486, (-17)); (6493700822625581, (-16))];
  [(54607340226416745, (-17)); (90901292449642168, (-17)); (27062719794857382, (-17)); (82346688418720504, (-17)); (22845729274052123, (-17)); (51933568723965817, (-17)); (23050636699327948, (-17)); (70168635609235019, (-17)); ((-67416843032687246), (-17)); ((-51842946041151627), (-17)); (67486555925422009, (-17)); (52515461676530373, (-17))];
  [(93009350616635511, (-17)); (32004422560791612, (-17)); (1411475235517059, (-16)); (59181443846190651, (-17)); (84092332137425091, (-18)); (80167583854305302, (-17)); (11617001653617698, (-17)); (97526300466861937, (-17)); ((-18806009407293384), (-17)); ((-79765919896030957), (-17)); (2044273743910667, (-16)); (56740571984566035, (-17))];
  [(63540502588988812, (-17)); (60449438582335713, (-17)); (38063677139672136, (-17)); (74722819264710072, (-17)); (29900430672595013, (-17)); (59350354057299548, (-17)); (74972040841733145, (-19)); (88921772992896375, (-17)); ((-45742280300713117), (-17)); ((-66452525914690974), (-17)); (34624883153494457, (-17)); (66220686089500613, (-17))];
  [(80585691450395169, (-17)); (85606243362080381, (-17)); (8048540802310975, (-16)); (4800477134619543, (-16)); (49910034064529873, (-17)); (72142431534270879, (-17)); ((-9466620998825731), (-17)); (84704822152785708, (-17)); ((-52301779997716469), (-17)); ((-87211954541015102), (-17)); (18277899325207203, (-17)); (45387149958920137, (-17))];
  [(12244844246649333, (-17)); (37851543869508919, (-17)); (74780520109682003, (-17)); (72769349439202713, (-17)); (67493951116589701, (-17)); (12214268085587791, (-17)); ((-59880117604531291), (-17)); (71197867436749984, (-17)); ((-3667744795002072), (-16)); ((-3345135719014567), (-16)); (19376022169949564, (-17)); (9222568225286768, (-16))];
  [(28358877121328907, (-17)); (17567203879581095, (-17)); (92224486192938104, (-18)); (95597755216588043, (-17)); (88415348811937008, (-18)); (27980286962323114, (-17)); ((-41983122194754072), (-18)); (98492853944041336, (-17)); ((-16778912255135725), (-17)); ((-29042096550647256), (-17)); (1486556365908725, (-16)); (94528152658562548, (-17))];
  [(95635254916907353, (-17)); (20342840301820808, (-17)); (25847573793470024, (-18)); (57631155575517701, (-17)); (14899573733732891, (-18)); (81709423777530132, (-17)); (13970918353648695, (-17)); (98331890011898315, (-17)); ((-11647010219091149), (-17)); ((-80519956205813714), (-17)); (18127863462456412, (-17)); (5646164378496592, (-16))];
  [(36200642710468278, (-17)); (90301228880726558, (-18)); (83208040384672233, (-17)); (6296987373671229, (-16)); (69141618033100993, (-17)); (3541513316856616, (-16)); ((-71481712237041106), (-17)); (69420765808091067, (-17)); ((-8433391386567024), (-17)); ((-30416439917310506), (-17)); ((-20004847672075332), (-17)); (93137781014869048, (-17))];
  [(89349984583176523, (-17)); (75366448844586187, (-17)); (38220399213392009, (-17)); (58146975557495095, (-17)); (2337337310795147, (-16)); (77926982894710861, (-17)); (22282660588725817, (-17)); (87546199714627615, (-17)); ((-42885264982441024), (-17)); ((-78245845069266873), (-17)); (42300689652569834, (-17)); (45697257951799014, (-17))];
  [(45606952018365388, (-17)); (85505855034725353, (-17)); (29026737913390677, (-17)); (86023357508353215, (-17)); (25695520904522501, (-17)); (44042277057791845, (-17)); (13064156073106495, (-17)); (72384539068247911, (-17)); ((-67748109419929992), (-17)); ((-49288028861860211), (-17)); (64032950184436599, (-17)); (58910707868687984, (-17))];
  [(59913928777482395, (-17)); (305696795947627, (-15)); (28873406675465463, (-17)); (79163651683671155, (-17)); (23514346906643346, (-17)); (56393188787835202, (-17)); ((-10884357092187893), (-17)); (9624875487136435, (-16)); ((-24853731237014606), (-17)); ((-60121934622865625), (-17)); (13537085183526365, (-17)); (78753414541452238, (-17))];
  [(93802429397992693, (-17)); (11559490483149915, (-17)); (37392583588482509, (-17)); (55051815710831609, (-17)); (21601589431411516, (-17)); (80639127729517035, (-17)); ((-27625457969383754), (-17)); (95866103884912512, (-17)); ((-68208648944965436), (-18)); ((-78779005191246509), (-17)); ((-18521918366192364), (-17)); (5874356884896984, (-16))];
  [(62454386195163392, (-17)); (85086318005494821, (-18)); (49245179972899156, (-17)); (71483660176934705, (-17)); (38353958895278983, (-17)); (58472730095043191, (-17)); ((-4272897272900541), (-16)); (9014824371953043, (-16)); ((-68941311133495761), (-18)); ((-55356311448943485), (-17)); ((-20056619638996806), (-17)); (80829516832801707, (-17))];
  [(95450690524996673, (-17)); (60994817908159027, (-17)); (6083419977549005, (-16)); (4743140932278852, (-16)); (33033785300689056, (-17)); (81602882537089771, (-17)); ((-84870996136582944), (-18)); (93977135164430459, (-17)); ((-33109926101310017), (-17)); ((-87625513121475829), (-17)); (87787866470457665, (-18)); (47378289914302724, (-17))];
  [(11148640869872006, (-17)); (49216942766925198, (-17)); (12401746056162866, (-17)); (98615919142934594, (-17)); (12293184996431962, (-17)); (11125560401062327, (-17)); ((-56849014617399767), (-18)); (88104427913576555, (-17)); ((-46960533188963044), (-17)); ((-15575056563765433), (-17)); (45678084292852, (-14)); (87583846846154312, (-17))];
  [(41996562229051604, (-17)); (9284086715283757, (-17)); (84790093504100039, (-17)); (604071184744705, (-15)); (6847298847120552, (-16)); (40772906291230215, (-17)); ((-72165726956653953), (-17)); (68705523944740865, (-17)); ((-84651540031064287), (-18)); ((-33809582819504785), (-17)); ((-2431050861871869), (-16)); (90917057146996627, (-17))];
  [(68094302083297698, (-18)); (17096597494060228, (-17)); (67833986732807838, (-17)); (77681106854908111, (-17)); (62604703666513639, (-17)); (68041690620062406, (-18)); ((-60933943856679873), (-17)); (77452809550898871, (-17)); ((-16974003026486537), (-17)); ((-15896544400193829), (-17)); (90395448724038791, (-18)); (98313714733156454, (-17))];
  [(89772741661548627, (-17)); (75772435876037536, (-17)); (34425145930471857, (-17)); (58681329877212451, (-17)); (21038873728522978, (-17)); (78191222755991219, (-17)); (26070077464750085, (-17)); (86514587766764828, (-17)); ((-42843636219731335), (-17)); ((-76660632562115638), (-17)); (45525727844615627, (-17)); (45283059960588867, (-17))];
  [(76488732462369824, (-17)); (65719260589346407, (-19)); (88247072309125696, (-17)); (45830404369599004, (-17)); (55719161000339268, (-17)); (6924557121388567, (-16)); ((-76940323951863976), (-17)); (63874578246495095, (-17)); ((-4741350172698831), (-18)); ((-44494500620877475), (-17)); ((-53060468818609652), (-17)); (72144480476666306, (-17))];
  [(28100919858550855, (-17)); (50591942297464287, (-17)); (57516576903195771, (-17)); (80618924056629304, (-17)); (52263709109921586, (-17)); (27732540345683021, (-17)); ((-36305860420919661), (-17)); (80709468552741115, (-17)); ((-46560349923843913), (-17)); ((-46716951773934662), (-17)); (27467915756525674, (-17)); (84041894439287068, (-17))];
  [(80062359090418778, (-17)); (33737309088121048, (-17)); (85683176316087695, (-17)); (45593506684444696, (-17)); (5262130178741915, (-16)); (71779041136064603, (-17)); ((-55758108712703902), (-17)); (79748834819473302, (-17)); ((-23046836175897462), (-17)); ((-69370494167173047), (-17)); ((-29514774997172533), (-17)); (65700932990852501, (-17))];
  [(33596327704555795, (-17)); (30802308344675877, (-17)); (38062616956846917, (-17)); (87652649887882172, (-17)); (35073240685283347, (-17)); (32967874597318764, (-17)); ((-26121984534814391), (-17)); (92186712261457304, (-17)); ((-28622578611756744), (-17)); ((-40430865580584197), (-17)); (16476585515678371, (-17)); (89965922649352459, (-17))];
  [(54569045791304438, (-17)); (47746490215147752, (-17)); (13053412886043947, (-17)); (8474972019843835, (-16)); (1112599533087098, (-16)); (5190083962889086, (-16)); (12086382940440016, (-17)); (91165067360315388, (-17)); ((-39279127289263921), (-17)); ((-51685629276457978), (-17)); (39561884700891015, (-17)); (75917409104960598, (-17))];
  [(97695930650653295, (-17)); (63314434577666023, (-17)); (57531591701832085, (-18)); (55861949619512696, (-17)); (32173773760480869, (-18)); (8287997989579341, (-16)); (44322032702455555, (-17)); (83303439216117992, (-17)); ((-33107316893535715), (-17)); ((-70107060998372228), (-17)); (55228484476641482, (-17)); (45108918193455771, (-17))];
  [(60766766546040873, (-17)); (27799456094413366, (-18)); (83010092525653967, (-17)); (55399964151303516, (-17)); (60588421907801715, (-17)); (57095421031432092, (-17)); ((-72700511859058881), (-17)); (68625272983632812, (-17)); ((-22819910939163704), (-18)); ((-40564510935855286), (-17)); ((-40244441089970279), (-17)); (82066469485964788, (-17))];
  [(27064290244681277, (-17)); (39285063906759154, (-17)); (85004194297411695, (-17)); (63592887675726373, (-17)); (72395988195552319, (-17)); (26735099219039737, (-17)); ((-62652969977761486), (-17)); (68657257617443845, (-17)); ((-36888837463623958), (-17)); ((-45061624360737007), (-17)); (6708343285893939, (-17)); (89019369467158305, (-17))];
  [(45506908351595288, (-17)); (9925161654974276, (-16)); (93458925943156146, (-17)); (53368272446329079, (-17)); (72249642195010311, (-17)); (43952436778719989, (-17)); ((-22096597960328701), (-17)); (62080306585247313, (-17)); ((-75218188577373335), (-17)); ((-81630679616636714), (-17)); (3043065456040478, (-16)); (49095900117538599, (-17))];
  [(62575211020491173, (-17)); (99005265995669878, (-17)); (12975665263912506, (-17)); (80370909979988392, (-17)); (10487585508992316, (-17)); (58570704103503635, (-17)); (41457581366928098, (-17)); (60739509993111107, (-17)); ((-67764156255363295), (-17)); ((-42682382503711513), (-17)); (78744666333589419, (-17)); (44468997603032728, (-17))];
  [(14171311485206473, (-17)); (23619960746209234, (-17)); (81057360895852981, (-17)); (68217514383780053, (-17)); (71741797006962649, (-17)); (14123926278146831, (-17)); ((-68178615473413873), (-17)); (69390172573292896, (-17)); ((-23166362303499499), (-17)); ((-26420581436204882), (-17)); (61740191496621882, (-18)); (96248814871210076, (-17))];
  [(34818312224421355, (-17)); (77017284815595521, (-17)); (15763952244248947, (-17)); (92833880154462733, (-17)); (147567274906695, (-15)); (34119051704772929, (-17)); (12192744657691988, (-17)); (74618364016830907, (-17)); ((-65447969633626057), (-17)); ((-35117056727168539), (-17)); (6491793854719845, (-16)); (67471872521836773, (-17))];
  [(13107104909327161, (-17)); (64663031717122421, (-17)); (12056869407417403, (-17)); (98422514556601992, (-17)); (11924511575426243, (-17)); (13069607952918635, (-17)); ((-17822350448619059), (-18)); (80179566538683711, (-17)); ((-59733246587755962), (-17)); ((-17602052908690358), (-17)); (585580321848021, (-15)); (79127268372182213, (-17))];
  [(24300974527152386, (-17)); (40803636903321649, (-17)); (30690942735015925, (-17)); (92526293830582051, (-17)); (29323726265978506, (-17)); (24062502526851939, (-17)); ((-18629074739359031), (-17)); (90385630073146117, (-17)); ((-3851487310943344), (-16)); ((-33043040482561054), (-17)); (31153763081822816, (-17)); (89093212544556299, (-17))];
  [(97185969486125467, (-17)); (17380744064546982, (-17)); (65841660123260493, (-17)); (44591633907212325, (-17)); (34494789634546447, (-17)); (82593557094688319, (-17)); ((-48967178154703594), (-17)); (86643897205236409, (-17)); ((-97493866809121241), (-18)); ((-74925307133509123), (-17)); ((-36096323429912003), (-17)); (55527054539138976, (-17))];
  [(83504301194918296, (-17)); (43604189593517007, (-17)); (49265225865669604, (-17)); (59133416948641859, (-17)); (31742807280902252, (-17)); (74132537970216383, (-17)); ((-15284051645514529), (-17)); (94672550403905986, (-17)); ((-28346180788902137), (-17)); ((-79181037914865193), (-17)); (54316098854187866, (-18)); (60834701024804094, (-17))];
  [(20321966656831592, (-17)); (26050758103058314, (-17)); (47917859097614479, (-18)); (97829762962923705, (-17)); (46913840090959218, (-18)); (20182378321133471, (-17)); (56409291176493445, (-19)); (96764025937446552, (-17)); ((-25227070451482581), (-17)); ((-20712780542579398), (-17)); (24793430590710278, (-17)); (94637553443327005, (-17))];
  [(71128257767129588, (-17)); (62357522505179952, (-17)); (59480692634367938, (-17)); (6274253452260411, (-16)); (42447838898714413, (-17)); (65280589262878275, (-17)); ((-13915722623339194), (-17)); (88598055861842184, (-17)); ((-44235021887325626), (-17)); ((-7661414376960769), (-16)); (18669908150033282, (-17)); (61495589306219389, (-17))];
  [(80913820836330141, (-18)); (65670174132704073, (-17)); (11768196572377432, (-17)); (9898343567736394, (-16)); (11702638685514892, (-17)); (80825558644184073, (-18)); ((-43986976021033124), (-18)); (79232576361724938, (-17)); ((-60851050134641704), (-17)); ((-13525195780853033), (-17)); (59876932878026734, (-17)); (78941889945768828, (-17))];
  [(98257128687829676, (-17)); (93131137705355538, (-17)); (68482203376614803, (-17)); (42977618505940712, (-17)); (35098444887259589, (-17)); (83192688825724481, (-17)); (13954572143257632, (-17)); (88446978126373677, (-17)); ((-44524172946966628), (-17)); ((-89208711591729872), (-17)); (30744612972174135, (-17)); (33114567026231551, (-17))];
  [(45431772368508294, (-17)); (20656945547478989, (-18)); (34143502102878975, (-17)); (84669136048046134, (-17)); (30087370883465114, (-17)); (43884934934419928, (-17)); ((-32622679685700978), (-17)); (94510930375562452, (-17)); ((-18560198462676911), (-18)); ((-42034487876047788), (-17)); ((-12744965785218973), (-17)); (89836894849120819, (-17))];
  [(69751477672879836, (-17)); (13883979239887989, (-17)); (81808311985360926, (-17)); (5239554210040106, (-16)); (55937669865328976, (-17)); (64231489614071424, (-17)); ((-6620447857823073), (-16)); (74192024980106064, (-17)); ((-10607094113653703), (-17)); ((-53588004107166465), (-17)); ((-36966478320077822), (-17)); (75906556346744691, (-17))];
  [(35978440467420769, (-17)); (3565323391554488, (-16)); (73598994490957159, (-17)); (69371169041238911, (-17)); (6283383487098837, (-16)); (35207245010895433, (-17)); ((-53802711417253268), (-17)); (77705039186768865, (-17)); ((-32667952631508435), (-17)); ((-47884330944512732), (-17)); (37196882111381974, (-18)); (87711200935845701, (-17))];
  [(29296435494610629, (-17)); (71652982950655297, (-17)); (28470852782243106, (-17)); (91885081032169791, (-17)); (2689100873294461, (-16)); (2887915395291713, (-16)); ((-29772209361516921), (-18)); (77700654075588804, (-17)); ((-62878808128995445), (-17)); ((-39348037298052518), (-17)); (56916447583720298, (-17)); (72195913701820325, (-17))];
  [(45556935925090225, (-17)); (60464250720817347, (-17)); (40482472547609571, (-17)); (82542576532864687, (-17)); (35368838058019764, (-17)); (43997367577410212, (-17)); ((-94133963672163506), (-18)); (85471540216197972, (-17)); ((-51049033114296383), (-17)); ((-55660677575374995), (-17)); (37995540626452773, (-17)); (73879820413653707, (-17))];
  [(69242866125939373, (-17)); (17765349657402674, (-17)); (54147565220937666, (-18)); (76856972329243323, (-17)); (41656899283198802, (-18)); (63840839842557062, (-17)); (59385192465950865, (-18)); (98892445855995958, (-17)); ((-13602137397362554), (-17)); ((-63700390842912002), (-17)); (14245391536914792, (-17)); (75758359449107993, (-17))];
  [(47355735189210157, (-17)); (34150820787330005, (-18)); (48885720716483649, (-17)); (78571164461698739, (-17)); (41793661760896428, (-17)); (45605503524777252, (-17)); ((-45559570809897937), (-17)); (88966802858502492, (-17)); ((-30386669370379104), (-18)); ((-41843728595221796), (-17)); ((-18390155675038072), (-17)); (8894326591427415, (-16))];
  [(94587242789841608, (-17)); (90627974410044432, (-17)); (21429266965731431, (-17)); (5716540710758613, (-16)); (12441151423575547, (-17)); (81100764370501499, (-17)); (49269381381520344, (-17)); (73834114466653988, (-17)); ((-46054875954749164), (-17)); ((-65609788054117635), (-17)); (662853022334567, (-15)); (36077893776010023, (-17))];
  [(26850963258669314, (-17)); (53585886805028071, (-18)); (84946493496163866, (-17)); (63672169187830785, (-17)); (72401945625100173, (-17)); (26529476825152232, (-17)); ((-74046571977315978), (-17)); (67010724574264713, (-17)); ((-51641040307299241), (-18)); ((-21516506438648833), (-17)); ((-1635607109705976), (-16)); (96278340705184096, (-17))];
  [(68586630936929316, (-17)); (95406545048825653, (-17)); (6754233140917334, (-16)); (60396144376647265, (-17)); (48384541141467047, (-17)); (63334366050074753, (-17)); (41613427634920708, (-18)); (77441883830174385, (-17)); ((-63130324371402591), (-17)); ((-7959264394929918), (-16)); (40763841911226406, (-17)); (44758465364628286, (-17))];
  [(93289194066113224, (-17)); (56119671708030494, (-17)); (95333795290929702, (-17)); (34478115587890173, (-17)); (48555327558125216, (-17)); (80334548677584849, (-17)); ((-44276213678456727), (-17)); (83875848696612798, (-17)); ((-31693199707864139), (-17)); ((-82770021431722052), (-17)); ((-24641878401333034), (-17)); (5041727264585214, (-16))];
  [(81269411563705085, (-17)); (76841780621258315, (-17)); (30830423743177693, (-17)); (65512655212173931, (-17)); (20863078557739498, (-17)); (72614213210255263, (-17)); (26269325319259412, (-17)); (83824747159751778, (-17)); ((-47784247518137196), (-17)); ((-70837945723473195), (-17)); (50379993218511598, (-17)); (49435227611299504, (-17))];
  [(22890862395728573, (-18)); (78575554582585239, (-17)); (88600384040668068, (-17)); (63234658707909164, (-17)); (77434739861654023, (-17)); (22888863344906543, (-18)); ((-53725322553391641), (-17)); (4596343400146487, (-16)); ((-70717412645875355), (-17)); ((-55811895278948176), (-17)); (43488202967597467, (-17)); (70666884380314743, (-17))];
  [(53546690753321535, (-17)); (19071382435215312, (-17)); (58422257491963692, (-17)); (7173868000621253, (-16)); (47435073255818444, (-17)); (51024264974435252, (-17)); ((-46087160240909936), (-17)); (87236430964161404, (-17)); ((-16302722888026738), (-17)); ((-52244956234022566), (-17)); ((-11820276555573381), (-17)); (84443742280022316, (-17))];
  [(57539877677301121, (-17)); (82095048327389841, (-17)); (30544322789544132, (-17)); (8001423523027229, (-16)); (25229324706510542, (-17)); (54416939783197205, (-17)); (17484206370521549, (-17)); (76973173635783576, (-17)); ((-61395708873084331), (-17)); ((-57376168294054519), (-17)); (5863967697121949, (-16)); (57178349019566521, (-17))];
  [(79673705094752945, (-17)); (27630103750810486, (-17)); (79197110242033764, (-17)); (4910388870431211, (-16)); (4975368285192891, (-16)); (71507895765322349, (-17)); ((-54771613034323519), (-17)); (81464175616592005, (-17)); ((-19069832110623838), (-17)); ((-67741261574706835), (-17)); ((-29801998821869868), (-17)); (67252972770639774, (-17))];
  [(63518185802820193, (-17)); (5151067637661596, (-16)); (5364297455353032, (-16)); (69189763236991286, (-17)); (41139324281077455, (-17)); (59332391329740286, (-17)); ((-1935213108481702), (-16)); (89738484879847913, (-17)); ((-3965475197180493), (-16)); ((-69557686028828969), (-17)); (15954946855620017, (-17)); (70051181183112055, (-17))];
  [(80502395010595651, (-17)); (2320679552867666, (-16)); (42401444330736704, (-17)); (63171679579679918, (-17)); (28515459375697033, (-17)); (72084724287987834, (-17)); ((-24928701320846189), (-17)); (95522040099084549, (-17)); ((-15940505191646961), (-17)); ((-73402307521891252), (-17)); ((-7899900752658498), (-17)); (67451410797401801, (-17))];
  [(26274720140465757, (-17)); (43767531495287249, (-17)); (52649204957353579, (-17)); (83490299448608052, (-17)); (48525767091023836, (-17)); (25973444635039578, (-17)); ((-35996088563601858), (-17)); (83839764988839727, (-17)); ((-40928906835358503), (-17)); ((-4163714094535178), (-16)); (24822242744035675, (-17)); (87465448944443658, (-17))];
  [(91181668547198869, (-17)); (77032223072901318, (-17)); (91847625878322869, (-17)); (37169188481187831, (-17)); (48658939481877889, (-17)); (7906174192457992, (-16)); ((-23612212625516127), (-17)); (87317567952661734, (-17)); ((-42639251186667387), (-17)); ((-89782597659999508), (-17)); ((-28195629681291134), (-18)); (43944683661296324, (-17))];
  [(27595705129206916, (-17)); (62083864729814575, (-17)); (30103537392252722, (-17)); (91889632132047183, (-17)); (28529071601426559, (-17)); (27246790273309573, (-17)); ((-89806228266072124), (-18)); (82380921366420856, (-17)); ((-55970815685192621), (-17)); ((-38414110952659863), (-17)); (48984445167627033, (-17)); (78261613907052019, (-17))];
  [(53683343300493358, (-17)); (4749518198660132, (-16)); (64666406997085468, (-17)); (68583168246661874, (-17)); (51777130005668948, (-17)); (51141742653395428, (-17)); ((-34918608958451869), (-17)); (85067296264641612, (-17)); ((-39296893702052527), (-17)); ((-63851701478165745), (-17)); (90930695917136206, (-18)); (76421700476654264, (-17))];
  [(84155390745167502, (-17)); (45495601486419834, (-17)); (17428006357984238, (-17)); (65621148093183557, (-17)); (11553670708015484, (-17)); (74567939599423139, (-17)); (16694383431987925, (-17)); (94149031968278696, (-17)); ((-29278957311724813), (-17)); ((-73587787606084742), (-17)); (31661845691727791, (-17)); (59852861607737506, (-17))];
  [(7971927719251316, (-16)); (82652284143113131, (-17)); (2211234213997807, (-16)); (68170513326201165, (-17)); (15324684851585554, (-17)); (71539745226285323, (-17)); (36483981194281689, (-17)); (77635942954634929, (-17)); ((-51396298288495146), (-17)); ((-63416876531862787), (-17)); (61137667568727649, (-17)); (47333765698475938, (-17))];
  [(79902231568673721, (-17)); (86338204832759891, (-17)); (91653914556637184, (-18)); (69448050818324725, (-17)); (63830692637799558, (-18)); (71667458893902292, (-17)); (48293868135585177, (-17)); (69699745025145499, (-17)); ((-5300611138286242), (-16)); ((-53335452918655313), (-17)); (71422699264333966, (-17)); (45322483292052845, (-17))];
  [(19590181115011018, (-17)); (23223042780994219, (-17)); (39265284211821583, (-17)); (90622540999894208, (-17)); (37532176334507611, (-17)); (19465117577808763, (-17)); ((-33097950912779789), (-17)); (91623746302455411, (-17)); ((-22574648588151003), (-17)); ((-26307426861966421), (-17)); (14015165111361166, (-17)); (95454148358274993, (-17))];
  [(7722990129438253, (-16)); (19469378713543262, (-17)); (59786051659552475, (-17)); (59205877009903085, (-17)); (40319234221162575, (-17)); (69778388339852482, (-17)); ((-44065985802966295), (-17)); (88691267133888818, (-17)); ((-13858139463793293), (-17)); ((-6747483251332308), (-16)); ((-22543701692583784), (-17)); (70277510565577039, (-17))];
  [(37605491724809281, (-17)); (55930120864915489, (-17)); (20440292309286601, (-17)); (91075779435108761, (-17)); (18879827397057039, (-17)); (3672539336405744, (-16)); (18752850639638247, (-18)); (8695342489632748, (-16)); ((-49351648449951602), (-17)); ((-41251493381649762), (-17)); (45636104306306324, (-17)); (78839458886573011, (-17))];
  [(56557411730474882, (-17)); (70229882241758457, (-17)); (48128489135785568, (-17)); (74837146182787662, (-17)); (39083331470157634, (-17)); (53590062067605926, (-17)); ((-46520635010958378), (-18)); (836894458912951, (-15)); ((-54538380536918785), (-17)); ((-66164642040880428), (-17)); (38321923850477224, (-17)); (64448974359569, (-14))];
  [(44907076701350201, (-17)); (79351322437829164, (-17)); (88618677707173543, (-17)); (56967161483319373, (-17)); (6978585755218919, (-16)); (43412862129085372, (-17)); ((-34761735431202279), (-17)); (68323543496268591, (-17)); ((-64214602341870741), (-17)); ((-74473916657743411), (-17)); (21490171935539615, (-17)); (63180758525332981, (-17))];
  [(10824511887712884, (-17)); (68747426043929127, (-17)); (85755544214699575, (-17)); (65045869940185919, (-17)); (75181923752935043, (-17)); (10803385790217822, (-17)); ((-53960924379380903), (-17)); (55751324150177861, (-17)); ((-63087308514665053), (-17)); ((-53453282816372971), (-17)); (35206081808540646, (-17)); (76832794819941241, (-17))];
  [(11751322887450988, (-17)); (61351331228905204, (-17)); (70581722437008443, (-17)); (75583272779890609, (-17)); (64418241037268154, (-17)); (11724295183296535, (-17)); ((-47898637207767564), (-17)); (66606896662129489, (-17)); ((-57177284568953335), (-17)); ((-44641790169294437), (-17)); (37600685348871321, (-17)); (81199131964423488, (-17))];
  [(45265206896338395, (-17)); (91708579167715853, (-17)); (57094539432480218, (-18)); (89782502931766317, (-17)); (51316679132898328, (-18)); (43735204946759809, (-17)); (31191627255269355, (-17)); (62695676681467205, (-17)); ((-71388616141659922), (-17)); ((-31083509397680792), (-17)); (77736208486654668, (-17)); (54689097027137401, (-17))];
  [(58556402712343469, (-17)); (38382251518206301, (-17)); (41979113548473701, (-17)); (76103973881040998, (-17)); (33966881780196367, (-17)); (55266953070021818, (-17)); ((-1889273511804663), (-16)); (93108088298419456, (-17)); ((-31208147224291527), (-17)); ((-62058437937746691), (-17)); (1330920116099728, (-16)); (77276228202358266, (-17))];
  [(95721992076394025, (-17)); (37904017241476629, (-18)); (91906046057954027, (-17)); (34925858108825525, (-17)); (45777564131870596, (-17)); (81759397365163233, (-17)); ((-77566794752416324), (-17)); (63076392952323279, (-17)); ((-21819724930944383), (-18)); ((-52569732614867892), (-17)); ((-62656071328136886), (-17)); (57538160715517472, (-17))];
  [(10645375538627067, (-17)); (19015848285345993, (-17)); (60252300496512201, (-17)); (81924437026569163, (-17)); (56351486484484248, (-17)); (10625280648937889, (-17)); ((-53996059765852189), (-17)); (82043854297083874, (-17)); ((-18794454018177542), (-17)); ((-19308343990156773), (-17)); (96600177571193296, (-18)); (97641548068892869, (-17))];
  [(12170834441393108, (-18)); (50968983289515402, (-17)); (11739010578701992, (-17)); (99304413645438394, (-17)); (11711200261506284, (-17)); (12170533967601396, (-18)); ((-96336941444465612), (-18)); (8675838147866084, (-16)); ((-48787039060947479), (-17)); ((-67694436748470158), (-18)); (48330435872626415, (-17)); (87283123229493909, (-17))];
  [(14618746556086415, (-18)); (70086769295446028, (-17)); (10285288639370604, (-17)); (9946090158289892, (-16)); (10266066970389594, (-17)); (14618225871742318, (-18)); ((-69092982177230769), (-18)); (76121180009064571, (-17)); ((-64481218600195189), (-17)); ((-77324416878154112), (-18)); (64032599689432146, (-17)); (76420125114772419, (-17))];
  [(19514286624511612, (-17)); (8660804095895196, (-16)); (7508350326188552, (-16)); (717242759659663, (-15)); (66930039494667926, (-17)); (1939066915813121, (-16)); ((-33397416696960119), (-17)); (57441194795382922, (-17)); ((-74733671784868716), (-17)); ((-61157508084678514), (-17)); (47126202411408724, (-17)); (63552185258662941, (-17))];
  [(39074085401933056, (-17)); (93367572818014688, (-17)); (10509718472895579, (-17)); (91952539370070319, (-17)); (96996917253430112, (-18)); (38087353331899831, (-17)); (24205594812613379, (-17)); (62371744694760922, (-17)); ((-74322638835681476), (-17)); ((-30964813630365251), (-17)); (77560824158623243, (-17)); (55004535019140666, (-17))];
  [(41366226645865833, (-17)); (16245060815961732, (-17)); (68495595194404002, (-17)); (70912608265654431, (-17)); (57927888412238115, (-17)); (40196538819419886, (-17)); ((-57396063113617146), (-17)); (80538001950387506, (-17)); ((-14809530070095325), (-17)); ((-40952337271754324), (-17)); ((-1256940674569286), (-16)); (90359925221537307, (-17))];
  [(58249621751264402, (-17)); (72991737201519191, (-17)); (26393630604650098, (-17)); (80617327645958714, (-17)); (21786095160998112, (-17)); (55011021994324705, (-17)); (15969784617682872, (-17)); (81511901052137814, (-17)); ((-55684611573856868), (-17)); ((-56972032283296348), (-17)); (53676587489355454, (-17)); (62233523867836771, (-17))];
  [(39248070474362706, (-17)); (65260090041532015, (-17)); (66357085954433337, (-17)); (72789612341953636, (-17)); (56910017238103372, (-17)); (38248166924270866, (-17)); ((-30638686199703435), (-17)); (76897014942007125, (-17)); ((-56108109939337969), (-17)); ((-61342833673251618), (-17)); (29122139876175157, (-17)); (7340952067660077, (-16))];
  [(87687817558401659, (-17)); (97707999065407747, (-17)); (42077353679313312, (-17)); (58376791693410268, (-17)); (2612365328000284, (-16)); (76874605240549898, (-17)); (35309388821494214, (-17)); (77091687650107854, (-17)); ((-53010553254146919), (-17)); ((-73112223688222788), (-17)); (58089813518072198, (-17)); (35779551601422727, (-17))];
  [(79375098438708047, (-18)); (11731620910964591, (-17)); (45727321990501901, (-17)); (89443464703396347, (-17)); (44011302699311156, (-17)); (79291775463724637, (-18)); ((-43014101389870391), (-17)); (89518979845955993, (-17)); ((-1166787594043039), (-16)); ((-12233303048410152), (-17)); (70254880292354438, (-18)); (98999943507442612, (-17))];
  [(74441367712398843, (-18)); (60799924772104796, (-17)); (75626057447046424, (-18)); (99438014902689353, (-17)); (75344744819490064, (-18)); (74372633739425945, (-18)); ((-19651969976650537), (-18)); (82165628767036059, (-17)); ((-56964440224388979), (-17)); ((-10402845426752094), (-17)); (56498151683028319, (-17)); (81851937444562839, (-17))];
  [(70608472619672302, (-17)); (25602598506372698, (-17)); (7880116477919018, (-16)); (53663531929589281, (-17)); (53944765175088905, (-17)); (64885958812723632, (-17)); ((-56995848116248871), (-17)); (79875999960513511, (-17)); ((-19269092553037787), (-17)); ((-62222975164736716), (-17)); ((-26641826898930215), (-17)); (73610559168749667, (-17))];
  [(35305893146130174, (-17)); (9325462671180047, (-16)); (99346454780655935, (-17)); (51212546947057913, (-17)); (78623840853136429, (-17)); (34576967546273707, (-17)); ((-34765962748136514), (-17)); (55786880999950861, (-17)); ((-75360146911298587), (-17)); ((-78540453712660552), (-17)); (26572834959747826, (-17)); (55904217844554716, (-17))];
  [(83488138651833488, (-17)); (33438433002453938, (-17)); (98082836317753397, (-17)); (37344814952655603, (-17)); (55779386246965101, (-17)); (74121689579122463, (-17)); ((-64960089711576963), (-17)); (7276579582333742, (-16)); ((-22030109006998722), (-17)); ((-66223496893593481), (-17)); ((-39922412603802554), (-17)); (63408591145648097, (-17))];
  [(89352619948121992, (-17)); (47898753003852035, (-17)); (71621740859904481, (-17)); (47269224993106235, (-17)); (41143022566162568, (-17)); (77928634420675813, (-17)); ((-31173987314351154), (-17)); (90520807563905081, (-17)); ((-28881930560527624), (-17)); ((-82424528409180331), (-17)); ((-10641197869540048), (-17)); (55614404828475172, (-17))];
  [(77295005080904589, (-17)); (11242556504610035, (-18)); (97380344551272868, (-18)); (71246239892990038, (-17)); (69599977037166971, (-18)); (69825007934655992, (-17)); ((-89407604840818389), (-18)); (99596260580881679, (-17)); ((-8047858543694511), (-18)); ((-69599109930205239), (-17)); ((-56695070569998222), (-18)); (71580867462289344, (-17))];
  [(76384786440681873, (-17)); (8098140554535701, (-16)); (88546182350441716, (-17)); (45709070511832378, (-17)); (55911690612173859, (-17)); (6917054088145389, (-16)); ((-21688042675808117), (-17)); (8242949557316479, (-16)); ((-52297295001232436), (-17)); ((-86257229713437134), (-17)); (89028710224373142, (-18)); (49803907574819706, (-17))];
  [(27810012385774519, (-18)); (52394344766079615, (-17)); (97665122922219605, (-17)); (55958410356915145, (-17)); (82830696822139416, (-17)); (27806427828678516, (-18)); ((-70968184038926629), (-17)); (49623246717871417, (-17)); ((-5001050129117186), (-16)); ((-42803891932207883), (-17)); (26011709846453507, (-17)); (86551821392272166, (-17))];
  [(47863657687833494, (-17)); (55286281882102484, (-17)); (23690992266264521, (-17)); (86283046536292796, (-17)); (20832527040747872, (-17)); (46056939732383889, (-17)); (35365771197390233, (-18)); (88401752275032208, (-17)); ((-4661140222070107), (-16)); ((-50425474739382192), (-17)); (41846577061933593, (-17)); (75538966669577778, (-17))];
  [(802209205592046, (-16)); (19565988176838389, (-17)); (50825271654987658, (-17)); (87078669748815341, (-17)); (48508651219842058, (-17)); (80134906007599857, (-18)); ((-46375601136099476), (-17)); (86450929753323436, (-17)); ((-19378863848310215), (-17)); ((-16328162604597057), (-17)); (13158552413455346, (-17)); (97776498220892472, (-17))];
  [(53279403982505491, (-17)); (37888594206595028, (-17)); (31253533447911153, (-18)); (86097056218528656, (-17)); (26917136904096958, (-18)); (50794208212279257, (-17)); (15875651592441403, (-17)); (93449454266438958, (-17)); ((-3186162556776016), (-16)); ((-48324534110728162), (-17)); (35495833202132276, (-17)); (80029902088328675, (-17))];
  [(89374099556843456, (-17)); (22267827749452185, (-17)); (3038865890060537, (-16)); (597794794687739, (-15)); (18746838160931434, (-17)); (77942093206497121, (-17)); ((-12760032236161079), (-17)); (98212790506124892, (-17)); ((-13835799880460603), (-17)); ((-79142879728845916), (-17)); ((-16744670698071618), (-18)); (61103197528914655, (-17))];
  [(2330858267523509, (-16)); (82532368485388286, (-17)); (22681857252884519, (-17)); (94803764800769785, (-17)); (21879761423925756, (-17)); (23098099913898021, (-17)); (12830743770983616, (-18)); (6991110277547693, (-16)); ((-71489799474187465), (-17)); ((-31789933937382742), (-17)); (68071387151642437, (-17)); (65997623832286945, (-17))];
  [(8583349800340313, (-16)); (29686562978963538, (-17)); (52122096309363919, (-17)); (56689499381686703, (-17)); (3255021445610351, (-16)); (75675519150617077, (-17)); ((-28418439072897972), (-17)); (93950684130522721, (-17)); ((-19122271624122766), (-17)); ((-77322008383860075), (-17)); ((-10665481248795822), (-17)); (62510435362568517, (-17))];
  [(40805434162615173, (-17)); (58160582682762529, (-17)); (18246842841893463, (-17)); (90265646774236175, (-17)); (16655893461029467, (-17)); (39682417081670585, (-17)); (62760186476400637, (-18)); (86126795520037713, (-17)); ((-50426051633893432), (-17)); ((-42576103654083941), (-17)); (48007877545924149, (-17)); (76697582042540635, (-17))];
  [(34108858172979817, (-18)); (98868465106277648, (-17)); (93877357751096968, (-17)); (59043436220942691, (-17)); (80636486829724874, (-17)); (34102244769340546, (-18)); ((-42675984999525129), (-17)); (34778652667791243, (-17)); ((-83481768206797369), (-17)); ((-68502795151320495), (-17)); (47835157681069101, (-17)); (54946926630007953, (-17))];
  [(70905767479102821, (-18)); (25885691356894047, (-17)); (781096760458874, (-15)); (70835736503516611, (-17)); (70228956675515575, (-17)); (70846367777692154, (-18)); ((-66772333799350025), (-17)); (69925020747757416, (-17)); ((-25533251113281169), (-17)); ((-22885669598955205), (-17)); (13356089161661494, (-17)); (9642541682208694, (-16))];
  [(12768060606921128, (-17)); (68214335027498185, (-18)); (78491679450056251, (-17)); (70168838778465947, (-17)); (70101317083057602, (-17)); (12733397335443125, (-17)); ((-69898247414964498), (-17)); (71193598584963536, (-17)); ((-67606603848653926), (-18)); ((-13804675758526971), (-17)); ((-41565446880427195), (-18)); (98955313467535644, (-17))];
  [(32000807108217955, (-17)); (13448209586050186, (-17)); (60936379114632189, (-17)); (7783826509884697, (-16)); (54328952457835389, (-17)); (31457422196293894, (-17)); ((-53259228731701236), (-17)); (83674829108633575, (-17)); ((-12727039268631901), (-17)); ((-33236411378275343), (-17)); ((-68474738754690678), (-18)); (9406621635964113, (-16))];
  [(20253999984696935, (-17)); (43170042015597931, (-18)); (2633910645967259, (-16)); (94577640645386751, (-17)); (25503416519643507, (-17)); (20115805620895796, (-17)); ((-25173167985680489), (-17)); (96687332744544507, (-17)); ((-42274460742206414), (-18)); ((-20527579095373114), (-17)); ((-10655667840671491), (-18)); (97864615995322302, (-17))];
  [(87733477497115397, (-17)); (7024868852640046, (-16)); (55420198649912333, (-17)); (54352758866618522, (-17)); (33639014071570716, (-17)); (76903799229166103, (-17)); (2084985838538933, (-17)); (91049212079728092, (-17)); ((-41300046170843274), (-17)); ((-83913231600506921), (-17)); (24051147830267089, (-17)); (48786390012034353, (-17))];
  [(80808122092001466, (-17)); (30091676984419302, (-17)); (58328915708377993, (-17)); (57665262258662664, (-17)); (38052132022866297, (-17)); (72296284670472577, (-17)); ((-34717067027783033), (-17)); (91517172944610126, (-17)); ((-2047760516307367), (-16)); ((-73955681226178116), (-17)); ((-13290684886064916), (-17)); (65984201970102285, (-17))];
  [(34041686709727614, (-17)); (66604268948553647, (-18)); (35666591666127989, (-17)); (88329311977959202, (-17)); (3291160368441427, (-16)); (33388006655390517, (-17)); ((-32755484682689373), (-17)); (94274707114456591, (-17)); ((-6273581248818709), (-17)); ((-33541181683155619), (-17)); ((-53949922524019214), (-18)); (94052555467111421, (-17))];
  [(63458002296159499, (-17)); (56893185249771716, (-17)); (33006581723609485, (-18)); (80488211414922251, (-17)); (26576058937485783, (-18)); (5928393504264281, (-16)); (2914056146639411, (-16)); (8525578190746419, (-16)); ((-4338524321437196), (-16)); ((-51695991146800591), (-17)); (52195677812060404, (-17)); (67846412706122505, (-17))];
  [(11676426514660943, (-18)); (18934365759984961, (-17)); (44894350419227691, (-17)); (90084472540395555, (-17)); (43398438678333678, (-17)); (11676161191208134, (-18)); ((-42427741636069799), (-17)); (88575892431169567, (-17)); ((-18820149300278904), (-17)); ((-92018773509338334), (-18)); (16458639078149512, (-17)); (98206102931098838, (-17))];
  [(84760232209491915, (-17)); (38222520903635404, (-17)); (92481105864859992, (-17)); (39838349748775531, (-17)); (52843804384403803, (-17)); (74969582014821867, (-17)); ((-57255351596298576), (-17)); (78182775149428907, (-17)); ((-2468356504879452), (-16)); ((-71657034566596911), (-17)); ((-33090572798256412), (-17)); (61402633404478901, (-17))];
  [(37019541756098739, (-17)); (74392918995914403, (-17)); (75102096414650255, (-17)); (68147268277434414, (-17)); (63615836558261096, (-17)); (36179761819503337, (-17)); ((-32301253349769232), (-17)); (70506109274349438, (-17)); ((-63130955853903536), (-17)); ((-65670228097345618), (-17)); (3133550532520748, (-16)); (68596699976431008, (-17))];
  [(3222877673746648, (-16)); (7499668230405081, (-16)); (19490933271699229, (-17)); (93055340232211703, (-17)); (18370576154200827, (-17)); (31673736534075508, (-17)); (70088783588707126, (-18)); (7596702888368464, (-16)); ((-64652038999060035), (-17)); ((-35938548640949253), (-17)); (62382148523020053, (-17)); (69403805855543632, (-17))];
  [(75568649951324729, (-18)); (19014184324813643, (-17)); (25621257687192323, (-17)); (96459592788790693, (-17)); (25269534457511023, (-17)); (75496746500324452, (-18)); ((-23504836732330825), (-17)); (95353843589427834, (-17)); ((-18845879202345595), (-17)); ((-11961170896160245), (-17)); (1640411963573766, (-16)); (97917492052080535, (-17))];
  [(51622034801710237, (-17)); (15190080799493688, (-17)); (71250647846381021, (-18)); (86748438371060388, (-17)); (61913631190398555, (-18)); (49359654201691189, (-17)); (41295646776682293, (-19)); (99129438932490577, (-17)); ((-13159931758384985), (-17)); ((-49744727430533447), (-17)); (11619869175589426, (-17)); (85967672605486523, (-17))];
  [(25531270978982445, (-18)); (93084409512266753, (-17)); (80287934807370964, (-17)); (69441192001797991, (-17)); (7191247326863025, (-16)); (25528497327433612, (-18)); ((-41534632998702531), (-17)); (42953855222783938, (-17)); ((-80186286752556435), (-17)); ((-58760489404297156), (-17)); (54621996575451714, (-17)); (59696250929843364, (-17))];
  [(94534300024361095, (-17)); (78353713073984765, (-17)); (54118350991405662, (-17)); (50180168106192569, (-17)); (30160264646032808, (-17)); (81069779605692271, (-17)); (12547316861172875, (-17)); (90194780625586279, (-17)); ((-41321500305382114), (-17)); ((-85583383716814931), (-17)); (30907280443022328, (-17)); (41475588569624761, (-17))];
  [(85328094006657906, (-17)); (26473513481153854, (-17)); (83185925532045679, (-17)); (44283784913148388, (-17)); (48602490647998631, (-17)); (75344172280125399, (-17)); ((-58065820029571302), (-17)); (79576247091938179, (-17)); ((-17204111225408722), (-17)); ((-6831769125240873), (-16)); ((-36130579867668966), (-17)); (63460808853705519, (-17))];
  [(43863275242004973, (-17)); (42569566029647232, (-18)); (55131685225444593, (-17)); (77119492682752566, (-17)); (47422205286188146, (-17)); (42470204781110987, (-17)); ((-50793887264823778), (-17)); (86053105390772466, (-17)); ((-3852800167797521), (-17)); ((-38374012884805869), (-17)); ((-18601007994171626), (-17)); (90451299806677832, (-17))];
  [(71063928536713239, (-17)); (29004334953073307, (-18)); (22527430456554143, (-18)); (75775269848557147, (-17)); (17073109432463044, (-18)); (6523184474412338, (-16)); ((-36034408114061812), (-19)); (9997519032480493, (-16)); ((-21980608868313198), (-18)); ((-65253188669378703), (-17)); (14305274768777351, (-18)); (75762622444160188, (-17))];
  [(20527867439649761, (-17)); (53676445027273634, (-17)); (95104862695920467, (-17)); (56863482424784673, (-17)); (79693393366683229, (-17)); (20383999122578822, (-17)); ((-63900388187292734), (-17)); (58399646446961151, (-17)); ((-50062178182568484), (-17)); ((-51800432006301866), (-17)); (15441643324887006, (-17)); (84132460414440924, (-17))];
  [(37619506462440366, (-17)); (83384014631681924, (-17)); (31444858954714272, (-17)); (88446521872770723, (-17)); (28766310976942816, (-17)); (3673842840116201, (-16)); (50859105149748368, (-18)); (72322940471781005, (-17)); ((-68873258930799042), (-17)); ((-4638260754682898), (-16)); (62784485617810404, (-17)); (62504096528658049, (-17))];
  [(64264522262118617, (-17)); (93266403258726216, (-17)); (62850564259473418, (-17)); (64754076120437454, (-17)); (47065104673350355, (-17)); (59931507138358919, (-17)); (39156495442279726, (-18)); (7648813279236466, (-16)); ((-64298003317244423), (-17)); ((-76102413328588847), (-17)); (43982285798081966, (-17)); (47686279174836638, (-17))];
  [(32928360012827684, (-17)); (51025880372891264, (-17)); (37230393218293556, (-17)); (88144663787299771, (-17)); (344219074962753, (-15)); (32336520068519303, (-17)); ((-17031286520706473), (-17)); (87028652485456826, (-17)); ((-46216327482992337), (-17)); ((-44050579170692944), (-17)); (35229901091025745, (-17)); (82573606823506596, (-17))];
  [(86852455305113097, (-18)); (74427481447112542, (-17)); (18516060806781698, (-18)); (99605992459687664, (-17)); (184452141260017, (-16)); (86743303418248971, (-18)); (45133931271491366, (-18)); (73654127521726809, (-17)); ((-67488508514361234), (-17)); ((-76338423222154339), (-18)); (67614105331444463, (-17)); (7328067420287484, (-16))];
  [(34668404620970394, (-17)); (73965178236809581, (-17)); (46563414725521524, (-17)); (84037565917212487, (-17)); (42227670514323967, (-17)); (33978101148296402, (-17)); ((-12702966345464614), (-17)); (76288761341436584, (-17)); ((-63392898174916446), (-17)); ((-52690816664160367), (-17)); (48957621836880777, (-17)); (69475384873642942, (-17))];
  [(15928929375091827, (-17)); (14815483396606444, (-17)); (68949365409185914, (-17)); (76180037292051772, (-17)); (62809313460867433, (-17)); (15861653783767271, (-17)); ((-61111223639611689), (-17)); (77801048920978189, (-17)); ((-1457446850025497), (-16)); ((-21494656625565489), (-17)); (14095848218736273, (-18)); (97652408097184051, (-17))];
  [(55873931124338294, (-17)); (26598371122121933, (-17)); (12164642852353702, (-17)); (84165810235637439, (-17)); (10289273412482049, (-17)); (53011765109472231, (-17)); (2123679367574903, (-17)); (97461361103017041, (-17)); ((-22288406804683292), (-17)); ((-53959302935846054), (-17)); (19885018093793774, (-17)); (81810633062500437, (-17))];
  [(60952567356958032, (-17)); (86277505613219896, (-17)); (25825731586672485, (-17)); (79272826338229396, (-17)); (20940424030155322, (-17)); (57247861495310171, (-17)); (25436904160974139, (-17)); (73983216001309282, (-17)); ((-62285212184025118), (-17)); ((-55396596565622513), (-17)); (63937331751809201, (-17)); (53321990748702841, (-17))];
  [(52713312174637872, (-17)); (88582051535525264, (-17)); (48188539205027825, (-17)); (76583405747896716, (-17)); (40053856564593621, (-17)); (5030577042801333, (-16)); (5201620385392014, (-17)); (74116283869098787, (-17)); ((-6693070753250292), (-16)); ((-64093097205699878), (-17)); (53874530529166831, (-17)); (54677324832535268, (-17))];
  [(71353079182623569, (-17)); (87396430888993093, (-17)); (59505295382917756, (-17)); (62610392205769783, (-17)); (42380897396253486, (-17)); (65450732033552661, (-17)); (55898199689666861, (-18)); (81283666101122642, (-17)); ((-57980337510881619), (-17)); ((-77773341837381671), (-17)); (39960294806838448, (-17)); (48523006279458158, (-17))];
  [(34670613645016257, (-17)); (70749924465025704, (-17)); (52054379157662956, (-17)); (81592715657872472, (-17)); (46775807898516991, (-17)); (33980178737237504, (-17)); ((-18638488301052633), (-17)); (7691678549849883, (-16)); ((-61126220743879167), (-17)); ((-54728744782107841), (-17)); (43541151845340009, (-17)); (71476797567853789, (-17))];
  [(39325968001652045, (-17)); (39720666702454333, (-17)); (9443167853718063, (-16)); (54154145877273352, (-17)); (74825771897911608, (-17)); (38320129751668369, (-17)); ((-6601145544707977), (-16)); (66073847667525221, (-17)); ((-35731420405112274), (-17)); ((-52055895286328524), (-17)); ((-59456298480794118), (-18)); (85175308931922433, (-17))];
  [(80006666178466457, (-17)); (49808729668515916, (-17)); (44071429532142481, (-17)); (63009117036569195, (-17)); (29718466085284384, (-17)); (71740253301823009, (-17)); ((-64767738598984881), (-18)); (94076136503265773, (-17)); ((-33282607184333396), (-17)); ((-77381538952386197), (-17)); (16324622940720773, (-17)); (6120134079579983, (-16))];
  [(8627962257690609, (-16)); (12559158687705418, (-17)); (58568505056254971, (-17)); (5419300283162537, (-16)); (35947532866574922, (-17)); (75966396024149785, (-17)); ((-46911927554957061), (-17)); (87936990514319335, (-17)); ((-81459654039881854), (-18)); ((-69730836056725332), (-17)); ((-31222757406914387), (-17)); (64519376335633216, (-17))];
  [(49145157017227703, (-17)); (81596292081562338, (-17)); (31640272998209285, (-17)); (83788449082950212, (-17)); (2743249099441824, (-16)); (47190615996350604, (-17)); (11347751812913512, (-17)); (75810766573078359, (-17)); ((-64218036410300983), (-17)); ((-53392174792439173), (-17)); (59162370721966395, (-17)); (6040769455533157, (-16))];
  [(25892683479912748, (-17)); (64066375028872047, (-17)); (30191038429659511, (-17)); (92294322218054803, (-17)); (28743283229417471, (-17)); (25604330795851005, (-17)); ((-92259008242224105), (-18)); (8109453687831234, (-16)); ((-57780263433750889), (-17)); ((-37371658249153034), (-17)); (5096567234605589, (-16)); (77497479972080285, (-17))];
  [(75997333697386971, (-17)); (83547153387813466, (-17)); (75701951096454168, (-18)); (72277837847742643, (-17)); (54820494989448812, (-18)); (68890211854417605, (-17)); (4587009773929368, (-16)); (70754589240419352, (-17)); ((-53756136717654657), (-17)); ((-51689924448030167), (-17)); (70453780840425118, (-17)); (48625265817744184, (-17))];
  [(66723527707464425, (-17)); (83356155655893005, (-17)); (98734142492061427, (-17)); (43275981188371043, (-17)); (65557989743881218, (-17)); (61881656675665375, (-17)); ((-30864234491354231), (-17)); (75268374460080789, (-17)); ((-58155574413806266), (-17)); ((-84702942578439711), (-17)); (60680958197958046, (-18)); (52807099254506684, (-17))];
  [(4131999797511775, (-16)); (32049095922985638, (-17)); (94042615503498261, (-17)); (53983658046364924, (-17)); (73982460646136794, (-17)); (40154205018602496, (-17)); ((-69211246520292569), (-17)); (66161678777769439, (-17)); ((-28851960356525913), (-17)); ((-4791208635658053), (-16)); ((-12215882205148945), (-17)); (86920677648701605, (-17))];
  [(25800482258472612, (-17)); (43173419363402032, (-17)); (67503395096242069, (-17)); (75484579865960533, (-17)); (60423945330572237, (-17)); (25515192202831721, (-17)); ((-48422990937413996), (-17)); (77577265186284505, (-17)); ((-40459632658886235), (-17)); ((-44241294636736717), (-17)); (18185564519830263, (-17)); (87817954268819898, (-17))];
  [(12741934598318494, (-17)); (33292670120524637, (-17)); (68162844436316816, (-17)); (77025236411040499, (-17)); (6249506234393587, (-16)); (12707483560913546, (-17)); ((-56321231649412173), (-17)); (76007336845067386, (-17)); ((-32416101110616535), (-17)); ((-29917082433228215), (-17)); (17811567262541222, (-17)); (93742819726821736, (-17))];
  [(10007222814673922, (-17)); (48545994205459575, (-18)); (17941645357584324, (-17)); (979025258178566, (-15)); (17756260343487593, (-17)); (99905283693210764, (-18)); ((-17347490676507929), (-17)); (98365395236032427, (-17)); ((-48284145728800743), (-18)); ((-10684568578674102), (-17)); (2994033846405212, (-17)); (99382472074376327, (-17))];
  [(77867848563872422, (-17)); (71808894315505067, (-17)); (97393629532769943, (-17)); (40008966547753816, (-17)); (58876798066648706, (-17)); (70233932292018131, (-17)); ((-36313951835744535), (-17)); (80546503564866656, (-17)); ((-46835431732248917), (-17)); ((-84146179341975724), (-17)); ((-6766344130621349), (-17)); (53606315759004219, (-17))];
  [(52709436278151411, (-17)); (29473923416897729, (-17)); (28959190476962327, (-17)); (82828444795204104, (-17)); (24680259540633448, (-17)); (50302420635738787, (-17)); ((-1332080030151801), (-16)); (9587612416520801, (-16)); ((-25106275995947624), (-17)); ((-54424305343613755), (-17)); (14094452953718703, (-17)); (82700310663264776, (-17))];
  [(35013529890319295, (-17)); (87083964809662562, (-17)); (94789499224577811, (-17)); (5479973762723811, (-16)); (76291073743548188, (-17)); (34302490041429307, (-17)); ((-3701349755730271), (-16)); (58890711157815645, (-17)); ((-71846260430883069), (-17)); ((-750132638575433), (-15)); (26675010897527673, (-17)); (60509949917805828, (-17))];
  [(54993052815666643, (-17)); (68500437168518979, (-17)); (17876145899127693, (-17)); (83897499691279664, (-17)); (15159461367954469, (-17)); (52262800121933994, (-17)); (18768565466700343, (-17)); (82086966349344537, (-17)); ((-53939511546581143), (-17)); ((-51077886564284469), (-17)); (55062879388886599, (-17)); (66023698908278494, (-17))];
  [(62955751032828233, (-17)); (71514842075459584, (-17)); (27910258028635815, (-17)); (77700984141422413, (-17)); (22267777335025721, (-17)); (58878715645062585, (-17)); (16314864067277865, (-17)); (83214365980977933, (-17)); ((-53001834919652635), (-17)); ((-60797880505167845), (-17)); (50788929767633195, (-17)); (61025423711251314, (-17))];
  [(88295359647944671, (-17)); (35833953263950014, (-17)); (80768141200379573, (-17)); (43880816947615081, (-17)); (45881340544865368, (-17)); (7726174016818409, (-16)); ((-48949243001664244), (-17)); (84310067558230151, (-17)); ((-22266210227398239), (-17)); ((-75355461073328478), (-17)); ((-28048441991183093), (-17)); (59454515289364829, (-17))];
  [(94996606248559756, (-17)); (42301005320748597, (-17)); (40706644307379558, (-17)); (53417691357980257, (-17)); (23030926384274053, (-17)); (81339576344272357, (-17)); ((-54399951542576208), (-18)); (96954471444275991, (-17)); ((-23879633993902077), (-17)); ((-84362057245572275), (-17)); (8331080172655847, (-17)); (53043721593149595, (-17))];
  [(34796672847545951, (-17)); (9654166974475793, (-16)); (44074777160251233, (-17)); (85022840934365218, (-17)); (40104793909852843, (-17)); (34098710018091016, (-17)); (10816868122973611, (-18)); (63430789169307844, (-17)); ((-77300484726804397), (-17)); ((-5263028095203115), (-16)); (66091909420193395, (-17)); (53496850712011257, (-17))];
  [(58691059580939142, (-17)); (7493815431955787, (-16)); (78722897297914562, (-17)); (58769745163081222, (-17)); (58985332528485657, (-17)); (55379126031118109, (-17)); ((-25237049846870196), (-17)); (78396479131632013, (-17)); ((-56719338631459504), (-17)); ((-76871375481989923), (-17)); (19357753130659494, (-17)); (60959568775044348, (-17))];
  [(65304269184360386, (-18)); (68247698976772264, (-17)); (27052944025318881, (-17)); (9615755028765719, (-16)); (26667201513117217, (-17)); (65257862465359209, (-18)); ((-16772068213424607), (-17)); (758788346815923, (-15)); ((-62937271749002743), (-17)); ((-21735299641847833), (-17)); (59424429410995494, (-17)); (77435869845031802, (-17))];
  [(3464731771757662, (-16)); (62479850291121264, (-17)); (37275795143225277, (-17)); (87598353204547652, (-17)); (34254409146244719, (-17)); (33958268063801234, (-17)); ((-11039127934117204), (-17)); (82772059389341979, (-17)); ((-55017486664709048), (-17)); ((-46953872793471574), (-17)); (44445715637043248, (-17)); (76288348987283627, (-17))];
  [(23291552058612019, (-17)); (93487761275632708, (-17)); (77122387540643644, (-17)); (69769584732615519, (-17)); (67819230622184068, (-17)); (23081529499870537, (-17)); ((-28081245911088604), (-17)); (55530623566224269, (-17)); ((-7828022403153474), (-16)); ((-65906362927409023), (-17)); (48134206175663785, (-17)); (5778797038761041, (-16))];
  [(47337553324046511, (-17)); (16152542380470392, (-17)); (15058528026938434, (-17)); (87996235524798572, (-17)); (13352013782686209, (-17)); (45589321791524129, (-17)); ((-75575222692168889), (-18)); (98681287466069378, (-17)); ((-14313887004907833), (-17)); ((-46899321856658766), (-17)); (91502585748128473, (-18)); (87844899552561351, (-17))];
  [(58832351301980401, (-17)); (63511307789319882, (-17)); (56550818387566115, (-17)); (70236337883578248, (-17)); (44575454306309897, (-17)); (55496718047916205, (-17)); ((-15337106810547096), (-17)); (85610264328383479, (-17)); ((-49352363634441893), (-17)); ((-69509927315353304), (-17)); (26151701952461737, (-17)); (66966099554953251, (-17))];
  [(55104059404938988, (-17)); (66294058892899377, (-17)); (57070115202432747, (-17)); (71696038862672939, (-17)); (46025860804203816, (-17)); (52357407772292797, (-17)); ((-15463430324791), (-14)); (83735026468585605, (-17)); ((-52434031552948523), (-17)); ((-67974703632987066), (-17)); (29496872368732963, (-17)); (67151874035429959, (-17))];
  [(81811523057274449, (-17)); (16399288418149172, (-17)); (17688952453406315, (-17)); (672931035297337, (-15)); (12029171459945241, (-17)); (72985870216938431, (-17)); ((-56311038537376512), (-18)); (99215611048719399, (-17)); ((-11160340210658944), (-17)); ((-73755873574414144), (-17)); (34002291417592423, (-18)); (67442638998326332, (-17))];
  [(17663075310842569, (-17)); (19701465127594298, (-18)); (13026851018676566, (-17)); (97610018022781242, (-17)); (12787930162833819, (-17)); (17571375123842917, (-17)); ((-12644290847820772), (-17)); (99178428905691141, (-17)); ((-19393681327902316), (-18)); ((-17675018827374314), (-17)); ((-32875819267570473), (-19)); (98425025412761324, (-17))];
  [(55629703741980496, (-17)); (8672631421131084, (-16)); (71658434204652932, (-17)); (64035455430039201, (-17)); (55777621112055775, (-17)); (52804520932846399, (-17)); ((-12127041835416891), (-17)); (75228608825972554, (-17)); ((-64757943685935959), (-17)); ((-75844546964099613), (-17)); (35064417821899652, (-17)); (54937157722453522, (-17))];
  [(65768160464536807, (-17)); (43789761747690792, (-17)); (35111790706257917, (-17)); (7431265842456064, (-16)); (27220420317128718, (-17)); (61128369155682716, (-17)); ((-68102560173157634), (-18)); (93954414787279816, (-17)); ((-33558729936610959), (-17)); ((-66567628851065375), (-17)); (20775385910702596, (-17)); (71673803648252055, (-17))];
  [(59092759653394566, (-17)); (29394036118416067, (-18)); (64517521733830219, (-17)); (66350433175099777, (-17)); (49936602340329445, (-17)); (55713156113977458, (-17)); ((-58799595885694622), (-17)); (80849557776854175, (-17)); ((-24406005339103521), (-18)); ((-4626259332501394), (-16)); ((-31139761623861589), (-17)); (83006552180255344, (-17))];
  [(8994804783245437, (-16)); (36982888605857911, (-17)); (13854679646969836, (-17)); (61605650955553171, (-17)); (85903002694775007, (-18)); (78300386407876466, (-17)); (15154271186217416, (-17)); (96254118601739247, (-17)); ((-22483165191246862), (-17)); ((-77298718198668281), (-17)); (25716753167585693, (-17)); (57996178937584675, (-17))];
  [(20018434667183715, (-17)); (23763075091432417, (-17)); (68713442330955576, (-17)); (75762869764486063, (-17)); (62165700690300962, (-17)); (19884999943008275, (-17)); ((-5803121818360153), (-16)); (78103485258855865, (-17)); ((-23069965464796885), (-17)); ((-29872483679412398), (-17)); (59389601870698056, (-18)); (95248955221144771, (-17))];
  [(97628523981110349, (-17)); (63695155229142564, (-17)); (81170122997102401, (-17)); (38549998222240639, (-17)); (40633240680102911, (-17)); (82842243987582043, (-17)); ((-24409588762825829), (-17)); (91074037656276474, (-17)); ((-33312034483244374), (-17)); ((-88983535631570465), (-17)); ((-73796623781826887), (-18)); (45027446848439728, (-17))];
  [(35142640017071236, (-18)); (50568719570487453, (-17)); (35400385231581888, (-17)); (93741312184599823, (-17)); (34644211951266851, (-17)); (35135406906846564, (-18)); ((-28730476374005715), (-17)); (82649490026768502, (-17)); ((-4841096493190149), (-16)); ((-19675520761395288), (-17)); (44371616790362689, (-17)); (87430163594591936, (-17))];
  [(16220411708797622, (-18)); (68598924305859355, (-17)); (69384826582651327, (-19)); (99984438399853159, (-17)); (69375142495510279, (-19)); (16219700448353767, (-18)); (49050352713696397, (-19)); (77384546148312094, (-17)); ((-63335546288870215), (-17)); ((-16945454127395662), (-18)); (63333646084684936, (-17)); (77369100999456075, (-17))];
  [(67923199384334021, (-17)); (24256791792343968, (-17)); (59206605838842574, (-17)); (64562215372237308, (-17)); (43421452059136678, (-17)); (62819565800035093, (-17)); ((-41653148441280563), (-17)); (88970510631121025, (-17)); ((-18688591786601444), (-17)); ((-64005746391691198), (-17)); ((-14100558113552664), (-17)); (7552773457299532, (-16))];
  [(89627620745019021, (-17)); (9034289114686751, (-16)); (69314943808373208, (-17)); (48040617678783376, (-17)); (3990468412344213, (-16)); (78100673736205839, (-17)); (76417398861749475, (-18)); (868065178495251, (-15)); ((-49053361458233652), (-17)); ((-87371064229257323), (-17)); (29533788173012709, (-17)); (38652975197242001, (-17))];
  [(64910727260199674, (-17)); (23886694203532732, (-17)); (18299603510498441, (-17)); (78332244064709489, (-17)); (1449667183847238, (-16)); (60447547885703579, (-17)); ((-36177460299453096), (-18)); (98140993907593732, (-17)); ((-18848268580760025), (-17)); ((-62056195931184821), (-17)); (12577432982818565, (-17)); (77400495645138534, (-17))];
  [(23950979205667611, (-17)); (18584843413938301, (-17)); (60051269973835808, (-17)); (80149456592049262, (-17)); (54893540314407907, (-17)); (23722644029485548, (-17)); ((-51916929506680598), (-17)); (83560811861127549, (-17)); ((-17950575247261624), (-17)); ((-29676540205987112), (-17)); (20712201379183087, (-18)); (95472577259350822, (-17))];
  [(75980297261992735, (-18)); (78300642848266455, (-17)); (28882557099962347, (-18)); (99669901683954276, (-17)); (28795223722755194, (-18)); (75907212581186642, (-18)); (33054649749618782, (-18)); (71004667979500535, (-17)); ((-70337834956872192), (-17)); ((-74151601203338885), (-18)); (70356559580670619, (-17)); (70675101162724596, (-17))];
  [(72872352832308318, (-17)); (80870200365806755, (-17)); (97373538172644047, (-18)); (74249107115647606, (-17)); (72528356118620435, (-18)); (66591789795112077, (-17)); (41231328266934086, (-17)); (73399996257903799, (-17)); ((-53966824241232048), (-17)); ((-52792496264842503), (-17)); (67526564587035043, (-17)); (51508401384624392, (-17))];
  [(67071823527456809, (-17)); (37002427002514926, (-17)); (63527522177763729, (-17)); (63054548813776035, (-17)); (46485425951782811, (-17)); (62154879518606199, (-17)); ((-37231311566084757), (-17)); (88381274783308783, (-17)); ((-28329837746559594), (-17)); ((-6810252060651103), (-16)); ((-52778254763289068), (-18)); (73035547819408841, (-17))];
  [(64741730171462852, (-17)); (95529514299472151, (-17)); (56768789804377384, (-18)); (79635921865616, (-14)); (45256976025215757, (-18)); (60312834536473525, (-17)); (45889259753513373, (-17)); (60437819273517268, (-17)); ((-65126383599400373), (-17)); ((-39399185117056434), (-17)); (79541109262268883, (-17)); (46053405405460762, (-17))];
  [(21999983540798362, (-17)); (80353809037110424, (-18)); (58187891773223643, (-17)); (81529548251238504, (-17)); (53634800075239375, (-17)); (21822946245593741, (-17)); ((-53318726803557293), (-17)); (84236293960559094, (-17)); ((-78332721028888622), (-18)); ((-22584200982027078), (-17)); ((-52492857303997109), (-18)); (97274862453380151, (-17))];
  [(33741966975593018, (-17)); (97450736411182071, (-18)); (62144980746995593, (-18)); (94179050507689077, (-17)); (5860301382294647, (-17)); (33105336626876736, (-17)); ((-29662148683673374), (-18)); (99533463820077128, (-17)); ((-91810211486564527), (-18)); ((-33488923763310574), (-17)); (76646231274653004, (-18)); (9391350029409562, (-16))];
  [(48125380581524202, (-17)); (34385741159114902, (-17)); (56624277918240551, (-17)); (74806580867877526, (-17)); (47553078896818307, (-17)); (46289093167728768, (-17)); ((-37336664739572473), (-17)); (87823593439686931, (-17)); ((-29882936627201556), (-17)); ((-54863001421563373), (-17)); (50715996267008873, (-18)); (8345256108858482, (-16))];
  [(81207769067119584, (-17)); (48437249877748212, (-17)); (76499619423974985, (-18)); (6859799518374099, (-16)); (52579814339556663, (-18)); (72571817450106801, (-17)); (26931094894844787, (-17)); (90820561851673587, (-17)); ((-32036567742365868), (-17)); ((-67594609138128114), (-17)); (41520828221345851, (-17)); (60885052675325624, (-17))];
  [(34040254702623174, (-18)); (46024277583441331, (-17)); (41413173307340867, (-17)); (91493571011717123, (-17)); (40216210028006205, (-17)); (34033681122044766, (-18)); ((-34668512873185048), (-17)); (82628979337226316, (-17)); ((-44390832261290492), (-17)); ((-20664478669583708), (-17)); (39434860525574561, (-17)); (89542565836828703, (-17))];
  [(37719334189694076, (-17)); (22335553357281579, (-17)); (27540620059412613, (-17)); (89466603136074219, (-17)); (25282117147205319, (-17)); (36831256778002852, (-17)); ((-18667491971678501), (-17)); (96059593799679854, (-17)); ((-20593182913960278), (-17)); ((-40586348280912299), (-17)); (11548549328616708, (-17)); (90660792747609453, (-17))];
  [(41546752228037953, (-17)); (58545039201952565, (-17)); (54377716695591605, (-17)); (78295908570313844, (-17)); (47335800757044633, (-17)); (40361772357497233, (-17)); ((-24035117085065946), (-17)); (82863400272161569, (-17)); ((-50556602358571401), (-17)); ((-57376509547516275), (-17)); (29882751915191952, (-17)); (76255867250454024, (-17))];
  [(58616183075571182, (-17)); (26354742032472234, (-17)); (99057945631126654, (-17)); (45669339124715008, (-17)); (69673288030556413, (-17)); (55316764176178079, (-17)); ((-72846780062419225), (-17)); (64979742896907111, (-17)); ((-21702065514355326), (-17)); ((-51065233754965766), (-17)); ((-3038529164024879), (-16)); (80430566039831719, (-17))];
  [(65028557622890826, (-17)); (20496538295458222, (-17)); (51295171423112185, (-17)); (69347700084404684, (-17)); (39059425558901195, (-17)); (60541372366441393, (-17)); ((-37311566728674184), (-17)); (91353299231198226, (-17)); ((-16199435416916541), (-17)); ((-61633947474221951), (-17)); ((-11354998660669777), (-17)); (7792509559930636, (-16))];
  [(36469357157524085, (-18)); (99409108880967734, (-17)); (53874882990885442, (-17)); (85778053507868091, (-17)); (51272129775332198, (-17)); (36461273569105557, (-18)); ((-25352021989998708), (-17)); (48371025442525795, (-17)); ((-8377063255495415), (-16)); ((-44714656628670874), (-17)); (70932451007560826, (-17)); (54490245701777151, (-17))];
  [(81026364218784941, (-17)); (21258385390702272, (-17)); (19082459572792088, (-17)); (67679526390654454, (-17)); (13073997137160132, (-17)); (724468930071831, (-15)); ((-35320511651200676), (-18)); (98873721992490871, (-17)); ((-14543442299490195), (-17)); ((-73532348813999415), (-17)); (72840715406395695, (-18)); (67379047037541007, (-17))];
  [(29185768665113943, (-17)); (20871751311775721, (-17)); (9093750328237471, (-16)); (58826349643242581, (-17)); (75574892833796792, (-17)); (28773184752666925, (-17)); ((-73537341936283818), (-17)); (64795551211845093, (-17)); ((-19844290969929718), (-17)); ((-33641045295844296), (-17)); ((-94853632673340849), (-18)); (936926248703155, (-15))];
  [(32631505362167657, (-17)); (14484393419126407, (-17)); (64755405625962026, (-17)); (75547433758956961, (-17)); (5714045818345701, (-16)); (32055472091682102, (-17)); ((-56001882233374989), (-17)); (81712068219382372, (-17)); ((-13672128350414253), (-17)); ((-34005506006457387), (-17)); ((-7622725621167413), (-17)); (93731102710622094, (-17))];
  [(44377020325832972, (-17)); (55853892068806366, (-17)); (77369920782897816, (-17)); (64604323229210525, (-17)); (63110129354466105, (-17)); (42934752741319515, (-17)); ((-42983143064902485), (-17)); (7656180807749754, (-16)); ((-47861664786826608), (-17)); ((-63077181550524397), (-17)); (12465998426399189, (-17)); (76588955149389515, (-17))];
  [(36718902948996324, (-17)); (25395630304444872, (-17)); (6821109738171206, (-16)); (72449933913917985, (-17)); (58840848512527533, (-17)); (35899326208087845, (-17)); ((-540201769865996), (-15)); (80820629695488089, (-17)); ((-23448801546374248), (-17)); ((-42811535293719261), (-17)); ((-24042383306518672), (-18)); (90340423310077833, (-17))];
  [(23596297849010917, (-17)); (4111316210815531, (-16)); (36424521272554944, (-17)); (90850057760422731, (-17)); (34637248495395945, (-17)); (23377938779884891, (-17)); ((-23925841504701811), (-17)); (88981277727675134, (-17)); ((-3885725572196565), (-16)); ((-34261072855643943), (-17)); (29708470687979482, (-17)); (89126795388153168, (-17))];
  [(65768363521354334, (-17)); (83538529064600486, (-17)); (76423086756633962, (-17)); (57133081530334728, (-17)); (54764165586281299, (-17)); (61128529857068281, (-17)); ((-13699996353267369), (-17)); (79800347389799664, (-17)); ((-58687431843519577), (-17)); ((-80920461533338928), (-17)); (25155331921993351, (-17)); (53095086223922427, (-17))];
  [(25650956452052487, (-17)); (68121200982787855, (-17)); (41463753032619866, (-17)); (8853163114911794, (-16)); (38967725068681136, (-17)); (25370587085209706, (-17)); ((-16671514504255627), (-17)); (77534866223483134, (-17)); ((-60913094847011084), (-17)); ((-4340749808743789), (-16)); (49697695345742676, (-17)); (75139391713739756, (-17))];
  [(85659687024514097, (-19)); (51048774865322899, (-17)); (83799572011481438, (-17)); (66892941505196568, (-17)); (74327657278638648, (-17)); (85658639470064003, (-19)); ((-64573750598344437), (-17)); (58677749342796059, (-17)); ((-48858494304745098), (-17)); ((-36817999815921049), (-17)); (3212975405341959, (-16)); (87247428581142761, (-17))];
  [(13751886737737984, (-17)); (17068259474120884, (-17)); (31770723430566061, (-17)); (94098579706663488, (-17)); (30944014738209419, (-17)); (13708583043851699, (-17)); ((-28573062963362922), (-17)); (94342431738404231, (-17)); ((-16825149228944028), (-17)); ((-18139387257578415), (-17)); (11915264393458333, (-17)); (97616541141107771, (-17))];
  [(80462679761610401, (-17)); (27808470406593033, (-17)); (60138939817446779, (-19)); (69336766378602843, (-17)); (41698898911928864, (-19)); (72057192204123555, (-17)); (19202099540487061, (-17)); (96275517493017626, (-17)); ((-19034287606550529), (-17)); ((-69452805568934917), (-17)); (27034253302701178, (-17)); (6667426000316099, (-16))];
  [(4274331614893786, (-16)); (80977275433406259, (-17)); (74794065503443141, (-18)); (90748854950984859, (-17)); (68001609116048106, (-18)); (41453626339096, (-14)); (24780448903972044, (-17)); (71016549677632801, (-17)); ((-65898247503267826), (-17)); ((-33920122010434195), (-17)); (70074299735784695, (-17)); (62761595258060976, (-17))];
  [(30831008410172067, (-17)); (25405587745856173, (-17)); (70116497854658999, (-17)); (72806253804022514, (-17)); (61468995716119357, (-17)); (30344883797371147, (-17)); ((-5661265372184181), (-16)); (78876464751807895, (-17)); ((-23948084408312034), (-17)); ((-3865561855144849), (-16)); (25665912901619847, (-19)); (92226228809902033, (-17))];
  [(13679742623245783, (-17)); (6480284751688431, (-16)); (29305562558347431, (-17)); (948421753054696, (-15)); (28618015964778293, (-17)); (1363711646816389, (-16)); ((-15150975411059886), (-17)); (78706335871934163, (-17)); ((-59797664149260443), (-17)); ((-27846179763479778), (-17)); (54647249298148426, (-17)); (78982709606128254, (-17))];
  [(35099541484898222, (-17)); (20027905328337581, (-17)); (87334207610976722, (-17)); (60310998669841576, (-17)); (71974816173050593, (-17)); (34383270296787399, (-17)); ((-70722551581572657), (-17)); (68185981199853973, (-17)); ((-18681345390655232), (-17)); ((-36890434224039192), (-17)); ((-13049820101010426), (-17)); (92026072708190154, (-17))];
  [(24317739259301063, (-17)); (79202194870714571, (-17)); (13481848194098112, (-17)); (96177052833319487, (-17)); (13045579116521441, (-17)); (24078774341968734, (-17)); (75420566162471434, (-18)); (71906991509768126, (-17)); ((-69083297214387918), (-17)); ((-26326638416140313), (-17)); (68258314054250657, (-17)); (68174120252314885, (-17))];
  [(97168132255848394, (-17)); (84708684391020928, (-17)); (36600283904918873, (-18)); (56353417328279565, (-17)); (20634725515815765, (-18)); (82583499783271652, (-17)); (59419863336114132, (-17)); (68437025637034177, (-17)); ((-42256991883869904), (-17)); ((-57389652347285391), (-17)); (72884261696094554, (-17)); (37340490094171552, (-17))];
  [(66102662332377005, (-17)); (75293551638523992, (-17)); (46812396248774313, (-19)); (7893537262097301, (-16)); (36951809332875151, (-19)); (61392755318252712, (-17)); (41637324032186707, (-17)); (73164190980551391, (-17)); ((-53975312927301211), (-17)); ((-45116961296466229), (-17)); (68167914846649846, (-17)); (57598569329741722, (-17))];
  [(13796223864677049, (-17)); (55908505301466183, (-17)); (81597922001468404, (-17)); (67864531665006544, (-17)); (72147585399381842, (-17)); (13752500242800569, (-17)); ((-567513225241841), (-15)); (63396693684410144, (-17)); ((-5253709757534295), (-16)); ((-46622877792403161), (-17)); (27849329451963045, (-17)); (83968578143438066, (-17))];
  [(60281328285203684, (-17)); (54117876749212757, (-17)); (19110762876112664, (-17)); (80874713977330615, (-17)); (15646724100969417, (-17)); (56696213841782306, (-17)); (12394787709926916, (-17)); (89697543477135411, (-17)); ((-42434890500545047), (-17)); ((-57494781299791109), (-17)); (41346471664164358, (-17)); (70603253495951901, (-17))];
  [(98771516420908922, (-17)); (55747772186836775, (-17)); (73211903779184206, (-17)); (40951300566181392, (-17)); (36804609248375275, (-17)); (83477013123450217, (-17)); ((-23877025671613428), (-17)); (92635698291773316, (-17)); ((-29129281609278651), (-17)); ((-88050432293177205), (-17)); ((-80030081887972171), (-18)); (46723369237616624, (-17))];
  [(1752401819138043, (-16)); (69194624069470168, (-17)); (78459488921033516, (-17)); (69683630048804091, (-17)); (69571769756664981, (-17)); (17434464607409139, (-17)); ((-46531817328083763), (-17)); (623507613313388, (-15)); ((-62826527339558325), (-17)); ((-54580048363548106), (-17)); (35667231660559551, (-17)); (75821282673829304, (-17))];
  [(73160905029488787, (-17)); (91739112589303007, (-18)); (15354033136379908, (-17)); (73534668164599715, (-17)); (11380105451889783, (-17)); (66806779430130236, (-17)); ((-91812625918767626), (-18)); (99344030883637524, (-17)); ((-68167400573794112), (-18)); ((-67144299796343165), (-17)); ((-1121038667818873), (-17)); (74097140816390794, (-17))];
  [(50896344746083177, (-17)); (63729575821630857, (-18)); (77587997175077572, (-17)); (62333028283204495, (-17)); (61157585458040531, (-17)); (48727233925061841, (-17)); ((-67677148909831797), (-17)); (73408951304394165, (-17)); ((-55614192276376144), (-18)); ((-39171381140849254), (-17)); ((-29510601642995249), (-17)); (87147732559067559, (-17))];
  [(19894164275947479, (-17)); (99650987995195561, (-18)); (9376736470362278, (-16)); (57999526307371918, (-17)); (79028292625451446, (-17)); (19763195916310905, (-17)); ((-79055123428214458), (-17)); (60458070894157401, (-17)); ((-97523906559784351), (-18)); ((-19655594823618289), (-17)); ((-99674785408875324), (-18)); (97541309011447541, (-17))];
  [(5303373765792484, (-16)); (75869328020510307, (-17)); (97951325049670113, (-17)); (48085662023185349, (-17)); (71618334508588655, (-17)); (505824403326677, (-15)); ((-40854359054073475), (-17)); (69345805064720301, (-17)); ((-59347120117210861), (-17)); ((-77580219476828205), (-17)); (78723238082353153, (-18)); (62604600979364577, (-17))];
  [(86845481460501361, (-17)); (65609793563196073, (-19)); (25915780030468794, (-17)); (62443415153671555, (-17)); (1655499469630132, (-16)); (76333164840399859, (-17)); ((-25142012654341339), (-17)); (9678687699661096, (-16)); ((-42384069158153855), (-19)); ((-7395065316571019), (-16)); ((-18927033360998113), (-17)); (64599290278736821, (-17))];
  [(60764567734856079, (-17)); (8612920962821059, (-16)); (73539901728986024, (-17)); (60881921190599597, (-17)); (55079131285868976, (-17)); (57093615833432987, (-17)); ((-11583600270875816), (-17)); (77369719005671622, (-17)); ((-62287613421514076), (-17)); ((-78480646511775032), (-17)); (31308399476457199, (-17)); (53484317751247312, (-17))];
  [(10330938780231025, (-17)); (13547521989249445, (-17)); (86987069422120122, (-17)); (64148684455340277, (-17)); (76017084555335812, (-17)); (10312571859439899, (-17)); ((-74826026426733239), (-17)); (64966071794134783, (-17)); ((-13434109007490835), (-17)); ((-16911890841505756), (-17)); (90131645178138514, (-19)); (98555444176457063, (-17))];
  [(29789886102161311, (-17)); (40558158191543958, (-18)); (67056397928321609, (-17)); (74896356581767354, (-17)); (5940573454444501, (-16)); (29351226107467587, (-17)); ((-61159277022729786), (-17)); (79022266232401106, (-17)); ((-3876115781618876), (-17)); ((-25496639088980905), (-17)); ((-15047928187310461), (-17)); (95516916053837286, (-17))];
  [(91108040956963787, (-17)); (71843982276441043, (-17)); (23381030849077511, (-17)); (59621600891710769, (-17)); (14199848469088769, (-17)); (79016637555419122, (-17)); (33152379656609593, (-17)); (85284837395638879, (-17)); ((-40341247297319111), (-17)); ((-73117606841400196), (-17)); (50247993132605351, (-17)); (46140597698036734, (-17))];
  [(19731877408409426, (-18)); (94868449493639773, (-17)); (7611436681124536, (-16)); (72390669107979044, (-17)); (68961569453688032, (-17)); (19730597008835952, (-18)); ((-39034418792124542), (-17)); (43300016541315289, (-17)); ((-81249139792879388), (-17)); ((-56885017145643213), (-17)); (58046623553881094, (-17)); (58263919524298169, (-17))];
  [(93067021925632665, (-17)); (61453818493516732, (-17)); (63234534675703724, (-18)); (59610280783214808, (-17)); (37744605695203083, (-18)); (80202044065942779, (-17)); (40987502103247792, (-17)); (84462890143310565, (-17)); ((-34439002017702397), (-17)); ((-69040850923801256), (-17)); (53402000300065433, (-17)); (488015088667273, (-15))];
  [(95038145487685277, (-17)); (75181237778158949, (-17)); (47229240183141719, (-17)); (51772858055930826, (-17)); (26448328819237793, (-17)); (81363733145609252, (-17)); (16254885511367345, (-17)); (90328511139146617, (-17)); ((-39705651643026896), (-17)); ((-83996130064026042), (-17)); (33782332335919901, (-17)); (42466506286868971, (-17))];
  [(84669556551045011, (-17)); (91327807261729055, (-17)); (21681168536983852, (-17)); (64695271305628455, (-17)); (14250689230297284, (-17)); (74909543631987352, (-17)); (44756661738389525, (-17)); (72439290601693607, (-17)); ((-52434629846684), (-14)); ((-61736238148485412), (-17)); (67449737090554129, (-17)); (40486662812445023, (-17))];
  [(75262147239816002, (-17)); (91489971805512382, (-17)); (12733253246221321, (-17)); (72399031072690478, (-17)); (9268900204133089, (-17)); (68355451785072852, (-17)); (45988565216301969, (-17)); (67372471201332762, (-17)); ((-57844636688041595), (-17)); ((-51414318716497043), (-17)); (73314648012736228, (-17)); (44514382144280662, (-17))];
  [(22074971631474427, (-18)); (4699670296982662, (-16)); (16119010201191764, (-17)); (98679649542414205, (-17)); (16045389180740316, (-17)); (22073178803457716, (-18)); ((-1332264480494868), (-16)); (88162989439269634, (-17)); ((-45274655476683712), (-17)); ((-92105321012136143), (-18)); (44382798235012333, (-17)); (89136599212908618, (-17))];
  [(35826528341138131, (-17)); (77482974886402001, (-17)); (93996690303859809, (-17)); (55236535602534254, (-17)); (7562651379672467, (-16)); (35065018830506539, (-17)); ((-43232955962321307), (-17)); (61954596944718976, (-17)); ((-65517474281121402), (-17)); ((-71272972811507951), (-17)); (21029938858000286, (-17)); (66917150404353121, (-17))];
  [(25778097463167648, (-17)); (33086042535222171, (-17)); (10676456346397944, (-17)); (96145228059011589, (-17)); (10304084044596591, (-17)); (25493547683336276, (-17)); ((-18436280293925231), (-18)); (94920326596267324, (-17)); ((-31412300688538969), (-17)); ((-27435308585286389), (-17)); (29731421944801723, (-17)); (91451333461958195, (-17))];
  [(33244191803395218, (-18)); (99098073828821176, (-17)); (7087304683935961, (-16)); (75876930812458365, (-17)); (65051085143731435, (-17)); (33238068693008029, (-18)); ((-33548237619070326), (-17)); (43403446349008035, (-17)); ((-83610146499591642), (-17)); ((-55831954319509558), (-17)); (62325734385178211, (-17)); (54756695574262093, (-17))];
  [(2962347456713762, (-16)); (29795627955195136, (-17)); (88014636708252381, (-19)); (9564053777403374, (-16)); (84179845564175421, (-19)); (29192103549653714, (-17)); (77281558182140692, (-18)); (95665569011056273, (-17)); ((-28078007647271486), (-17)); ((-28163152201822683), (-17)); (29109968759016408, (-17)); (91430009170436266, (-17))];
  [(73851651740181001, (-17)); (35714550249505062, (-17)); (45228276705670711, (-17)); (66511588350351436, (-17)); (3231622563604058, (-16)); (67319166481425696, (-17)); ((-19775853674200741), (-17)); (94554719556926514, (-17)); ((-25851897821389869), (-17)); ((-72007806705731536), (-17)); (38815680016579646, (-18)); (69280655332340135, (-17))];
  [(39583327444503813, (-17)); (15238929509836374, (-17)); (70477712762006217, (-17)); (70285363377064469, (-17)); (5977683662208827, (-16)); (38557716457411861, (-17)); ((-59577001317152189), (-17)); (79084805133825253, (-17)); ((-14006231149061152), (-17)); ((-38865776835283367), (-17)); ((-13127200783146853), (-17)); (91198289406045863, (-17))];
  [(30157598557021204, (-17)); (25738811221799773, (-18)); (66134312210766699, (-17)); (75355253381879705, (-17)); (58645926491412426, (-17)); (29702543556344735, (-17)); ((-60794133597097511), (-17)); (7936015538449096, (-16)); ((-24574493947406451), (-18)); ((-25013178685064547), (-17)); ((-16205586793242013), (-17)); (95455329074681483, (-17))];
  [(63674864252130015, (-17)); (7412521279124662, (-17)); (70446976898191205, (-17)); (61263716714534466, (-17)); (52071595460387621, (-17)); (59458438934528135, (-17)); ((-61230007694936139), (-17)); (7883800225883183, (-16)); ((-59544569453889064), (-18)); ((-49976426162735299), (-17)); ((-32758485099988499), (-17)); (80182532274520357, (-17))];
  [(98099691524177934, (-17)); (337225456878254, (-17)); (74732629548070684, (-17)); (4079734122719767, (-16)); (37803416875128182, (-17)); (831052261976157, (-15)); ((-67762047251946389), (-17)); (73540939431864483, (-17)); ((-18756253310846125), (-19)); ((-61187269108995068), (-17)); ((-56237282118218634), (-17)); (55619117207479152, (-17))];
  [(99104208635279922, (-17)); (61496876003532386, (-17)); (20175238447074717, (-17)); (53670691256806891, (-17)); (1097753902297966, (-16)); (836597306774022, (-15)); (3091967930916778, (-16)); (89694308824726243, (-17)); ((-31605448832010874), (-17)); ((-78507517674645233), (-17)); (42830183299322855, (-17)); (44745335702301664, (-17))];
  [(72855075385995838, (-17)); (53568547238584252, (-17)); (85468541110110718, (-17)); (48980802407218482, (-17)); (56286154168319258, (-17)); (66578899393766011, (-17)); ((-42560291736948641), (-17)); (82086134698208346, (-17)); ((-38085273500047434), (-17)); ((-7608878079461413), (-16)); ((-96817012579293704), (-18)); (64161998861797997, (-17))];
  [(70771649957845117, (-17)); (15101400262776199, (-17)); (98491154848350204, (-17)); (42014813328423006, (-17)); (6331232712454038, (-16)); (65010035341114514, (-17)); ((-76966223612965201), (-17)); (62813436982293214, (-17)); ((-11431209788579604), (-17)); ((-48072402516795509), (-17)); ((-45232967717657768), (-17)); (75120055562522881, (-17))];
  [(36503255020790359, (-17)); (13026805232897176, (-17)); (12147422848814537, (-17)); (92722873856404886, (-17)); (11319169589057788, (-17)); (3569797002104429, (-16)); ((-74119066620709509), (-18)); (98983973516999413, (-17)); ((-12134110038181886), (-17)); ((-36708749685081565), (-17)); (86051953260868813, (-18)); (92619751187087063, (-17))];
  [(28627370609954517, (-17)); (67273046092309685, (-17)); (65980989514286792, (-17)); (75795352918080561, (-17)); (58802060972108994, (-17)); (28237954980061752, (-17)); ((-34038991161123355), (-17)); (72581841915854206, (-17)); ((-59776444397730066), (-17)); ((-55645409125610557), (-17)); (3569585199339449, (-16)); (75029291571419565, (-17))];
  [(25483067133894932, (-17)); (47554135167140577, (-17)); (88521736854686106, (-17)); (61267524004894991, (-17)); (74905536606336809, (-17)); (25208155188873943, (-17)); ((-61510041342986099), (-17)); (6522051067154907, (-16)); ((-44303496495496769), (-17)); ((-49626659330381656), (-17)); (11638108671905831, (-17)); (8603341856654978, (-16))];
  [(47676307225266079, (-17)); (53424605473857523, (-18)); (5696908743739435, (-16)); (74816458013485199, (-17)); (47922373721823985, (-17)); (45890562288800074, (-17)); ((-51796718757023685), (-17)); (85408373298068463, (-17)); ((-47444384898082434), (-18)); ((-41468030292288971), (-17)); ((-2022018465404353), (-16)); (887217368869331, (-15))];
  [(56690014331437499, (-18)); (68596119860467553, (-17)); (42990031475215462, (-17)); (90754702755325833, (-17)); (41611065394400004, (-17)); (56659654548383794, (-18)); ((-28988537531893283), (-17)); (71835735809600199, (-17)); ((-63239953767024049), (-17)); ((-30385006492585614), (-17)); (55750751541448229, (-17)); (77256747815380111, (-17))];
  [(79593801617193127, (-17)); (60437746701910788, (-17)); (92708507633940063, (-17)); (41988651078264583, (-17)); (55960365066882989, (-17)); (71452016921910133, (-17)); ((-41449716947837245), (-17)); (81862155774024958, (-17)); ((-39755608622852762), (-17)); ((-80739545116206357), (-17)); ((-12923814978962411), (-17)); (57568227876300171, (-17))];
  [(75196605952515061, (-17)); (30541346789928714, (-17)); (61238657860467427, (-17)); (59762749785922564, (-17)); (41981968956189059, (-17)); (68307598556725668, (-17)); ((-38015256622792948), (-17)); (89847486602640603, (-17)); ((-21960633303516419), (-17)); ((-70592166717904403), (-17)); ((-12843030551621976), (-17)); (69654881841272942, (-17))];
  [(90939475803734859, (-17)); (4713328720381873, (-16)); (15168961247862611, (-17)); (6071704566142675, (-16)); (92814424224647848, (-18)); (78913213042599462, (-17)); (21957772134139028, (-17)); (93487898240295852, (-17)); ((-27890305224527662), (-17)); ((-76362926928277486), (-17)); (34261752861909422, (-17)); (54725091884582477, (-17))];
  [(63067571274447809, (-17)); (36584464008793127, (-17)); (41441606103025852, (-17)); (73926471127455695, (-17)); (32519634352063254, (-17)); (58969061788785215, (-17)); ((-18291067741380668), (-17)); (93971752858132795, (-17)); ((-28891979953790548), (-17)); ((-6480982724496096), (-16)); (10572750180445925, (-17)); (75418189093216748, (-17))];
  [(79144656741474351, (-17)); (90642804009681543, (-17)); (85330145069840313, (-17)); (46210164598452158, (-17)); (52954113369340983, (-17)); (71137068853382923, (-17)); ((-96308336716588838), (-18)); (82737416885391502, (-17)); ((-55333234949004895), (-17)); ((-8815819718309128), (-16)); (18718486167420639, (-17)); (43333019108149867, (-17))];
  [(97454194342937139, (-17)); (74004138298312006, (-17)); (55495896911730347, (-17)); (47727129290979547, (-17)); (29588391473708986, (-17)); (82744475462961675, (-17)); (85132998450180297, (-18)); (92161150392787883, (-17)); ((-37866160143679051), (-17)); ((-87462248172516899), (-17)); (25116716510652365, (-17)); (41466922918545385, (-17))];
  [(3485177696774, (-13)); (60341117647067199, (-17)); (30695966918361628, (-18)); (93943717169711183, (-17)); (28845992885836155, (-18)); (3415050645717595, (-16)); (16842607633456277, (-17)); (82896442312557794, (-17)); ((-53333914351247647), (-17)); ((-29848024598669065), (-17)); (55855697461092391, (-17)); (77390157569888451, (-17))];
  [(64408140747076148, (-17)); (96948304947680541, (-17)); (7350786256447952, (-16)); (59316404902312803, (-17)); (53628278925595774, (-17)); (60046413789196285, (-17)); ((-12118462288293164), (-18)); (75170559032257012, (-17)); ((-6593874796730399), (-16)); ((-80499040604112504), (-17)); (38384824530749972, (-17)); (4523836543865154, (-16))];
  [(30571429994545851, (-17)); (24907427772144242, (-17)); (9970609783946639, (-16)); (51760588237146676, (-17)); (80093604126454598, (-17)); (30097443136906654, (-17)); ((-77369201303272417), (-17)); (58833621889621446, (-17)); ((-23507692890685031), (-17)); ((-3653557437673946), (-16)); ((-1111843124653078), (-16)); (92420410578929513, (-17))];
  [(97539603426319843, (-17)); (42777590290049072, (-17)); (3355380260691212, (-16)); (52956399590065006, (-17)); (18467191663219606, (-17)); (82792406502838634, (-17)); (24702687573157744, (-18)); (97224352047447682, (-17)); ((-23266352125345899), (-17)); ((-8479102260690099), (-16)); (14366217352799254, (-17)); (51030327103087791, (-17))];
  [(44722623754919366, (-17)); (19756676052744582, (-17)); (52006561748318847, (-17)); (78243987529778103, (-17)); (44806338256882255, (-17)); (43246623769373949, (-17)); ((-41360709624681991), (-17)); (89308870000490248, (-17)); ((-1769795012362371), (-16)); ((-46552874398716443), (-17)); ((-40395285919749779), (-18)); (8841104056605118, (-16))];
  [(71025679719841517, (-17)); (35828510037077532, (-17)); (26810327085381325, (-17)); (73110802520135543, (-17)); (20084794632677103, (-17)); (65202849473201141, (-17)); ((-27603838048342544), (-18)); (96361219290540512, (-17)); ((-26587510189755842), (-17)); ((-68170307584106948), (-17)); (17638493172704611, (-17)); (71004878159776474, (-17))];
  [(49336662815204635, (-17)); (61114369569328586, (-18)); (31144683940700024, (-18)); (88031631675546684, (-17)); (27426041700974031, (-18)); (47359370212314372, (-17)); ((-21701752354246831), (-19)); (99854977276669155, (-17)); ((-53792579851094008), (-18)); ((-47438220117700042), (-17)); (46326704439288671, (-18)); (87909917737548737, (-17))];
  [(63027313396027784, (-17)); (18400319391660891, (-17)); (88137379512831537, (-17)); (51387722007915071, (-17)); (62336071889850408, (-17)); (5893654357171485, (-16)); ((-68999550223043937), (-17)); (70856025279784662, (-17)); ((-14781263497013894), (-17)); ((-50974151251932365), (-17)); ((-3307019538638864), (-16)); (79422906527343884, (-17))];
  [(66874979006230362, (-17)); (72712023531505954, (-17)); (30622700010144221, (-18)); (78422956669403432, (-17)); (24022736334487489, (-18)); (62000556034755927, (-17)); (38906306919700923, (-17)); (75936005412150376, (-17)); ((-52153833645436853), (-17)); ((-48333623380612645), (-17)); (65022704983996971, (-17)); (58616624667965911, (-17))];
  [(94879338355834641, (-17)); (58091863803458876, (-17)); (90944495034872341, (-18)); (58025622784254005, (-17)); (52917080787131192, (-18)); (81271304444491022, (-17)); (36824622503557747, (-17)); (8730104861652429, (-16)); ((-31976148735045157), (-17)); ((-72642785450242298), (-17)); (4848221051133027, (-16)); (48708325632946209, (-17))];
  [(98649741610059305, (-17)); (95456822747999259, (-17)); (57803689078146203, (-17)); (46199768187498347, (-17)); (30139171085485822, (-17)); (8340990220412221, (-16)); (25430637012764423, (-17)); (85597340796973209, (-17)); ((-45015307947539834), (-17)); ((-84963898925051873), (-17)); (42008637382884034, (-17)); (31881189825458622, (-17))];
  [(73447211781165855, (-17)); (30298637719227428, (-17)); (61707177887269093, (-19)); (74217051072320039, (-17)); (4579782902224141, (-18)); (67019546298183219, (-17)); (1940740705960585, (-16)); (9556654590367174, (-16)); ((-22144702645647862), (-17)); ((-64149683408037184), (-17)); (29441901431923301, (-17)); (70837790470352147, (-17))];
  [(91903139640473774, (-17)); (53161637957575036, (-17)); (72215502275943921, (-17)); (45517519263958778, (-17)); (40095831770673213, (-17)); (79501444733243776, (-17)); ((-26736219573658848), (-17)); (91321567907786949, (-17)); ((-30749728417866717), (-17)); ((-84931325216107667), (-17)); ((-72591672718936018), (-18)); (52287421886668173, (-17))];
  [(27962454770466083, (-17)); (63233779163055248, (-17)); (63812779586495449, (-17)); (7720149531026711, (-16)); (5725554849255079, (-16)); (27599479862417164, (-17)); ((-3494928794977944), (-16)); (74508016368799113, (-17)); ((-56807594286241048), (-17)); ((-53089324667603444), (-17)); (34210490549010386, (-17)); (77531709272618665, (-17))];
  [(23883473261743116, (-17)); (57610585185755903, (-17)); (84486714089658654, (-17)); (644987355299663, (-15)); (72665374437450836, (-17)); (23657059684173157, (-17)); ((-54161639841248377), (-17)); (65306525495635381, (-17)); ((-52929901732336726), (-17)); ((-53911314997339477), (-17)); (21326065871439875, (-17)); (81478641555346554, (-17))];
  [(90693433038073201, (-17)); (83198897006688377, (-17)); (1758944527010492, (-16)); (60665607555850176, (-17)); (10782169877908192, (-17)); (78761849093349146, (-17)); (45544169832548975, (-17)); (7649061109097508, (-16)); ((-45551234990866457), (-17)); ((-6515683121625474), (-16)); (63505363770733014, (-17)); (41492844180694105, (-17))];
  [(5018664008363386, (-16)); (94346772095905829, (-17)); (88950659219802575, (-17)); (55213292495504107, (-17)); (68097575984544212, (-17)); (48106262345303219, (-17)); ((-21066154848091226), (-17)); (6722031119784897, (-16)); ((-70976382567587815), (-17)); ((-80670375304210373), (-17)); (2905425799247966, (-16)); (51460087842757118, (-17))];
  [(65225240956842112, (-17)); (50475636640071608, (-17)); (37691895463389502, (-17)); (73893182611513519, (-17)); (2925021251509865, (-16)); (60697797582474788, (-17)); ((-49231816597464395), (-18)); (92188575227801051, (-17)); ((-38432133427812754), (-17)); ((-67197915487659676), (-17)); (25410463696863789, (-17)); (69561113338011737, (-17))];
  [(65733736735758075, (-17)); (26735372101623911, (-19)); (23455709522557011, (-17)); (76994524616505067, (-17)); (18398262017428657, (-17)); (61101122197685009, (-17)); ((-23082257267872056), (-17)); (97299355633722084, (-17)); ((-21164281760120808), (-19)); ((-59489936783443975), (-17)); ((-13940564837929509), (-17)); (79161910496787036, (-17))];
  [(20264847500674432, (-17)); (53295676803616288, (-17)); (31385582158151715, (-17)); (93168682624203447, (-17)); (30241086982983095, (-17)); (20126431282224394, (-17)); ((-16864689648379516), (-17)); (85080404366300277, (-17)); ((-49768534596978781), (-17)); ((-32174194957050462), (-17)); (42974427872334536, (-17)); (84368357385403836, (-17))];
  [(13933810121127521, (-17)); (94468144472255255, (-17)); (16556611305326996, (-17)); (97676588870448855, (-17)); (16321340688310312, (-17)); (138887661356009, (-15)); (14423855163857149, (-18)); (59653574333939841, (-17)); ((-80245688938454718), (-17)); ((-21382317710094684), (-17)); (78581581221818253, (-17)); (58032159894521862, (-17))];
  [(46910544920852337, (-17)); (58284042198398633, (-17)); (96830774437062006, (-17)); (50547635151683468, (-17)); (73492149238171323, (-17)); (45208855116300467, (-17)); ((-54688983706953009), (-17)); (67815157689557903, (-17)); ((-49093985870379508), (-17)); ((-66738681749588991), (-17)); (91585450524916956, (-20)); (74471068009209662, (-17))];
  [(68995979320329159, (-17)); (8256669329951899, (-16)); (13945390144210257, (-17)); (76378414349064017, (-17)); (10720855693397881, (-17)); (63650617237573048, (-17)); (36903756820719369, (-17)); (73651404493509176, (-17)); ((-56688476330297555), (-17)); ((-52957063306417418), (-17)); (66787228339966587, (-17)); (52297376383765792, (-17))];
  [(97650412717815926, (-17)); (10730519514558279, (-17)); (61763753332883697, (-17)); (456476139513387, (-15)); (32425712702725434, (-17)); (82854501967423944, (-17)); ((-50343745558442843), (-17)); (86194816842673927, (-17)); ((-59967351621244794), (-18)); ((-73360770331944536), (-17)); ((-38974693137704164), (-17)); (55670195536979039, (-17))];
  [(58023666928296569, (-17)); (46023488331004403, (-17)); (76438830804434676, (-17)); (60366999168702939, (-17)); (57882234264539434, (-17)); (54822188645755443, (-17)); ((-44432393126952396), (-17)); (81522415395659309, (-17)); ((-3714644302042292), (-16)); ((-66193563526809562), (-17)); ((-19346174305400976), (-18)); (74931097703287897, (-17))];
  [(435421154437443, (-15)); (83927202502038578, (-17)); (82653436958867965, (-17)); (61421987231936004, (-17)); (66695217760271064, (-17)); (42179229632485166, (-17)); ((-27874507013287153), (-17)); (68341200790599288, (-17)); ((-67472158208146837), (-17)); ((-73826494859542779), (-17)); (29685488077662037, (-17)); (60567486775867541, (-17))];
  [(73875155065278009, (-17)); (28706799062138622, (-17)); (86938894707772163, (-17)); (47707178618367579, (-17)); (56478446086537026, (-17)); (67336544579635971, (-17)); ((-60964302641266954), (-17)); (7645368896035829, (-16)); ((-20932922581827931), (-17)); ((-63303861744282097), (-17)); ((-31064748059543662), (-17)); (70905588751930526, (-17))];
  [(95337837509261536, (-17)); (44873114604270425, (-17)); (72782793285053837, (-17)); (43224267868602506, (-17)); (38513405561520847, (-17)); (81537600279117317, (-17)); ((-33528742404407014), (-17)); (90802211381616926, (-17)); ((-25115370612178456), (-17)); ((-83710728703089299), (-17)); ((-16482596890720008), (-17)); (52161651620091654, (-17))];
  [(61331342270103839, (-17)); (32027575589672397, (-18)); (49275865695421428, (-17)); (72045919069787223, (-17)); (38684111021449546, (-17)); (575580150793079, (-15)); ((-45657700772237658), (-17)); (88929845011988529, (-17)); ((-2618592434210848), (-17)); ((-52199232806454909), (-17)); ((-24393077309430714), (-17)); (81732599822798113, (-17))];
  [(81398577503525682, (-17)); (65526556490922516, (-17)); (51787087333005777, (-17)); (59657498188455282, (-17)); (33989153022558111, (-17)); (72702959958337199, (-17)); ((-75657992110432781), (-19)); (90823271564894359, (-17)); ((-4183970517430104), (-16)); ((-80252168174557348), (-17)); (24410465359320394, (-17)); (54440046695644773, (-17))];
  [(79926890375709947, (-17)); (14409158216387985, (-17)); (41405725341176858, (-17)); (6383121864996476, (-16)); (28051486817612586, (-17)); (71684653957326872, (-17)); ((-30392149708258109), (-17)); (9474218408049816, (-16)); ((-10011782646853078), (-17)); ((-70724060699108748), (-17)); ((-15395864476485538), (-17)); (69000540543175992, (-17))];
  [(88638436675461851, (-17)); (24932769262030485, (-17)); (53639855798657177, (-17)); (5434255635919647, (-16)); (32309076176789414, (-17)); (77479095018914457, (-17)); ((-33091040383870635), (-17)); (93067820150958713, (-17)); ((-15600124956610006), (-17)); ((-77148361062699178), (-17)); ((-17161131925115622), (-17)); (61266842063127258, (-17))];
  [(12893560065637533, (-17)); (1504498807695378, (-16)); (70546304568518181, (-17)); (7549919943430119, (-16)); (64300436922467585, (-17)); (12857865155591783, (-17)); ((-62639028412126807), (-17)); (76520697498523582, (-17)); ((-14863881522812783), (-17)); ((-19396468863285005), (-17)); (31680697465825775, (-18)); (98049682965914797, (-17))];
  [(45823148008021053, (-17)); (92522668789013696, (-17)); (96132717525143552, (-17)); (51337799765473879, (-17)); (7353626652380677, (-16)); (44236272684074157, (-17)); ((-29106358007689043), (-17)); (63412807239580804, (-17)); ((-71635436772061389), (-17)); ((-80729488037323416), (-17)); (23900489194479344, (-17)); (53958469006229515, (-17))];
  [(55242739621728454, (-17)); (57234697213949615, (-17)); (89708157155456347, (-17)); (53109128098725999, (-17)); (66526245527440975, (-17)); (52475510179661466, (-17)); ((-47964475624646635), (-17)); (74657825287082269, (-17)); ((-46104427135104709), (-17)); ((-69848619103356602), (-17)); ((-68394402266614418), (-19)); (71559084887441571, (-17))];
  [(86021706893769234, (-17)); (12236515982838569, (-17)); (365502558891595, (-17)); (65226859179273278, (-17)); (23840690102858871, (-19)); (75798416894792697, (-17)); (88891258000687062, (-18)); (99285425170624697, (-17)); ((-79616450058288699), (-18)); ((-75275761597726842), (-17)); (11930947608544297, (-17)); (64739572172237636, (-17))];
  [(35385601151929691, (-17)); (67941179046612099, (-17)); (20410632563351572, (-17)); (91857209157342801, (-17)); (1901340258275494, (-16)); (34651748124016252, (-17)); (5552693585940513, (-17)); (8059263209302947, (-16)); ((-58940607786637655), (-17)); ((-39133370922587679), (-17)); (56065302768679348, (-17)); (72974386641420186, (-17))];
  [(57808624015165977, (-17)); (39706879492551994, (-17)); (20370331656022767, (-17)); (820193652399138, (-15)); (169426123699288, (-15)); (5464221455728121, (-16)); (20383208973620864, (-18)); (945878846057159, (-15)); ((-32387919564787598), (-17)); ((-57172274517995136), (-17)); (27678149719555134, (-17)); (77235037738974999, (-17))];
  [(38682900968945622, (-17)); (92079146534325051, (-17)); (45846903679769446, (-17)); (83047163671796653, (-17)); (40987383247581405, (-17)); (37725363094153247, (-17)); (14676798686693027, (-19)); (67560924897831343, (-17)); ((-73725842729043278), (-17)); ((-55705897939337157), (-17)); (61282590035551499, (-17)); (56047275520819706, (-17))];
  [(28259563485602712, (-17)); (19908905786049558, (-17)); (69034440645069683, (-17)); (74044387605451423, (-17)); (61154391051358536, (-17)); (27884926380953395, (-17)); ((-58170210820493495), (-17)); (79091632313288085, (-17)); ((-18993163799614499), (-17)); ((-33669797107096044), (-17)); ((-21573486406151532), (-18)); (9413655299409377, (-16))]
].

(** test_data.rs:2006-6007 [NUMAT_DATA] *)
Definition NUMAT_DATA : list (list (Z * Z)) := [
  [(25910882569679461, (-16)); (25940877434201535, (-16)); (63364839625486935, (-17)); ((-85382601861277829), (-17)); (44365157106040254, (-17)); ((-27231307980978092), (-17)); ((-51876022440034186), (-17)); ((-76861262296633681), (-17)); (37432935417478919, (-17)); ((-43231464466966026), (-18)); (46087733651422302, (-17)); (88641024428173043, (-17))];
  [(27660033045504675, (-16)); (50938392863388851, (-16)); (41065337946494349, (-16)); (37226692669660749, (-17)); ((-86342755073180932), (-17)); (3404558707455807, (-16)); ((-77155196356341682), (-17)); ((-84006338814337167), (-18)); (63059535564452651, (-17)); ((-51587295219782425), (-17)); ((-49742919061538771), (-17)); ((-69745200373532645), (-17))];
  [(60550231501973126, (-16)); (47603304134567646, (-16)); (48173355103660196, (-16)); (47923070569215527, (-18)); (97296454391554232, (-17)); ((-22592781057328629), (-17)); (12276287195887749, (-17)); (21873556782151754, (-17)); (96803100603142178, (-17)); (99127829421188596, (-17)); ((-74126565096590394), (-18)); ((-10896144167252332), (-17))];
  [(16155226781829684, (-16)); (54455736958482417, (-16)); (31634767681613165, (-16)); (66923941760365113, (-17)); ((-33222694638345082), (-18)); (7423037481290885, (-16)); ((-49458103209394338), (-18)); ((-99877619295188902), (-17)); ((-11144263121611736), (-20)); (74139901399479535, (-17)); ((-36638353586077421), (-18)); ((-67006352914783152), (-17))];
  [(39502811816594758, (-16)); (53435090584294311, (-16)); (38024431255119057, (-17)); (5900494420615815, (-16)); ((-55744478433656242), (-17)); ((-58403507457924109), (-17)); (30086566009807764, (-17)); (82309551064763864, (-17)); ((-48165717572299405), (-17)); (7492139283919943, (-16)); (10848544956659634, (-17)); (65338303982868196, (-17))];
  [(36164137426447294, (-16)); (29185877674503722, (-16)); (3247766428739987, (-15)); ((-9752372892958685), (-16)); (19669504422031459, (-17)); (10111028209838546, (-17)); (18487232423714459, (-17)); (47410809648896229, (-17)); (86083897249994967, (-17)); (12138555638132022, (-17)); (85821475891689336, (-17)); ((-49873136484405711), (-17))];
  [(60292773943240769, (-16)); (66292026828932005, (-17)); (34648924542580017, (-16)); (78819839983033735, (-17)); ((-59568970687062417), (-17)); (15458672528158915, (-17)); ((-61394011947452554), (-17)); ((-74367477661918568), (-17)); (26462304570843687, (-17)); ((-42670976137193298), (-18)); ((-30348245377417471), (-17)); ((-95188107873132188), (-17))];
  [(33047273593272459, (-16)); (69142070313225223, (-17)); (61988038469656248, (-17)); (77034090659240417, (-17)); (62916641921190819, (-17)); (10355918388273511, (-17)); ((-45194727321807493), (-17)); (65332914275031073, (-17)); ((-60737524930136133), (-17)); ((-44979834355090664), (-17)); (42108270941610682, (-17)); (7876362116927148, (-16))];
  [(6039893471106093, (-15)); (48004441507949673, (-16)); (50346909922766399, (-16)); (87941422097373434, (-18)); (96678998198726407, (-17)); ((-23996549128688743), (-17)); ((-78622201694781638), (-18)); (24688391905098953, (-17)); (96585034032954076, (-17)); (99301805405549237, (-17)); ((-66071637206066902), (-18)); (97722479894613828, (-18))];
  [(55616657119436175, (-16)); (61760799894639984, (-16)); (67156580218183204, (-17)); (99426970654719515, (-17)); (80261320023070737, (-18)); ((-70610701389439409), (-18)); ((-10676730659585142), (-17)); (77855141031819231, (-17)); ((-61843224668012031), (-17)); (53378726869250251, (-19)); (6224273628301602, (-16)); (78265936723166496, (-17))];
  [(1158562683625141, (-15)); (61936926823895257, (-16)); (17251678059004383, (-16)); (99599820696395014, (-17)); (35807991397053866, (-18)); (81886259388891464, (-18)); (86418301942185555, (-18)); ((-15220874798184747), (-17)); ((-98456303715263849), (-17)); ((-22791419745718928), (-18)); (98769949113579436, (-17)); ((-1546941058866417), (-16))];
  [(48755702820607043, (-16)); (44157275031656242, (-16)); (45657180379894289, (-16)); ((-29232915306032597), (-17)); (15536153152438228, (-17)); ((-94361351240506874), (-17)); (95618742496886233, (-17)); (63775041677224975, (-18)); ((-28572425936641166), (-17)); (15788432551990372, (-18)); ((-98579690534179842), (-17)); ((-16719804668740801), (-17))];
  [(60880512678990186, (-16)); (45998076116446267, (-16)); (16238016864430649, (-16)); ((-11234369943624707), (-17)); (97481124075307735, (-17)); ((-19267054289232666), (-17)); ((-14075391710954654), (-17)); ((-20755444766300901), (-17)); ((-96804415502270458), (-17)); ((-98364995197239602), (-17)); ((-81634527969168605), (-18)); (16052593506332224, (-17))];
  [(18923199971384528, (-16)); (28377827555642328, (-16)); (35227567449047434, (-16)); ((-95420365649708339), (-17)); (94537605394389324, (-18)); ((-2838274530306939), (-16)); (19333702394009294, (-17)); ((-52912570130488101), (-17)); ((-82622441708812133), (-17)); ((-22828967804433023), (-17)); ((-84326071495410759), (-17)); (48661605965432686, (-17))];
  [(16767851842838524, (-16)); (13768916798428182, (-17)); (62543621314410931, (-16)); (99053581277443636, (-17)); (14520228392342379, (-18)); ((-13648430891029578), (-17)); ((-10580830740782525), (-18)); (99950745774924021, (-17)); (29544676753787066, (-18)); (13684608007583463, (-17)); ((-27820943030117951), (-18)); (99020156811469107, (-17))];
  [(25678637013621426, (-16)); (60555829783049786, (-16)); (13426153320455747, (-18)); (97421021088865656, (-17)); ((-18951313372045786), (-17)); (12247137276821574, (-17)); (19114032303468004, (-17)); (98156146905547215, (-17)); ((-15682397334298992), (-19)); ((-11991597854530298), (-17)); (24937012914846068, (-18)); (99247080736735382, (-17))];
  [(27152657181598756, (-16)); (30283780696453935, (-16)); (51242090156156328, (-16)); ((-99359807145808865), (-17)); (10286077193370625, (-17)); ((-46717598311225496), (-18)); (16388288620084806, (-19)); (42660917481420568, (-17)); (90443458923479014, (-17)); (11296099607708848, (-17)); (89856790147519983, (-17)); ((-42404662456353481), (-17))];
  [(26331816271832964, (-17)); (1798173451746748, (-15)); (5501166608576364, (-15)); ((-22542293698842794), (-17)); ((-94067980770704995), (-17)); ((-25358627496719655), (-17)); (84611072809310894, (-17)); ((-31806099594469939), (-17)); (42770765560650759, (-17)); ((-48299185840473569), (-17)); ((-11814695184766003), (-17)); (86761752084881638, (-17))];
  [(51118614879767206, (-16)); (60468579810649006, (-16)); (14344471065827809, (-16)); (97220442616296165, (-17)); (91062160493417255, (-18)); ((-21569941278412769), (-17)); ((-22607528978414573), (-17)); (12548860765132333, (-17)); ((-96599305002611002), (-17)); ((-60897595175515039), (-18)); (98790702612948522, (-17)); (14258748411356353, (-17))];
  [(39330114166983052, (-16)); (11730566145266001, (-16)); (64416459689764782, (-17)); (38733548646704274, (-17)); (64797252845666098, (-17)); (65582224976652104, (-17)); ((-12427858801394961), (-17)); (74155584982493172, (-17)); ((-65927972375288657), (-17)); ((-91352397532007801), (-17)); (17385776932856689, (-17)); (36776000674284381, (-17))];
  [(21035762953938884, (-16)); (61986049438181456, (-17)); (1185050021341761, (-16)); (8139595064117523, (-16)); (29506749301891699, (-17)); ((-50040493251512619), (-17)); ((-35215982384670874), (-17)); (9357024627325834, (-16)); ((-2107984118615347), (-17)); (46201015182590055, (-17)); (19338065001367055, (-17)); (86553483107850626, (-17))];
  [(22007400839146918, (-16)); (32135102846554147, (-16)); (22141837927395098, (-16)); ((-99741504160758443), (-17)); ((-42330115307586416), (-18)); (58063724587620491, (-18)); (2106071787773222, (-17)); ((-94478991971282011), (-17)); ((-32699916478718627), (-17)); (68699934042291314, (-18)); ((-32493102182938649), (-17)); (94323917969701387, (-17))];
  [(28148484937619284, (-17)); (10878193096308868, (-16)); (15964602460645308, (-17)); (46441772446279361, (-17)); ((-85076198459139207), (-17)); ((-24600858273425455), (-17)); (80083569368049778, (-17)); (52203346753521462, (-17)); ((-29350170442509516), (-17)); (37812480602583681, (-17)); ((-60705060310288744), (-18)); (92376215917337046, (-17))];
  [(68670498727960749, (-17)); (60426771865827744, (-17)); (27961050877679341, (-16)); (82291837092388809, (-17)); ((-43938011950362471), (-17)); ((-36020891907468733), (-17)); ((-53540406687658437), (-17)); ((-81186138725229617), (-17)); ((-23285955651592055), (-17)); ((-19012585297109955), (-17)); (38448172709994644, (-17)); ((-90334155310062769), (-17))];
  [(45384919153551513, (-16)); (5382924768001015, (-16)); (90478801150885724, (-17)); (85858532968824219, (-17)); (88703277887322809, (-18)); (50493857065605208, (-17)); (34222474455373109, (-17)); (6341853772883177, (-16)); ((-69331892477330204), (-17)); ((-38172431918763822), (-17)); (76807593096367666, (-17)); (51414580462648474, (-17))];
  [(41454639642622961, (-16)); (27057927627538034, (-16)); (39285298693956734, (-16)); ((-90653266989783288), (-17)); (22670401941014146, (-17)); (35609522039925356, (-17)); ((-92127532525391104), (-18)); ((-9294720243412512), (-16)); (3572034066435531, (-16)); (41195999339582695, (-17)); (29101038392171297, (-17)); (86348243774326272, (-17))];
  [(46292949961292127, (-16)); (31670993904741587, (-16)); (42277482395701504, (-16)); ((-99967472082270958), (-17)); ((-211678868595188), (-17)); ((-25415974380235552), (-18)); (21502939559506978, (-18)); ((-60582315762798533), (-17)); ((-79530869809901961), (-17)); ((-13714085399251157), (-18)); ((-79559651890095406), (-17)); (60567161314886298, (-17))];
  [(98321661693935614, (-17)); (43398274337610721, (-16)); (1953449837051453, (-16)); ((-36400244294450679), (-17)); (51631887342814153, (-17)); (77518839160060049, (-17)); ((-35603096474293044), (-17)); (69194583921759811, (-17)); ((-62805486044904724), (-17)); ((-8606649601759383), (-16)); ((-50460457442570683), (-17)); ((-68044469238888405), (-18))];
  [(2357156505301381, (-15)); (51423368080943108, (-16)); (25057126814535526, (-16)); (41682337903684535, (-17)); ((-64336926239454351), (-17)); (64213258980852805, (-17)); ((-13626897854055803), (-17)); ((-74267064629780943), (-17)); ((-65564554190134405), (-17)); (89871521416732414, (-17)); (18578563812495053, (-17)); ((-39723376051222736), (-17))];
  [(20845187541742329, (-16)); (1343230943561548, (-16)); (31478775315821133, (-16)); (99099220912261232, (-17)); (65811083375186541, (-18)); ((-11663336899562136), (-17)); (66542805288983792, (-18)); ((-99778071669687507), (-17)); (23867241446563492, (-19)); ((-11621745360554464), (-17)); ((-10126336595953134), (-18)); ((-99317217076627184), (-17))];
  [(30197593776514231, (-16)); (33538994446054637, (-16)); (2463157135757525, (-15)); ((-9775474395371716), (-16)); ((-20915352825975803), (-17)); (25608691313975609, (-18)); ((-14676623641665926), (-17)); (58862381020601851, (-17)); ((-79497275544929102), (-17)); (15119747121697891, (-17)); ((-7808820728349728), (-16)); ((-60610437469345746), (-17))];
  [(40513284877856632, (-16)); (49539750414109189, (-16)); (52239065515283247, (-16)); (23924292810536138, (-17)); ((-59612489728178919), (-17)); ((-76641889863986867), (-17)); (96012313220042056, (-17)); (27643908139923123, (-18)); (27820745021728899, (-17)); ((-14465957405310831), (-17)); ((-80241567855041795), (-17)); (57896691308851622, (-17))];
  [(38771125016143437, (-16)); (57723293869450911, (-16)); (61081195744196105, (-18)); (87232634722708957, (-17)); ((-36252841986903234), (-17)); ((-32805470385395441), (-17)); (34182683328564378, (-17)); (93194904349937091, (-17)); ((-1209355049872296), (-16)); (34957282500124603, (-17)); ((-66426732472834038), (-19)); (93688564665746599, (-17))];
  [(29071562379026146, (-16)); (49293088587657469, (-17)); (20422222053639064, (-17)); (88094972015860928, (-17)); (46026541944310995, (-17)); ((-10992422033985974), (-17)); ((-47299390037631545), (-17)); (86347815993363619, (-17)); ((-17516345944409156), (-17)); (1429548037906069, (-17)); (20630368630366214, (-17)); (97838357930734521, (-17))];
  [(54712396033559978, (-16)); (27973867826621861, (-16)); (40019263185562277, (-16)); ((-94134372765151442), (-17)); ((-23219472905942387), (-17)); (24486239851837624, (-17)); ((-33705426144497375), (-17)); (68206699417109629, (-17)); ((-64898308167793473), (-17)); ((-16322109328595964), (-18)); ((-69344806817773053), (-17)); ((-72032170971562348), (-17))];
  [(94452624380805272, (-17)); (29534865356026176, (-16)); (39703829908715984, (-16)); ((-98236015024710355), (-17)); ((-1096049815371664), (-16)); ((-15151001032514519), (-17)); (37612689594324893, (-18)); ((-909473881398978), (-15)); (41405620951092931, (-17)); ((-18317702036000355), (-17)); (40105362119711008, (-17)); (89755343692546563, (-17))];
  [(25783156411549721, (-16)); (17437841039373068, (-16)); (28460008179163299, (-16)); ((-17212629719536438), (-17)); (83289053294834703, (-17)); ((-52599039719260243), (-17)); (64354379619313984, (-17)); ((-30918629863072522), (-17)); ((-70018227278356215), (-17)); ((-74580421036297173), (-17)); ((-45901763894653386), (-17)); ((-48278244266005976), (-17))];
  [(31617852089345533, (-16)); (56584983510955134, (-16)); (35489875755892792, (-16)); (81114624090797516, (-17)); ((-58472414944441564), (-17)); ((-11808679746939931), (-18)); ((-53218923418206121), (-17)); ((-74634012093237623), (-17)); (39968868248595296, (-17)); ((-24252091637954082), (-17)); ((-31792152010071678), (-17)); ((-91657488083368133), (-17))];
  [(14281924439474307, (-18)); (57048408682250153, (-16)); (98275562480108469, (-17)); (83736879025983557, (-17)); (54658262252431666, (-17)); (78067825139415039, (-19)); ((-29671134361868551), (-17)); (46646585717434014, (-17)); ((-83328985512761533), (-17)); ((-45910335183569934), (-17)); (69545455699495451, (-17)); (55278121484740916, (-17))];
  [(53965938877791053, (-17)); (25627465448055681, (-17)); (39069719401326369, (-17)); (96734098393284396, (-17)); ((-21745520653504374), (-17)); ((-130248431678231), (-15)); (15146567967035918, (-17)); (90790188289432727, (-17)); ((-39086099692720866), (-17)); (20324755517799831, (-17)); (3583676941183967, (-16)); (91118770136916893, (-17))];
  [(28340418983628712, (-16)); (52621216035531422, (-16)); (18104370706322823, (-16)); (52245926494429862, (-17)); ((-81265542854066675), (-17)); (25812297638383236, (-17)); (57859941932882616, (-18)); ((-26823802237406774), (-17)); ((-96161353488414081), (-17)); (85069885599628414, (-17)); (51733888102116821, (-17)); ((-93123244092862947), (-18))];
  [(35013975093385291, (-17)); (92294239658489152, (-18)); (30734151045134337, (-16)); (99574390914568078, (-17)); ((-86571238849771609), (-18)); ((-31614680186489968), (-18)); ((-88523859507961516), (-18)); ((-99383682924490724), (-17)); ((-66722433515601975), (-18)); ((-25643589785615799), (-18)); (69237110283756231, (-18)); ((-99727058959063963), (-17))];
  [(3969153991753826, (-16)); (3027999951777095, (-16)); (32752427210692163, (-16)); (9545052901495511, (-16)); ((-27501172918611061), (-17)); ((-11527445461413659), (-17)); ((-25719859277749274), (-17)); ((-95489258514100062), (-17)); (14842181347771755, (-17)); ((-1508924615406573), (-16)); ((-11202097862812244), (-17)); ((-98218265378563829), (-17))];
  [(60166815427883762, (-16)); (16451956098864857, (-16)); (43805408194777105, (-16)); ((-74330665605254892), (-18)); ((-962028868656292), (-15)); (26263169653066387, (-17)); ((-56172325852706728), (-17)); (25799637617619031, (-17)); (78606924040423265, (-17)); ((-82397932800551099), (-17)); ((-89097282516632598), (-18)); ((-55957103326364022), (-17))];
  [(70828343595219267, (-17)); (50963577699422702, (-16)); (51352569467841462, (-16)); (37460321301126381, (-17)); (70417832754577792, (-17)); (60316276063469698, (-17)); ((-83901254545821058), (-17)); ((-19429786714055042), (-18)); (54376505216129911, (-17)); (3946268888017791, (-16)); ((-70975725878857876), (-17)); (58353599051948013, (-17))];
  [(46344222642443382, (-16)); (48193514348905415, (-16)); (38945657310226824, (-16)); (10675861216890825, (-17)); ((-77442618416257367), (-18)); ((-99126446500447229), (-17)); (62133094683332468, (-17)); ((-77313512568681952), (-17)); (12731823096646525, (-17)); ((-77624123391827937), (-17)); ((-62949560624523815), (-17)); ((-34421337611534236), (-18))];
  [(86803193321827721, (-17)); (50487378187393279, (-16)); (35998680351800423, (-16)); (33004272726028311, (-17)); (61011311421991854, (-17)); (72030117731367549, (-17)); (22849694151504424, (-17)); ((-79200139054196306), (-17)); (56614745879308459, (-17)); (91589352323338591, (-17)); ((-22266235345687974), (-18)); ((-4008032795058763), (-16))];
  [(18217542919123051, (-16)); (55208102412318976, (-16)); (49650208788497334, (-16)); (72319773403767562, (-17)); ((-1715082898358703), (-16)); (66900668457074963, (-17)); ((-60490198174540799), (-17)); (31015851794283833, (-17)); (73341344835500533, (-17)); ((-33328460805031096), (-17)); ((-93508641326086916), (-17)); (1205602329612607, (-16))];
  [(19103440443335347, (-16)); (54337192955708762, (-16)); (1737834638325503, (-15)); (6603842267858816, (-16)); ((-25010453855292697), (-17)); (70805394766757768, (-17)); (65661587025340951, (-17)); ((-26516900590500203), (-17)); ((-70607435673497632), (-17)); (36434636260537995, (-17)); (9311998271598747, (-16)); ((-10890819695898113), (-18))];
  [(46198313320760969, (-16)); (10417709193102127, (-16)); (44778869404869885, (-16)); (50469221593938585, (-17)); (79790916579956725, (-18)); (85960408142442113, (-17)); ((-81753674918443253), (-17)); ((-27571107517062243), (-17)); (50558586487480994, (-17)); (2773435250788136, (-16)); ((-95792317680469019), (-17)); ((-7391722693166794), (-17))];
  [(11473616526911203, (-16)); (27031776871337878, (-16)); (23811830581185247, (-16)); ((-90542565475937387), (-17)); ((-17442659047362766), (-17)); ((-3870138863649526), (-16)); ((-39311848774422214), (-17)); (48764810582263562, (-20)); (91948769257289165, (-17)); ((-16019437660933969), (-17)); (98467005983480071, (-17)); ((-69011846574879909), (-18))];
  [(12338836937744708, (-16)); (45412859250783768, (-16)); (49729154333310879, (-16)); ((-17026940042879982), (-17)); (32574767460096798, (-17)); (9299982708423058, (-16)); ((-98252412472725481), (-17)); ((-12814429798870064), (-17)); ((-1350014193330013), (-16)); (75197577132237417, (-18)); ((-93673234778406411), (-17)); (34187400165616022, (-17))];
  [(21300979540316831, (-16)); (35972637952272444, (-16)); (92906318163089607, (-17)); ((-8979658844414744), (-16)); ((-23349605067310281), (-17)); (37301054234338266, (-17)); (43857081034965145, (-17)); ((-40504582494854169), (-17)); (80224280863152975, (-17)); ((-36234164658381661), (-18)); (88397820901412438, (-17)); (46612188459638981, (-17))];
  [(86925150603286683, (-17)); (33017884302509546, (-16)); (54178417171299555, (-16)); ((-98719607366980211), (-17)); (10294846364355645, (-17)); (12184221749606315, (-17)); ((-15951026160840207), (-17)); ((-63414492401377465), (-17)); ((-75658224390292372), (-17)); ((-6233558740897276), (-19)); ((-76633010457699968), (-17)); (64244671549200016, (-17))];
  [(84685681294815818, (-17)); (39968495768152077, (-16)); (23544203631164218, (-17)); ((-65602462128901329), (-17)); (49989513177872957, (-17)); (56545252098344501, (-17)); ((-35419896481708535), (-17)); (45765837919290875, (-17)); ((-81553166785663511), (-17)); ((-66646439483674746), (-17)); ((-73529155114039368), (-17)); ((-12317282669664514), (-17))];
  [(6074533239946855, (-15)); (60278998103856685, (-16)); (6262838607533916, (-15)); (96759124099775562, (-17)); (24704472482458395, (-17)); ((-52307688543547226), (-18)); ((-24592937439428389), (-17)); (96891487466332993, (-17)); (26883237643182539, (-18)); (57323059535053483, (-18)); ((-1314798815367893), (-17)); (99826910062019425, (-17))];
  [(18182411001067704, (-16)); (44556325447428735, (-16)); (49793007749670632, (-16)); ((-25394465696549945), (-17)); ((-23689833837365587), (-17)); (9377586515060663, (-16)); ((-84206978904772933), (-17)); (53114008809793478, (-17)); ((-93854553370792168), (-18)); ((-47584722503319027), (-17)); ((-81349209221179219), (-17)); ((-33436512129271717), (-17))];
  [(34851676875779152, (-16)); (12969704674005952, (-17)); (52048806534728964, (-16)); (99160112129718259, (-17)); (12177501245384062, (-17)); (43566760081938577, (-18)); ((-9596719206324919), (-17)); (46695506534851627, (-17)); (87905816928850533, (-17)); (8670360021167331, (-17)); ((-87585604598428735), (-17)); (47471957240365004, (-17))];
  [(37486810137261597, (-16)); (60484056290424096, (-18)); (1061402509185569, (-15)); (99817139703737456, (-17)); (49646029876381455, (-18)); (3448382017656005, (-17)); (58959708571844037, (-19)); (48779460457954432, (-17)); ((-87293852089980384), (-17)); ((-60158953316253115), (-18)); (87154557853310199, (-17)); (48660991037513146, (-17))];
  [(48409899113651793, (-16)); (3318281844221171, (-15)); (61979276557810143, (-16)); ((-9844310323181461), (-16)); (2254209577699012, (-17)); ((-17431981105717786), (-17)); ((-76161185188887764), (-19)); (98534049338649099, (-17)); (17042918421318864, (-17)); (17560619962784751, (-17)); (16910341809333054, (-17)); ((-96982807581623298), (-17))];
  [(6027578735978345, (-15)); (95488894482931386, (-17)); (27010618876712067, (-17)); (57769941016229687, (-17)); ((-78972973196682428), (-17)); (20637427636636785, (-17)); (81616378676422674, (-17)); (55520542466974721, (-17)); ((-16007376297183548), (-17)); (1183489217576757, (-17)); (26090972934119055, (-17)); (96529065491296173, (-17))];
  [(16617633562851197, (-16)); (28085767081302957, (-16)); (54710759441068035, (-17)); ((-94506074634699255), (-17)); (29695650668336519, (-18)); ((-32554316771428266), (-17)); ((-19471486505166144), (-17)); (74878590501968845, (-17)); (63356593166911968, (-17)); (26257628804212069, (-17)); (66214638621322275, (-17)); ((-70186598163950853), (-17))];
  [(45756867360946032, (-16)); (40871707043719603, (-16)); (59626876697064004, (-16)); ((-58527427279694344), (-17)); ((-11049810976966437), (-17)); ((-80327093395649529), (-17)); (3579329978858527, (-16)); (85371231197937514, (-17)); ((-37823175091374356), (-17)); (72755617970467079, (-17)); ((-50888648647037305), (-17)); ((-46010493288095), (-14))];
  [(56377887852636395, (-16)); (30893137801269144, (-16)); (19026090037652903, (-16)); ((-99863377090510719), (-17)); ((-41744548374052524), (-18)); (31432217371549095, (-18)); (16119102867133115, (-18)); ((-81826969026155172), (-17)); ((-57460846541103372), (-17)); (49706801653342222, (-18)); ((-57331675946226324), (-17)); (81782463107263093, (-17))];
  [(57724176783838932, (-17)); (62620597732715684, (-16)); (528488409055897, (-14)); (99977686420730805, (-17)); (177012689783979, (-16)); (11527656845877737, (-18)); ((-19278920220260218), (-18)); (5415603527690116, (-16)); (8404407816996059, (-16)); (86339464292260557, (-19)); ((-8404754900562289), (-16)); (54178077262283786, (-17))];
  [(59961712523010202, (-17)); (11726852663575726, (-16)); (3133682955335138, (-15)); (38767782005192541, (-17)); ((-760989416670665), (-15)); ((-52019324827897173), (-17)); ((-76508014050469519), (-17)); ((-58040599189577979), (-17)); (27889292421427947, (-17)); ((-51415784195624481), (-17)); (28986892259557073, (-17)); ((-8072284195122098), (-16))];
  [(35126361284408083, (-16)); (40203195896210919, (-17)); (51462457309556724, (-16)); (92026781099272126, (-17)); (36466167724295656, (-17)); (14187676765777665, (-17)); ((-28202610916287318), (-17)); (36681617525009397, (-17)); (88651405365360314, (-17)); (27123500843570342, (-17)); ((-85584330033321288), (-17)); (44041323262776505, (-17))];
  [(3601463992333151, (-16)); (1396745098063648, (-15)); (33036005939878339, (-16)); (17317377912288684, (-17)); ((-92170582144478297), (-17)); ((-34708676284049711), (-17)); ((-85365128848093319), (-17)); ((-31623291694117028), (-17)); (41385531278179982, (-17)); ((-49121311047155503), (-17)); (22462217378895782, (-17)); ((-84157861138647228), (-17))];
  [(1469158067398137, (-15)); (52135812443619685, (-16)); (37273666718756121, (-17)); (48047150768186858, (-17)); (88984412749828323, (-18)); (87248432913920015, (-17)); (23485450068737584, (-17)); (94545027098498846, (-17)); ((-22575904987684364), (-17)); ((-84497958189106293), (-17)); (31337766254470023, (-17)); (43336352731306838, (-17))];
  [(59242566377883046, (-16)); (1010679433317176, (-15)); (92446408370647715, (-18)); (5312852328880141, (-16)); ((-79320452733307079), (-17)); (29759465575417909, (-17)); (81728983010145961, (-17)); (57237439417050739, (-17)); (66519820434754406, (-18)); ((-22309938352190906), (-17)); (20788008734908806, (-17)); (95237205668576808, (-17))];
  [(20840226207348627, (-16)); (30020511419460929, (-16)); (59558879095890127, (-16)); ((-99027987102623261), (-17)); (68291416007563721, (-18)); ((-12116954873213787), (-17)); ((-25711941007876118), (-18)); (76626839581646289, (-17)); (64200595142293804, (-17)); (13669189123673564, (-17)); (63888107506213265, (-17)); ((-75706426332087429), (-17))];
  [(38472269694911874, (-16)); (25448849346279236, (-16)); (16400021487267462, (-16)); ((-82719010031036388), (-17)); (42773535576347765, (-17)); (36441597574533052, (-17)); (39312180188394774, (-17)); (90389605664791017, (-17)); ((-1686035813969442), (-16)); ((-40151187632752317), (-17)); (37926516118764186, (-19)); ((-91584596355593695), (-17))];
  [(37935213957783889, (-16)); (17531294946080791, (-16)); (4618711335557907, (-15)); ((-18132455649148646), (-17)); (78173800871341992, (-17)); (59666329780366301, (-17)); ((-52092288653686569), (-17)); ((-5909603037811989), (-16)); (61595881813391773, (-17)); (83412274366262507, (-17)); ((-19912710786733684), (-17)); (51438083500177623, (-17))];
  [(50719860052193875, (-16)); (36842253922083573, (-17)); (56534209856746731, (-16)); (9328966195372338, (-16)); ((-1267337113286886), (-16)); (3371089789205538, (-16)); ((-96119866064200046), (-18)); (81446859995371956, (-17)); (57219041501691392, (-17)); ((-34708049297504745), (-17)); ((-56619737380376867), (-17)); (74763337625731596, (-17))];
  [(96279820442575026, (-17)); (5187139745034079, (-15)); (53644749660663695, (-16)); (45711678979344655, (-17)); (50805175554332871, (-17)); (73001894097227082, (-17)); ((-88854243138069366), (-17)); (29703832235404753, (-17)); (34965780799115354, (-17)); ((-39199338323744067), (-18)); ((-80848725948058997), (-17)); (58720674649781224, (-17))];
  [(55535817154112967, (-16)); (19232991745340997, (-16)); (62134532687925157, (-16)); ((-34524783787373209), (-17)); ((-69960282677206154), (-17)); (62558757597642078, (-17)); (65431443469352835, (-17)); (298434591521897, (-15)); (69484488566502867, (-17)); ((-67281241887706089), (-17)); (64922467555977825, (-17)); (35472633063969056, (-17))];
  [(29706808270688301, (-16)); (2802677619595618, (-15)); (15951687854111996, (-16)); ((-94311593273335936), (-17)); (32762006891481721, (-17)); ((-56545803281375137), (-18)); ((-48544893468930393), (-18)); ((-30396118801146954), (-17)); ((-95144678752978407), (-17)); ((-32890079164175895), (-17)); ((-89457961447090129), (-17)); (30257492068993053, (-17))];
  [(1634522970387102, (-15)); (18043338825694517, (-16)); (188988405208193, (-14)); ((-23142048904112156), (-17)); (61954754926736154, (-18)); ((-97087906847039196), (-17)); ((-90243579367096771), (-17)); ((-38644529971041114), (-17)); (19044597300331961, (-17)); ((-36339261901340097), (-17)); (92022912292194847, (-17)); (14534154868062557, (-17))];
  [(49190668698403286, (-16)); (59190519493180602, (-16)); (46648441843938615, (-16)); (93443275763035272, (-17)); (7308327702867741, (-17)); ((-34856026177130989), (-17)); (35163979494945435, (-17)); ((-34241859934654451), (-18)); (93550892547111553, (-17)); (56434706300646183, (-18)); ((-99673784399257415), (-17)); ((-57695704153729765), (-18))];
  [(43884642948470622, (-16)); (33152854420843042, (-17)); (3558628022025534, (-15)); (94554592443806063, (-17)); (10359966661842103, (-17)); (30856119952956734, (-17)); ((-30262704842769095), (-18)); ((-91590526432871266), (-17)); (40025206491728493, (-17)); (32407880750547835, (-17)); ((-387794605237751), (-15)); ((-86289528372469637), (-17))];
  [(48166964801520648, (-18)); (55308606626824872, (-16)); (39342243959498395, (-16)); (73010232549627907, (-17)); (68254529527173358, (-17)); (32901583660170951, (-18)); (45569603932330638, (-17)); ((-52219607721028727), (-17)); (72086918139926004, (-17)); (50920694619179818, (-17)); ((-51131514435679448), (-17)); ((-69228975805035098), (-17))];
  [(38201338898960441, (-17)); (59919079552186458, (-16)); (20810271518486809, (-16)); (95787783222787448, (-17)); (26647519562036059, (-17)); (10705619386807309, (-17)); (22356144491658536, (-17)); ((-45795105644926049), (-17)); ((-86040752567827705), (-17)); ((-18025076663702835), (-17)); (8480989329176738, (-16)); ((-49823474498540021), (-17))];
  [(47918874326528336, (-16)); (55486897287000119, (-16)); (12107920503765304, (-16)); (74216891760450487, (-17)); (53224781412104544, (-18)); ((-66809611612805486), (-17)); ((-64401795860582967), (-17)); (33260292467081676, (-17)); ((-68892391705731826), (-17)); (18554289729045803, (-17)); (94156381469555894, (-17)); (28112526766729778, (-17))];
  [(40941902481292392, (-16)); (14893267215697805, (-16)); (33880998693064823, (-16)); (81379512140411739, (-18)); (57764588628479296, (-17)); (81222078590863744, (-17)); (36198732114319232, (-17)); ((-77640606609616969), (-17)); (51590580522091989, (-17)); (92862401128517236, (-17)); (25202946372860119, (-17)); ((-27228403382737987), (-17))];
  [(40249398362269888, (-16)); (43963433264512979, (-16)); (27706383023753793, (-16)); ((-31081050564446028), (-17)); ((-60313883871717855), (-17)); ((-73458857247572817), (-17)); ((-82840648446510434), (-17)); ((-20700830549846019), (-17)); (52047118839645956, (-17)); ((-46598232378192378), (-17)); (77030585009173425, (-17)); ((-43530376892148415), (-17))];
  [(15513930383124268, (-16)); (9017477394486263, (-16)); (5233440268999515, (-15)); (62023996824397709, (-17)); ((-15219219733307787), (-18)); ((-78426446887731671), (-17)); (68776570888546029, (-17)); (49133187844794568, (-17)); (53438873014135835, (-17)); (37720115518644776, (-17)); ((-87083945740390212), (-17)); (31521092613436941, (-17))];
  [(60057854593530218, (-16)); (17715150821679662, (-16)); (16356866895504591, (-16)); ((-19937370753598974), (-17)); ((-94246179382291795), (-17)); (26835776852448512, (-17)); (2066791944106578, (-16)); ((-30813842193817281), (-17)); ((-92861963339314235), (-17)); (95787986477486575, (-17)); ((-12967837178782002), (-17)); (25622194392624686, (-17))];
  [(58844356608287729, (-16)); (54227226960418538, (-16)); (21262656811651723, (-16)); (65208681195254836, (-17)); (69866575124764352, (-17)); ((-29436195017550693), (-17)); (11833037606511071, (-17)); ((-47730035676457577), (-17)); ((-87073663729781015), (-17)); ((-74885293067320724), (-17)); (53296391760228445, (-17)); ((-39391464907537288), (-17))];
  [(46303558775243383, (-16)); (1882702612834404, (-15)); (53361959721289933, (-16)); ((-30687350125299556), (-17)); (77987493865074489, (-18)); (94854973777307683, (-17)); ((-81545520478403377), (-17)); (49237799830347878, (-17)); ((-3042970847334705), (-16)); ((-49077638820480879), (-17)); ((-8668805324768255), (-16)); ((-87502452498992148), (-18))];
  [(22012330708119459, (-16)); (37388282373193693, (-16)); (36997867908455455, (-16)); ((-82689336615776166), (-17)); ((-33150913369383328), (-17)); (45425659629976761, (-17)); ((-52178976623607998), (-17)); (15104435532972849, (-17)); ((-8395957614080265), (-16)); (20972076877501408, (-17)); ((-93128260855692491), (-17)); ((-29787564879295897), (-17))];
  [(53715687307314006, (-16)); (56467046630905946, (-16)); (55050935470746509, (-16)); (80419252953205678, (-17)); (36403231358725324, (-17)); ((-46984555984827991), (-17)); (7051115245400566, (-17)); (72648131904185032, (-17)); (68355911994707619, (-17)); (59017162997253592, (-17)); ((-58284248965524554), (-17)); (5585625116565156, (-16))];
  [(16120459691014959, (-16)); (59061995338524449, (-16)); (697631451093505, (-15)); (92977845353885369, (-17)); ((-15180495248159369), (-18)); (36780644352555647, (-17)); (24791426061506161, (-17)); (76441569777531737, (-17)); ((-59515305626230453), (-17)); ((-27212230103132873), (-17)); (64454495076658158, (-17)); (71450070659357623, (-17))];
  [(12277772827381594, (-16)); (52995106726994781, (-16)); (47992273316354179, (-16)); (55396701864456854, (-17)); (28000919855066719, (-17)); (78403787598626984, (-17)); ((-8053685463780853), (-16)); ((-58390044419457859), (-18)); (58989160632911486, (-17)); (21095508232535684, (-17)); ((-95821993897001889), (-17)); (1931644423836725, (-16))];
  [(2456540706574124, (-15)); (24152929726096829, (-18)); (56563173452526492, (-16)); (99970833217227961, (-17)); (18701876542830419, (-18)); ((-152803926355246), (-16)); ((-61824177504230205), (-19)); (80981094603356074, (-17)); (58665834128135308, (-17)); (23345841087403972, (-18)); ((-58639276214667424), (-17)); (80969037304757174, (-17))];
  [(32846407457106825, (-16)); (51132191027836804, (-17)); (4664682140508206, (-15)); (87209841877619643, (-17)); (4843325158296965, (-16)); (69759315350244031, (-18)); ((-46582736175370239), (-18)); ((-59740213394369954), (-18)); (99712644914976112, (-17)); (48710819810230443, (-17)); ((-87284197940616493), (-17)); ((-29537811832534525), (-18))];
  [(36483413130421476, (-16)); (59135901148250953, (-16)); (21042714621274183, (-16)); (93247365390374881, (-17)); ((-31584017149939231), (-17)); ((-17532219152927025), (-17)); ((-31157408550096083), (-17)); ((-45760552110940789), (-17)); ((-8327777472377772), (-16)); (18279626369166196, (-17)); (83116916035029931, (-17)); ((-52511270491480855), (-17))];
  [(39003417876340842, (-16)); (23945493946371674, (-16)); (30466852028038155, (-17)); ((-73370109691256147), (-17)); (49309119019552616, (-17)); (46748666135074218, (-17)); ((-33014735027122649), (-17)); (34263055524682945, (-17)); ((-8795493333066301), (-16)); ((-59387324194493907), (-17)); ((-79966579316787634), (-17)); ((-8859566433522037), (-17))];
  [(53627792377553041, (-16)); (38587573936103285, (-16)); (13128064912270401, (-16)); ((-75367223183963428), (-17)); (39796320613720787, (-17)); ((-52307117442548756), (-17)); ((-60729533909024669), (-17)); ((-72599921474645313), (-17)); (32267245204199851, (-17)); ((-25133749834262076), (-17)); (56084795332472048, (-17)); (78884664870831867, (-17))];
  [(18495329202794899, (-16)); (20266546256904241, (-16)); (26361379092271719, (-16)); ((-44023312828869593), (-17)); (24704476778147863, (-17)); ((-86322863452792375), (-17)); ((-20182704074183422), (-17)); ((-96402773225829486), (-17)); ((-17296351367361684), (-17)); ((-87490607403454601), (-17)); (98078612086044265, (-18)); (47425725874121594, (-17))];
  [(1844920784873445, (-15)); (38884353958870479, (-16)); (42370549367069028, (-16)); ((-73383732768858634), (-17)); ((-18389618737918115), (-17)); (65396098412541048, (-17)); ((-66562022544510635), (-17)); (22525257172076874, (-19)); ((-74628723800310226), (-17)); (13576631382371712, (-17)); ((-98294309011015191), (-17)); ((-12405800915469156), (-17))];
  [(26454169413336812, (-16)); (16531745130953348, (-16)); (32923245137631452, (-16)); ((-82285045907318541), (-18)); (87642737871829612, (-17)); ((-47445149494232491), (-17)); (93773441841214156, (-17)); ((-93115268816787028), (-18)); ((-33463966775984605), (-17)); ((-33746604532200442), (-17)); ((-47244533709854086), (-17)); ((-81419412409361747), (-17))];
  [(29910020293450232, (-16)); (59788249807119307, (-16)); (56604715438595701, (-16)); (95403884700214814, (-17)); ((-29629134429205095), (-17)); (44959067032369578, (-18)); (2144550625190367, (-16)); (77978080103243375, (-17)); (58817593328966822, (-17)); ((-20932965525879949), (-17)); ((-55150098969886308), (-17)); (80748235509539579, (-17))];
  [(54054755358208997, (-16)); (3426690635904083, (-15)); (59354146791497504, (-16)); ((-95963409959305535), (-17)); (1796956879575419, (-16)); ((-21636047381093351), (-17)); ((-95201930503158838), (-18)); (51632719923609893, (-17)); (85108331892798683, (-17)); (2646487999721473, (-16)); (8373265092295068, (-16)); ((-47837781053768674), (-17))];
  [(52845853314493718, (-16)); (55810319764002192, (-17)); (51486634411144028, (-16)); (84826114149120879, (-17)); ((-28675590993228367), (-17)); (44522363364374484, (-17)); ((-28234728210904475), (-17)); (46637173397365256, (-17)); (8383182081024152, (-16)); ((-44803241860569304), (-17)); ((-83682044302784386), (-17)); (3146402676216386, (-16))];
  [(17337581031955887, (-16)); (54248897498272433, (-16)); (39160894976305567, (-16)); (65372821901715028, (-17)); ((-12277287844251852), (-17)); (74670357972866541, (-17)); ((-60996675803803713), (-17)); ((-66948904259310682), (-17)); (42393982584363532, (-17)); (4478615519881467, (-16)); ((-73260578906169149), (-17)); ((-51255125410446978), (-17))];
  [(45572371027929188, (-16)); (26714036498335454, (-16)); (45430396686663741, (-16)); ((-89148267506226042), (-17)); (70010626158278799, (-18)); (44761272578956224, (-17)); ((-42940980476931462), (-17)); ((-44557740734503593), (-17)); ((-78553675511185017), (-17)); (14445019775623449, (-17)); ((-89250170100039672), (-17)); (42728778835766307, (-17))];
  [(46185788983516582, (-16)); (58710926769448166, (-16)); (62667463950754074, (-16)); (91628467341204145, (-17)); ((-37518445891002665), (-18)); ((-39876655261959026), (-17)); (44068369618214968, (-18)); (99900208082668518, (-17)); (72678265764604399, (-19)); (39809593827290041, (-17)); ((-24232389933248888), (-18)); (91702367210925473, (-17))];
  [(28168210128994781, (-17)); (2216886164104833, (-15)); (61181489391062263, (-16)); ((-60206897004672466), (-17)); ((-76697678044240469), (-17)); ((-2219449786976031), (-16)); (79301833444815628, (-17)); ((-5420601510297427), (-16)); ((-27801567203070543), (-17)); (92924036373526184, (-18)); ((-34339104666227954), (-17)); (93458424582069421, (-17))];
  [(52424535547095266, (-16)); (31926610000879343, (-16)); (10560089805483475, (-16)); ((-9986962953657913), (-16)); (25808375711886503, (-18)); ((-44041314305526567), (-18)); ((-51040195079483847), (-18)); ((-51805128290216795), (-17)); (85382537252629476, (-17)); ((-77981337017557148), (-20)); (85496011370503833, (-17)); (51869316157490997, (-17))];
  [(12689144134085393, (-16)); (58176385421978347, (-16)); (24164870959881091, (-16)); (8935762501292428, (-16)); (13346924768970972, (-17)); (42861106509993863, (-17)); (38415336275541478, (-17)); ((-72135226238590511), (-17)); ((-5762613187039739), (-16)); (23226639681337372, (-17)); (67958581023435094, (-17)); ((-6958559099694801), (-16))];
  [(59052185149621295, (-16)); (59077745947304869, (-16)); (59929353742038423, (-16)); (93035711074787897, (-17)); (34077503650132357, (-17)); ((-13530713572602326), (-17)); ((-28779744569942634), (-17)); (90736613751811279, (-17)); (30636468911143627, (-17)); (22717455123702712, (-17)); ((-24608751895003284), (-17)); (94224872315502373, (-17))];
  [(56423906273783713, (-16)); (20819942658352049, (-16)); (59563366498535562, (-16)); ((-48922239106949705), (-17)); ((-69914096488158861), (-17)); (52140518150540582, (-17)); (49472520315246721, (-17)); (26989002396208084, (-17)); (82607889958011715, (-17)); ((-71826765585121111), (-17)); (66208857880965488, (-17)); (21384641303472285, (-17))];
  [(54416391196237113, (-16)); (44626098333409725, (-17)); (2370023802307105, (-15)); (90206714771586805, (-17)); ((-28757683010681218), (-17)); (32182981185321519, (-17)); (18259123670805719, (-18)); ((-71957828247011113), (-17)); ((-69417123233402522), (-17)); (43120930580697403, (-17)); (63206539391354333, (-17)); ((-64385702792031785), (-17))];
  [(38401576037609981, (-16)); (26021431139181157, (-16)); (41163361974834629, (-16)); ((-85799156287061873), (-17)); (39334619789390379, (-17)); (33034716079488718, (-17)); ((-52564609578847864), (-18)); ((-706977916238264), (-15)); (70527951038664494, (-17)); (51096716123705677, (-17)); (58775929984459807, (-17)); (62725717658989877, (-17))];
  [(47030097349147555, (-16)); (5715458160335352, (-15)); (44954000163658367, (-16)); (84312530394022678, (-17)); ((-50433070982727115), (-19)); ((-53769348788060722), (-17)); (52399886654416716, (-17)); ((-21672398358924583), (-17)); (82368434657800593, (-17)); ((-12068516775531404), (-17)); ((-97621989325700631), (-17)); ((-18008278733169056), (-17))];
  [(9633584362041, (-13)); (51191838857878862, (-16)); (16117166452296645, (-16)); (39566782664166605, (-17)); (5241874838281062, (-16)); (75410506745321593, (-17)); (77491772450700447, (-17)); (25013612179306649, (-17)); ((-58046054200023833), (-17)); ((-49289906796984995), (-17)); (81403894401452503, (-17)); ((-30723135650869066), (-17))];
  [(52765481940756054, (-16)); (78523967201095335, (-17)); (20749235526184173, (-16)); (70721884263913726, (-17)); ((-37803396149334123), (-17)); (59743772275761953, (-17)); (34050749661131341, (-17)); ((-55844289761733223), (-17)); ((-75643649756754483), (-17)); (61959353883627255, (-17)); (73839816769708255, (-17)); ((-26621794187082071), (-17))];
  [(45782482662070203, (-16)); (55972796663625832, (-16)); (11364998027182158, (-16)); (77384575508368392, (-17)); ((-84706687919160611), (-18)); ((-62768425530733918), (-17)); ((-53377175365150886), (-17)); (44626160814183646, (-17)); ((-71828844631001476), (-17)); (34095522043628546, (-17)); (89088459079749938, (-17)); (30012361376075714, (-17))];
  [(43060647825226761, (-17)); (14847981249390103, (-16)); (56165773733255717, (-16)); (85892238363202575, (-18)); ((-90535455064152515), (-17)); ((-41587938278020098), (-17)); (96868754350496999, (-17)); ((-21712432883569693), (-18)); (2473317879217779, (-16)); ((-23295271289956171), (-17)); ((-42410105858269043), (-17)); (87514074620130433, (-17))];
  [(29342609677174609, (-16)); (28318341963650466, (-16)); (27238079822399262, (-16)); ((-9524072268137016), (-16)); (29830028804011743, (-17)); ((-62748804516239542), (-18)); (24718399646003855, (-17)); (63530102339913763, (-17)); ((-73163698755738971), (-17)); ((-17838314440293376), (-17)); ((-71232685462727807), (-17)); ((-67880034323041616), (-17))];
  [(37657125708472647, (-16)); (96522752034170312, (-17)); (50483042492311958, (-17)); (56922982872571004, (-17)); (66717950921141422, (-17)); (48046738138745204, (-17)); ((-35157081894742737), (-17)); (72578136473897747, (-17)); ((-59130311166292926), (-17)); ((-74321959161040285), (-17)); (16766905822495617, (-17)); (64769724838107989, (-17))];
  [(52436434007033039, (-16)); (58259981644466139, (-16)); (43736514971718101, (-16)); (89729771368193334, (-17)); (22363309271811482, (-17)); ((-38058514535187299), (-17)); (43327088691590931, (-17)); ((-2812272607920705), (-16)); (85626372475919488, (-17)); (84457987024772127, (-18)); ((-93321994600882807), (-17)); ((-34923828655948308), (-17))];
  [(20634519805507301, (-16)); (16020315421072495, (-16)); (30022338341526975, (-16)); ((-31230136512762942), (-18)); (47273669255974315, (-17)); ((-88065015646456846), (-17)); (34582412624400777, (-17)); ((-82155130204632909), (-17)); ((-45327599960018827), (-17)); ((-93777947955847418), (-17)); ((-31870594223148113), (-17)); ((-13782659433281033), (-17))];
  [(46732930815030711, (-16)); (49712690535282036, (-16)); (1670347058578084, (-15)); (25599810480819768, (-17)); ((-37783490331312633), (-18)); ((-96593859959781847), (-17)); ((-96491132169962224), (-17)); ((-70359493822381353), (-18)); ((-25297368022176958), (-17)); ((-58404722330466591), (-18)); (99680587352174144, (-17)); ((-54469614667805491), (-18))];
  [(24550852176074591, (-16)); (58316790366501547, (-17)); (50918344853721784, (-16)); (83472236857661397, (-17)); (42592445612793578, (-17)); ((-34903713995786972), (-17)); (16644543683031446, (-17)); (40904520534792838, (-17)); (89720562667664816, (-17)); (52491378716529558, (-17)); ((-8070132450300882), (-16)); (27054600050600186, (-17))];
  [(3141375876201518, (-15)); (40359829730473806, (-17)); (6247509038336613, (-15)); (91965379123084856, (-17)); (39273005617950746, (-17)); ((-8513499720933418), (-20)); ((-39247711337961988), (-17)); (91906921242250905, (-17)); (356861072445551, (-16)); (14093251857816827, (-18)); ((-32785450283773443), (-18)); (99936304439465951, (-17))];
  [(71098711488619082, (-17)); (19322024534291926, (-16)); (38192798201505953, (-16)); ((-35358987403529574), (-17)); ((-70876990598665934), (-17)); ((-61042560672645918), (-17)); ((-16941687681985418), (-17)); ((-59326425237805769), (-17)); (78697868376399538, (-17)); ((-91993049891190704), (-17)); (38168409348303522, (-17)); (896946484118398, (-16))];
  [(58937121336101335, (-16)); (40114729641592706, (-17)); (22135891365389249, (-16)); (92061360964128169, (-17)); ((-36123185411268194), (-17)); (14826371544502662, (-17)); ((-97860418346862946), (-18)); ((-58102747778674169), (-17)); ((-80797921296141906), (-17)); (37801312181487395, (-17)); (72932751054042333, (-17)); ((-57025210398970194), (-17))];
  [(46802363238839755, (-16)); (61543263703858839, (-16)); (49493573034144802, (-16)); (99170916891387517, (-17)); ((-41309888679243907), (-19)); ((-12843620682316967), (-17)); (12581672507754471, (-17)); (23449580008570065, (-17)); (96394080286754569, (-17)); (26135722352987764, (-18)); ((-9721083554178207), (-16)); (23307138250747847, (-17))];
  [(37800146326943196, (-16)); (60592215789034576, (-16)); (52341178449395516, (-16)); (9750247824463496, (-16)); ((-17835141094997697), (-17)); ((-1323534957135668), (-16)); (20363176290067958, (-17)); (47999110012701485, (-17)); (85331274977983274, (-17)); ((-88661032891626745), (-18)); ((-85895245387099894), (-17)); (50432123020509401, (-17))];
  [(3809679561776294, (-15)); (40996741853437246, (-16)); (37435462745888355, (-16)); ((-57509052269395899), (-17)); ((-64220721468480424), (-17)); ((-50679461729025388), (-17)); ((-24235268660197593), (-17)); ((-45793964554808275), (-17)); (85531073671040803, (-17)); ((-78136807332037417), (-17)); (61470413569625681, (-17)); (107716106286499, (-15))];
  [(29358640215230354, (-16)); (77824461764469444, (-17)); (23788376661149147, (-16)); (71214696636903507, (-17)); (68722627408272119, (-17)); ((-14341111010574079), (-17)); (39773513384710046, (-17)); ((-56329126686867492), (-17)); ((-72423042740077703), (-17)); ((-57849240409447844), (-17)); (45871886475254497, (-17)); ((-67448020098823269), (-17))];
  [(31041754572188607, (-16)); (62501617192601646, (-16)); (23985163304510739, (-16)); (99945477087346912, (-17)); ((-32994475511218258), (-18)); (12351372397248791, (-19)); ((-23461186132893119), (-18)); ((-73600358984489078), (-17)); ((-676570978154304), (-15)); (23232170012701784, (-18)); (67617311416616799, (-17)); ((-736376388781802), (-15))];
  [(54306205631195024, (-16)); (47297950547189194, (-16)); (46588005956433616, (-16)); (17405195423690092, (-18)); (65795445210416381, (-17)); ((-75285655880026237), (-17)); (78701766598659639, (-17)); (4554004337225141, (-16)); (41618942609148096, (-17)); (61668488922404563, (-17)); ((-59975527002407891), (-17)); ((-50989544367553519), (-17))];
  [(15130871185363608, (-16)); (52468976637138374, (-16)); (38826573960838955, (-16)); (50941831359093537, (-17)); (49632311710105924, (-18)); (85908650054140556, (-17)); ((-5433305476714686), (-16)); ((-75561585510409535), (-17)); (36583684270768713, (-17)); (66729670892728776, (-17)); ((-6531319262979095), (-16)); ((-35795780352604789), (-17))];
  [(5538807349764844, (-15)); (42802305676173819, (-17)); (26483357303735096, (-16)); (90978810279523437, (-17)); ((-30529014073228233), (-17)); (28121795459022769, (-17)); ((-13574226873722323), (-17)); ((-8590962403922352), (-16)); ((-49348524417858569), (-17)); (39224946716384401, (-17)); (41079384089295956, (-17)); ((-82303631499107621), (-17))];
  [(27909551801399619, (-16)); (31392633613235237, (-16)); (52955579811807416, (-16)); ((-9999972871999957), (-16)); (21875620165704656, (-19)); ((-80010316396141273), (-20)); ((-53676547593499045), (-20)); (11783214772268966, (-17)); (99303338153653331, (-17)); (22665999808451401, (-19)); (99303111710332725, (-17)); ((-11783065385987182), (-17))];
  [(56516351200530108, (-16)); (33898893928393408, (-16)); (86909330719222477, (-17)); ((-96933240950598976), (-17)); (19835073792280816, (-17)); ((-14509191792374151), (-17)); ((-23885230468073557), (-17)); ((-89932104512700461), (-17)); (3662939179680344, (-16)); ((-57829546341064582), (-18)); (38971610507797799, (-17)); (91911756648039156, (-17))];
  [(3548961648466983, (-15)); (31214285582854746, (-16)); (35278178010068841, (-16)); ((-9997967115183537), (-16)); (18512740026673309, (-18)); (79883724118626782, (-19)); (14139873063525998, (-18)); (36132900785700656, (-17)); (93233117081368588, (-17)); (14373573906067092, (-18)); (93225459319746762, (-17)); ((-3615173216256598), (-16))];
  [(51305227922390566, (-16)); (1280825899950738, (-15)); (40862060829406204, (-16)); (28592388668433222, (-17)); ((-38910386751901621), (-17)); (87569727149573162, (-17)); ((-93758832981509999), (-17)); ((-30235409764545285), (-17)); (17178510829386573, (-17)); (19792840831436087, (-17)); ((-87016100804319418), (-17)); ((-45126950402547233), (-17))];
  [(30990020355891641, (-16)); (22214106352606091, (-16)); (61942781607798816, (-16)); ((-60567533253107275), (-17)); (79499029126283638, (-17)); ((-33879615718082137), (-18)); ((-78884219438092207), (-17)); ((-59431904035616512), (-17)); (15656586676034565, (-17)); (1043330433164194, (-16)); (12155375382092229, (-17)); (98708626826857271, (-17))];
  [(11465650834814196, (-16)); (52754308959199809, (-16)); (3130854001933034, (-15)); (53376101483325056, (-17)); (34808067866134135, (-17)); (77067439310440211, (-17)); (35633645354541127, (-17)); ((-91907326620750929), (-17)); (16831120942272337, (-17)); (7668921116551255, (-16)); (18478141812780025, (-17)); ((-61459931385889277), (-17))];
  [(33341678422956176, (-16)); (33234978887224513, (-16)); (75875258996556938, (-17)); ((-98350081392454625), (-17)); ((-17755962948716197), (-17)); ((-34622636903287353), (-18)); (10503314848453472, (-17)); ((-40464257608204696), (-17)); ((-90842304205755942), (-17)); (14728946577804128, (-17)); ((-89707132581421112), (-17)); (41661594985400241, (-17))];
  [(42353093596073803, (-16)); (56002855125529329, (-16)); (39845100723517268, (-17)); (77574608144609769, (-17)); ((-28976764671695382), (-17)); ((-56058248994875226), (-17)); (49567096170699952, (-18)); (91357469710571226, (-17)); ((-40363891758031784), (-17)); (62909547772832464, (-17)); (28533486244117567, (-17)); (72306493220003865, (-17))];
  [(17079902928030435, (-16)); (4628626895452042, (-15)); (49030345436137583, (-16)); ((-8366417227639715), (-17)); ((-13628449560835351), (-17)); (98713061067625796, (-17)); ((-94342095613544907), (-17)); (32980560514157187, (-17)); ((-34426186859377823), (-18)); ((-32086945289600338), (-17)); ((-93415994298298743), (-17)); ((-15616656211955618), (-17))];
  [(53648930308674192, (-16)); (72368234977402035, (-17)); (40523276924975011, (-16)); (74937255250615542, (-17)); ((-40204202730026412), (-17)); (52612069512109383, (-17)); ((-66212969867602101), (-17)); ((-46099415590569998), (-17)); (59082031985366978, (-17)); (50039665877089036, (-19)); ((-7911046684889963), (-16)); ((-61166033369289541), (-17))];
  [(5659166539202122, (-15)); (45320714840764795, (-16)); (61672101010124871, (-16)); ((-17934193113745242), (-17)); (7983792376119645, (-16)); ((-57482785656753588), (-17)); ((-72649961902149729), (-17)); (28650545411999129, (-17)); (62459020831351242, (-17)); (66335117041994318, (-17)); (52962743292774772, (-17)); (5286397705364736, (-16))];
  [(46720796406024832, (-16)); (16145671749214339, (-16)); (56267383311606149, (-16)); ((-43756872797814934), (-18)); (40259827157869355, (-18)); (99823067594628356, (-17)); ((-64111874976951633), (-17)); (76517322479482819, (-17)); ((-58963418753117405), (-18)); ((-76619324245057652), (-17)); ((-64256445775836502), (-17)); ((-76702574122511288), (-19))];
  [(40935450272044571, (-16)); (55438155153068598, (-16)); (19212904109433824, (-16)); (73889335377756493, (-17)); ((-39088025132530996), (-17)); ((-54886176845104162), (-17)); ((-64970610083035196), (-17)); ((-1973165473287519), (-16)); ((-73413088934745208), (-17)); (17865775742229301, (-17)); (89904327441682297, (-17)); ((-39975316939170613), (-17))];
  [(22526410886088253, (-16)); (16345047895693583, (-16)); (48729716403952077, (-16)); ((-63665375205408603), (-18)); (62894785083198035, (-17)); ((-77483631880145332), (-17)); (66430288879883614, (-17)); (60611407870895273, (-17)); (43740987131558706, (-17)); (74474720001721095, (-17)); ((-48687814135020502), (-17)); ((-45640035444979005), (-17))];
  [(34767161777444575, (-16)); (55955669174717686, (-16)); (32848451963624417, (-16)); (77275980978979009, (-17)); ((-59939009394299259), (-17)); ((-20874336314397637), (-17)); ((-56344962716829772), (-17)); ((-799248212891284), (-15)); (2091095689680296, (-16)); ((-29217596413386543), (-17)); ((-43975100603629524), (-18)); ((-95535302192924831), (-17))];
  [(58927100635131975, (-16)); (2643959151350474, (-16)); (79886634801014866, (-17)); (96525054020652745, (-17)); ((-24165574660986203), (-17)); (99468059001053599, (-18)); (23983500399543339, (-17)); (66802833932326888, (-17)); ((-70442693639546894), (-17)); (10378133497656206, (-17)); (70380440321969118, (-17)); (70277222235875048, (-17))];
  [(38749234146904037, (-16)); (26010845650105607, (-16)); (54361707405015158, (-16)); ((-8574473440390693), (-16)); (38230058884143087, (-17)); (34442751337812882, (-17)); ((-51125013251300189), (-17)); ((-70885782119354801), (-17)); ((-48594638730849082), (-17)); (58372546678929972, (-18)); ((-59276205099873847), (-17)); (80325948278870951, (-17))];
  [(11775099351221494, (-16)); (35926139290498482, (-16)); (53749913426214233, (-16)); ((-90000241321921159), (-17)); (16704241807259923, (-17)); (40260711216278139, (-17)); ((-42017262186317489), (-17)); ((-86712826123056308), (-18)); ((-90329167693629164), (-17)); ((-11597682542741419), (-17)); ((-98212917498168817), (-17)); (14822840353173722, (-17))];
  [(43958959464939156, (-16)); (36227287600436049, (-16)); (24836256226096545, (-16)); ((-8864697201516667), (-16)); ((-1440357091957889), (-16)); ((-43980126162926347), (-17)); ((-38290906340184211), (-17)); ((-30544084597082399), (-17)); (87182942068810187, (-17)); ((-25990783831764247), (-17)); (94125427175078114, (-17)); (21561148274606506, (-17))];
  [(13373284305344806, (-16)); (17648454763823265, (-16)); (18437791665198953, (-16)); ((-19283361792788936), (-17)); ((-22701056926360483), (-17)); ((-95461059979420659), (-17)); ((-98046550619740003), (-17)); (61448596961724972, (-19)); (19659509621653998, (-17)); ((-38763216506335428), (-18)); (97387290861894726, (-17)); ((-22376096823207245), (-17))];
  [(52198793685395426, (-16)); (60502594585138949, (-16)); (13945602965999093, (-16)); (97299520064739231, (-17)); (11217776151589461, (-17)); ((-20173370897900023), (-17)); ((-21827655514423752), (-17)); (16291469737438002, (-17)); ((-96219236478667769), (-17)); ((-75071199480929524), (-18)); (9802422920894085, (-16)); (18300099400767539, (-17))];
  [(27532428455996416, (-16)); (15541465058908153, (-16)); (57434126352275356, (-16)); (16649051647130909, (-18)); (92540690026689498, (-17)); ((-37860913620469894), (-17)); ((-59925491393329988), (-17)); (31235251290491933, (-17)); (73710884936268106, (-17)); (8003851305503149, (-16)); (21461122202811134, (-17)); (55975500549218504, (-17))];
  [(18327842802255923, (-16)); (36286476378213011, (-16)); (2821021423421604, (-15)); ((-88371503098267679), (-17)); ((-12121912271167656), (-17)); (45205493947561076, (-17)); (27402778917083707, (-18)); ((-9776210951366191), (-16)); ((-2085811162389799), (-16)); (4672224649167761, (-16)); ((-17193870603470562), (-17)); (86726019719816672, (-17))];
  [(11476677468207981, (-16)); (20384757785039858, (-16)); (10950812297600306, (-17)); ((-45081614058532959), (-17)); ((-36652197136673936), (-17)); ((-81389584830811579), (-17)); (27537632022474828, (-17)); (81022549198871863, (-17)); ((-51739978197822589), (-17)); (8490775521983992, (-16)); ((-45737981660440352), (-17)); ((-26433125754571074), (-17))];
  [(19916346196494152, (-16)); (6107009552561764, (-15)); (36740384113512397, (-16)); (98452114986294792, (-17)); ((-7160059724933425), (-17)); (15997331010539673, (-17)); ((-14289796719642756), (-17)); ((-85641238712553514), (-17)); (49612296273108669, (-17)); (10148042394308131, (-17)); ((-51130341056116679), (-17)); ((-85338768792668396), (-17))];
  [(44808261477140778, (-16)); (20644058533651606, (-16)); (66996879281697208, (-17)); ((-47380761933829502), (-17)); (20210326353496313, (-17)); (85712345127495759, (-17)); (37382385292985804, (-17)); (9274216502974858, (-16)); ((-12033683565880471), (-18)); ((-79734689241110923), (-17)); (31471154002992191, (-17)); ((-51497046491458298), (-17))];
  [(46712741217354061, (-16)); (33462521827057921, (-16)); (24039245758316721, (-16)); ((-97913023646247133), (-17)); ((-83535752321501865), (-19)); ((-20306205412579142), (-17)); ((-14275420410698453), (-17)); ((-6828984718829223), (-16)); (71642928074566503, (-17)); ((-14465551235513438), (-17)); (73046553298619799, (-17)); (66745403427087258, (-17))];
  [(4952235063297783, (-15)); (47746740947630633, (-16)); (17811331186538231, (-16)); (62244850342225627, (-18)); (23709248105056746, (-17)); ((-96949096645361288), (-17)); ((-8986216487138079), (-16)); ((-4093611510443208), (-16)); ((-15780551472792839), (-17)); ((-43428643896482833), (-17)); (88102815133510637, (-17)); (18757581263663323, (-17))];
  [(44068417650937617, (-16)); (25569047930491036, (-16)); (9462698687593768, (-16)); ((-83388440848615242), (-17)); (16603161627923446, (-17)); (52637467233844448, (-17)); (32993536536377011, (-17)); (91448175776732965, (-17)); (23423443255219839, (-17)); ((-44246971417937209), (-17)); (36899406107209898, (-17)); ((-81735178162621325), (-17))];
  [(10479386697016592, (-17)); (4997468783177502, (-15)); (40341126605559356, (-16)); (28123403407997588, (-17)); (95437477168529872, (-17)); (10038034292498152, (-17)); (52066247591065984, (-17)); ((-23961701467198071), (-17)); (81944754100446793, (-17)); (8061128979576524, (-16)); ((-17819225979352099), (-17)); ((-5642955912427402), (-16))];
  [(29651550193933858, (-16)); (2363377957437593, (-15)); (41891393446625463, (-17)); ((-71216797184792124), (-17)); (69111056383391556, (-17)); ((-12321918856730761), (-17)); ((-68147279084218249), (-17)); ((-72274615085190486), (-17)); ((-1150340678691429), (-16)); ((-16855745375326886), (-17)); (20469455104886458, (-19)); (9856897051295056, (-16))];
  [(18795597135340547, (-17)); (46886479303769306, (-16)); (59087414956408146, (-16)); ((-2373881984644086), (-17)); (98211137401405102, (-17)); (18679860134522155, (-17)); ((-98238456033859434), (-17)); ((-57560253701382347), (-18)); (17778468101098879, (-17)); (18535653223084628, (-17)); ((-17928766334041302), (-17)); (96617746285725903, (-17))];
  [(58587484074778482, (-16)); (29878303369022774, (-16)); (24853822177955434, (-17)); ((-98820184765056285), (-17)); ((-13956762068860221), (-17)); (63071289469426681, (-18)); (15079387145946038, (-17)); ((-81456067196515147), (-17)); (56013580497763993, (-17)); ((-2680142963129932), (-17)); (56303800133117421, (-17)); (82599630291346648, (-17))];
  [(10167407080706357, (-16)); (54966522697190481, (-16)); (30661425753899807, (-16)); (70630384885780007, (-17)); (37245944564759903, (-17)); (60200401529935088, (-17)); (4167779631371239, (-16)); ((-90617888144277958), (-17)); (71665642189148782, (-18)); (57221587056977719, (-17)); (20028428838777174, (-17)); ((-79527052082488003), (-17))];
  [(25849045031298012, (-16)); (24808951669304866, (-16)); (48613266667606059, (-16)); ((-78956439854647087), (-17)); (5210098215587633, (-16)); ((-32424809388376574), (-17)); (24334700082223762, (-17)); (75088161685498622, (-17)); (61396989719371708, (-17)); (56335627957694023, (-17)); (40586397143445413, (-17)); ((-71965556966696309), (-17))];
  [(46077930732598311, (-16)); (54308248562583357, (-16)); (74296982191974315, (-17)); (65820794838471608, (-17)); ((-78600080701516264), (-18)); ((-74872179345662038), (-17)); ((-4486078278128045), (-16)); (75772707812228635, (-17)); ((-47392055442377656), (-17)); (60457697070617911, (-17)); (64782073322330291, (-17)); (46348137405699719, (-17))];
  [(38528337013030298, (-16)); (53434684857311776, (-16)); (22016132277195135, (-16)); (5900166845136624, (-16)); ((-61164097753945157), (-17)); ((-52704423589494787), (-17)); ((-78636113291650722), (-17)); ((-28731052331587126), (-17)); ((-54689014603504005), (-17)); (18307506830197437, (-17)); (73712141319225311, (-17)); ((-65048869442879864), (-17))];
  [(21332631516295488, (-16)); (5555951694375969, (-16)); (51522005492872873, (-16)); (84958666921202708, (-17)); (28127518172697036, (-17)); ((-44619139799157215), (-17)); (2839699681297887, (-16)); (46895359789985647, (-17)); (8363274360064642, (-16)); (44448121298608401, (-17)); ((-83723759779481921), (-17)); (31854302086402703, (-17))];
  [(6189612625713492, (-15)); (90994376453026304, (-17)); (54084560507766319, (-16)); (61379014663198528, (-17)); ((-78601550952385557), (-17)); (73764996342708389, (-18)); (44739175355809324, (-17)); (42329721604906495, (-17)); (78781983075657958, (-17)); ((-65046312327886835), (-17)); ((-45055419837469624), (-17)); (61147251743740261, (-17))];
  [(34644897000683286, (-16)); (26448624594806045, (-16)); (50040808488117794, (-17)); ((-87914549615719972), (-17)); (45192523169580012, (-17)); (1512176628016996, (-16)); ((-32396149338478131), (-17)); ((-3340398590472019), (-16)); ((-88513633038737471), (-17)); ((-34950271442495756), (-17)); ((-82715231821256652), (-17)); (44007601057676815, (-17))];
  [(34903732137644652, (-16)); (3541564991859536, (-15)); (49401861496953146, (-16)); ((-92107176563564119), (-17)); ((-36594758102397024), (-17)); ((-13307580731127391), (-17)); (21228068624929128, (-17)); ((-75839870556601552), (-17)); (61625344919223124, (-17)); ((-3264409790365978), (-16)); (53936422882732671, (-17)); (77622323842251117, (-17))];
  [(5276467161654665, (-15)); (62957902104166019, (-17)); (15958580967392109, (-16)); (80827545425069303, (-17)); ((-31479671282580896), (-17)); (49758800191513963, (-17)); (48954320754729724, (-17)); ((-1102821097252456), (-16)); ((-86497705415742265), (-17)); (32716698794367954, (-17)); (94273054786010513, (-17)); (64968270188194288, (-18))];
  [(71805522253676857, (-17)); (35374922989779845, (-16)); (4136136978111308, (-15)); ((-92264999997835018), (-17)); (29041913774163153, (-17)); (25371973114710183, (-17)); ((-54501683232779215), (-18)); ((-74951763789110715), (-17)); (6597369756311442, (-16)); (38176765717481126, (-17)); (59487816813490668, (-17)); (70737078043393442, (-17))];
  [(32522260137978094, (-16)); (62684972898738147, (-16)); (49219315487581348, (-16)); (99989213301308288, (-17)); ((-14597695301173127), (-18)); ((-16216135302135454), (-19)); (46226456614085979, (-19)); (20797875397386012, (-17)); (97812242027395002, (-17)); ((-1394107189696416), (-17)); ((-97802440930038892), (-17)); (20802379990517675, (-17))];
  [(58236314261750866, (-17)); (60786546133747201, (-16)); (10314010268005085, (-16)); (97915641202700809, (-17)); (16962845945308738, (-17)); (11170902617948179, (-17)); (87244127578135662, (-19)); (51436498845557055, (-17)); ((-85752699273733179), (-17)); ((-20292019467866465), (-17)); (84062764907815923, (-17)); (50216386787272915, (-17))];
  [(24602212399177592, (-16)); (17244737819434635, (-16)); (61172571822177808, (-16)); ((-15307327509387156), (-17)); (76755600588890449, (-17)); ((-62243582020631494), (-17)); ((-65420765313333817), (-17)); (39336765866837287, (-17)); (64596767078200767, (-17)); (74066248658468292, (-17)); (50608266413465952, (-17)); (44192693743260292, (-17))];
  [(49337239456417716, (-16)); (45015983476563601, (-16)); (59426045960984695, (-16)); ((-20923309786188771), (-17)); (21467304606661347, (-17)); ((-95401100310824483), (-17)); (11633018408316038, (-17)); (9741415250012887, (-16)); (19368938416790313, (-17)); (97092162352596501, (-17)); ((-70454045736530968), (-18)); ((-22879560399854509), (-17))];
  [(95145125966211064, (-17)); (66574147124567951, (-17)); (42119401737176254, (-16)); (78645903725115951, (-17)); ((-35854267138224927), (-17)); ((-50292080442556741), (-17)); (26921055697398666, (-17)); ((-53384996562463405), (-17)); (8015796218819019, (-16)); ((-55588475310961294), (-17)); ((-76580112757860141), (-17)); ((-32332765773995797), (-17))];
  [(36235350554005885, (-16)); (5324218423441037, (-15)); (21670226093549996, (-17)); (57436599998507176, (-17)); ((-72535719824295697), (-17)); ((-37942144512174891), (-17)); (62681292737863248, (-17)); (68782046460565804, (-17)); ((-36607179970695058), (-17)); (5265066496561821, (-16)); ((-27567071421977007), (-18)); (84972395778925636, (-17))];
  [(17781904955739865, (-16)); (61266072206655826, (-16)); (15587423923345993, (-16)); (98776667547215369, (-17)); ((-32109510098552514), (-18)); (15259742523358616, (-17)); (15297337592569249, (-17)); (95825778136131301, (-19)); ((-98818384952413729), (-17)); (3026782259406393, (-17)); (9994384190952823, (-16)); (14377251188501583, (-18))];
  [(1475463560497966, (-15)); (52017502420897825, (-16)); (25966443767602803, (-16)); (47006221241930396, (-17)); (84016475989843589, (-18)); (87862548803100238, (-17)); (52730351988648838, (-17)); ((-8250178394639518), (-16)); ((-20321555669178726), (-17)); (70780824689373956, (-17)); (55882626667729318, (-17)); ((-43211189442172249), (-17))];
  [(19261796964890627, (-16)); (42482900509277133, (-17)); (36248250263577049, (-16)); (91110922438846442, (-17)); (14341272882091724, (-17)); ((-38641010655311403), (-17)); (3065347162935213, (-16)); ((-8624947880299203), (-16)); (40266513175102886, (-17)); ((-27552939759869777), (-17)); ((-48532002826316678), (-17)); ((-82978793750303326), (-17))];
  [(49389674645060442, (-16)); (15203893015297436, (-16)); (5671089070880532, (-17)); (50385681708999062, (-18)); ((-22435944460042645), (-17)); (97320302234287559, (-17)); (2791603886153195, (-16)); (93876448992873496, (-17)); (20196710097683196, (-17)); ((-95892166546953317), (-17)); (26150348385333266, (-17)); (10993255853343237, (-17))];
  [(12551640058939042, (-16)); (11974971359156941, (-16)); (37797710384428096, (-16)); (36468938423114, (-14)); ((-2890389190011961), (-16)); ((-88513171693919757), (-17)); (29515153552615414, (-17)); ((-86569488614617895), (-17)); (40429931384669393, (-17)); ((-88311223754722434), (-17)); ((-40869165320932865), (-17)); ((-23039945419067412), (-17))];
  [(14521458041198934, (-16)); (29182600528792184, (-16)); (13774688421125352, (-16)); ((-97516475921533841), (-17)); ((-26217183450712792), (-18)); ((-21992351324131462), (-17)); ((-21078943250447058), (-17)); (4146441365023591, (-16)); (88523333376497759, (-17)); (67981670536507541, (-18)); (90960590332084179, (-17)); ((-40987265475381629), (-17))];
  [(5326220785250678, (-15)); (60721411094272471, (-16)); (27171145591373644, (-16)); (97781270820739263, (-17)); (12066191449609362, (-17)); ((-17123962759321165), (-17)); (39429401124909454, (-18)); ((-90884830210011702), (-17)); ((-41525905901818128), (-17)); ((-20573679786332685), (-17)); (39929370914136841, (-17)); ((-89344104665337187), (-17))];
  [(19549804501974242, (-16)); (44171583221277633, (-16)); (5208075948791494, (-16)); ((-29096053670190747), (-17)); ((-35858703373720879), (-17)); (88699340770813395, (-17)); (75239561992826942, (-17)); (48690380050721505, (-17)); (44365022277058008, (-17)); ((-59096767863809019), (-17)); (79645466179009838, (-17)); (12812952242916872, (-17))];
  [(38293880147273023, (-16)); (44853718005210954, (-16)); (40999208076140166, (-16)); ((-2250722419307993), (-16)); ((-75282294592693055), (-17)); ((-61854676298412681), (-17)); (7332506001834338, (-17)); ((-64612220893292305), (-17)); (75970357817832235, (-17)); ((-97157908658304815), (-17)); (12563320902348216, (-17)); (20062496181909154, (-17))];
  [(57370012658922294, (-16)); (23623733923521724, (-16)); (39396634063674052, (-17)); ((-7114623987901143), (-16)); ((-60048684003103192), (-17)); (36501617780224771, (-17)); (69459873463657962, (-17)); ((-52216264855151273), (-17)); (49485226714538932, (-17)); ((-10655446001495528), (-17)); (60560855625330723, (-17)); (7885964897485318, (-16))];
  [(46224196182594159, (-16)); (56170689516888848, (-16)); (97639728691161143, (-17)); (78622743757329516, (-17)); ((-55520445765122918), (-18)); ((-61543797129277966), (-17)); ((-47878918759256978), (-17)); (57489294244526512, (-17)); ((-66352017193983792), (-17)); (3906498819293015, (-16)); (81634281085134019, (-17)); (42541401589505212, (-17))];
  [(53172783508797128, (-16)); (45458134868468845, (-16)); (61253124410703546, (-16)); ((-16580622224010355), (-17)); (56079973528183813, (-17)); ((-81117935968211485), (-17)); ((-4262936948023745), (-16)); (70098137743098388, (-17)); (57175063993554087, (-17)); (88925923241662519, (-17)); (44060046005738668, (-17)); (12283831714499266, (-17))];
  [(15474058252256042, (-16)); (4968915947155101, (-15)); (1415376290887238, (-15)); (2537227036865321, (-16)); (22623031091086456, (-18)); (96701240328045845, (-17)); (9518546804210507, (-16)); (17197100372204546, (-17)); ((-25376887366139245), (-17)); ((-17203911472259953), (-17)); (98484220682456736, (-17)); (22099109990682458, (-18))];
  [(36867967194694091, (-16)); (14365273864322716, (-16)); (28745181686582213, (-16)); (13386586713823723, (-17)); (84732582644196008, (-17)); (51392496870630544, (-17)); (95291600255047904, (-17)); ((-25244316841923681), (-17)); (16799862738032187, (-17)); (27208642321612297, (-17)); (46723804485819231, (-17)); ((-84122386303441887), (-17))];
  [(60787786021762633, (-16)); (26136765271635847, (-16)); (34157944218332394, (-16)); ((-86385866394100075), (-17)); ((-49324731634604474), (-17)); (10225113031890716, (-17)); ((-50250782882577671), (-17)); (85797099717319347, (-17)); ((-1066379387387056), (-16)); ((-35129627138258478), (-18)); ((-14350210077577608), (-17)); ((-98902631732935498), (-17))];
  [(25343596786037765, (-16)); (13508694314900949, (-17)); (28404588870216818, (-16)); (99088962575393091, (-17)); (11060035360460024, (-17)); ((-76846023682244885), (-18)); (82830656545717543, (-18)); ((-95039931356556806), (-17)); ((-29980031205838065), (-17)); ((-10619242868227532), (-17)); (29070381242191234, (-17)); ((-95090192003903606), (-17))];
  [(61750920497614663, (-16)); (25289853867176113, (-16)); (59918719996444896, (-16)); ((-81815161527015279), (-17)); ((-57164661249877158), (-17)); (62032933587887341, (-18)); (52974520845779982, (-17)); ((-70740466205739216), (-17)); (46791949971706576, (-17)); ((-22360221051421242), (-17)); (41569074384468335, (-17)); (88159132081424885, (-17))];
  [(35996458303700147, (-16)); (41241344720938988, (-16)); (21386825307313564, (-16)); ((-55490977603922897), (-17)); ((-74615311139231832), (-17)); ((-36787317762464739), (-17)); ((-71145109175766108), (-17)); (65483154260313081, (-17)); ((-2550156756923706), (-16)); (43117570025794011, (-17)); (12021308236446926, (-17)); ((-89422387036776674), (-17))];
  [(38667038627601173, (-16)); (85660988973494412, (-17)); (35248224310519407, (-16)); (65500288391603523, (-17)); (56553017814544981, (-17)); (50114552743534746, (-17)); (33712035084629288, (-17)); ((-8122645829719719), (-16)); (47600012215822063, (-17)); (67625519673193579, (-17)); ((-14283509672396472), (-17)); ((-72268737642005787), (-17))];
  [(21752482155455919, (-16)); (16592863280851875, (-16)); (88958813343997079, (-17)); ((-8837455996188745), (-17)); (56608754505366599, (-17)); ((-81959430725613058), (-17)); ((-99315451503949026), (-17)); (13017771134662362, (-18)); (11608034670589343, (-17)); (76380929610850065, (-18)); (82424233631244592, (-17)); (56106196148195897, (-17))];
  [(55040204001721778, (-16)); (26080933375699802, (-16)); (27596622781343645, (-16)); ((-86103277058305272), (-17)); ((-36183325304582437), (-17)); (35735033926435344, (-17)); ((-20257312189218885), (-17)); ((-40050101673041683), (-17)); ((-8936235593832309), (-16)); (46646189369435581, (-17)); ((-84182874302804533), (-17)); (2715468083828213, (-16))];
  [(64613419166816777, (-17)); (5788714747525848, (-15)); (39132399309488646, (-16)); (88022008741566171, (-17)); (37890149731846945, (-17)); (2857380846855852, (-16)); (72332568879971387, (-18)); ((-70218652649052848), (-17)); (70830931202010228, (-17)); (46902089206045927, (-17)); ((-60279991485151041), (-17)); ((-6454856043831052), (-16))];
  [(21257386748852531, (-16)); (34307791379507697, (-16)); (43728447667129089, (-16)); ((-95847618500760678), (-17)); ((-15025580939493621), (-17)); (24237696779260307, (-17)); ((-27858263811608192), (-17)); (67500655859020942, (-17)); ((-68319679419658175), (-17)); ((-60951755623181954), (-18)); ((-72234987201720668), (-17)); ((-68883637090616601), (-17))];
  [(49753628993328043, (-16)); (16770988597085414, (-16)); (1243059920924497, (-15)); ((-10610243885046568), (-17)); ((-25848599260791955), (-17)); (960170434920531, (-15)); (99227068088862791, (-17)); (34968456794555174, (-18)); (1190634405610137, (-16)); ((-643519099856555), (-16)); (9653818926491764, (-16)); (25277783333649378, (-17))];
  [(45000529332531967, (-16)); (36026497285351051, (-16)); (65983785303950138, (-17)); ((-89558271056421368), (-17)); ((-937589877299978), (-16)); ((-43490327747477603), (-17)); ((-1925126240088757), (-16)); (96295370573073491, (-17)); (18883604056604866, (-17)); (40108664666836413, (-17)); (25284266419908497, (-17)); ((-88045447867850357), (-17))];
  [(41821039202078181, (-16)); (18373114222304254, (-16)); (57801304360295029, (-16)); ((-26337117422489154), (-17)); (48792252082983956, (-17)); (83220624742575489, (-17)); ((-82868582214386599), (-17)); (32721536186765876, (-17)); ((-45410341898686696), (-17)); ((-4938779533094656), (-16)); ((-80923526901938225), (-17)); (31815538123687503, (-17))];
  [(24167921031168715, (-16)); (81043487292592353, (-17)); (81219158537035896, (-17)); (68918339488188596, (-17)); (54244873786307413, (-17)); ((-48039110629760456), (-17)); ((-72182180539148488), (-17)); (4561102603171947, (-16)); ((-52051581310730455), (-17)); ((-63241833310363593), (-18)); (70548763080874699, (-17)); (70589494494252147, (-17))];
  [(29504021974208223, (-16)); (91359325627477883, (-17)); (52385816046232927, (-16)); (61090490414495846, (-17)); (77727811686068693, (-17)); ((-15044576145954916), (-17)); ((-26028948261687873), (-17)); (3766523127595322, (-16)); (88903454405997806, (-17)); (74769284022964722, (-17)); ((-50395611350830938), (-17)); (43241606390942894, (-17))];
  [(57957634795368862, (-17)); (1586149161878468, (-15)); (57315216190815148, (-16)); ((-15352231955717303), (-18)); ((-83659613977376934), (-17)); ((-54760497431050204), (-17)); (99949266045165497, (-17)); (24447997941626255, (-19)); ((-31756017653971583), (-18)); (27905746312377043, (-18)); ((-54781467839917752), (-17)); (83613416833254406, (-17))];
  [(30987657419459138, (-16)); (45407094210160315, (-16)); (35240721632146128, (-16)); ((-17083745779274642), (-17)); ((-98439577270874334), (-17)); (42184424709457324, (-18)); ((-92900953630853711), (-17)); (1751937293399119, (-16)); (3259577252463432, (-16)); ((-32826185349916681), (-17)); (16496056290216457, (-18)); ((-94444271168989469), (-17))];
  [(41189566382674352, (-16)); (53624133199344728, (-16)); (90981003885178902, (-17)); (60520578187802343, (-17)); ((-44516963466230081), (-17)); ((-65996208827177638), (-17)); ((-24767785330664777), (-17)); (68258389082714088, (-17)); ((-68755720704876078), (-17)); (75655908068228284, (-17)); (57957159036474126, (-17)); (30284505787491983, (-17))];
  [(19852711227808417, (-16)); (46548699179836692, (-16)); (41568301514258854, (-17)); ((-57487351228391617), (-18)); ((-40204326547006225), (-17)); (91381421368838012, (-17)); (73681732345536866, (-17)); (60053996121611275, (-17)); (31056720180762215, (-17)); ((-67364340440978865), (-17)); (69116782887567818, (-17)); (26170899109979218, (-17))];
  [(60224317590987453, (-17)); (96760926654192669, (-17)); (61691990670522721, (-16)); (5672699956416537, (-16)); ((-67864539952451364), (-17)); ((-46652456928754715), (-17)); (72730369963785735, (-17)); (67857998045477663, (-17)); ((-1027547498614072), (-16)); (38630827138155305, (-17)); ((-28101535870875127), (-17)); (87851937237148525, (-17))];
  [(23699944448219719, (-16)); (52702999436830185, (-16)); (5941717912022086, (-15)); (52941509311805401, (-17)); ((-60810415827323006), (-17)); (59154796244227625, (-17)); (37490309413204381, (-17)); (79320068629506113, (-17)); (47987533930309856, (-17)); ((-76103043906864987), (-17)); ((-322800859950923), (-16)); (6479125456874002, (-16))];
  [(5046809410144701, (-15)); (21386743806246322, (-16)); (52758704430480585, (-17)); ((-53784436663645996), (-17)); ((-27670543653783725), (-17)); (79634008982835347, (-17)); (63999762863163712, (-17)); (48083999978934361, (-17)); (59932956705677831, (-17)); ((-54874991810779017), (-17)); (83200180047460781, (-17)); ((-81526261926477217), (-18))];
  [(1536196036114736, (-15)); (11917886353697424, (-16)); (86185453605396556, (-17)); (36999876506489332, (-17)); ((-32138372292246704), (-18)); ((-92847619187400754), (-17)); ((-68383791995163468), (-17)); (66707284040740833, (-17)); ((-29560027880063655), (-17)); (62886136237383483, (-17)); (7442989658848097, (-16)); (22483868950011049, (-17))];
  [(26503122704899589, (-16)); (18714950946633335, (-16)); (44339501471634239, (-16)); ((-2961876929013722), (-16)); (84216613376408389, (-17)); ((-45058745401377681), (-17)); (66470692156144084, (-17)); (52051855567414584, (-17)); (53593389669549141, (-17)); (68588450850130367, (-17)); ((-14077157504182494), (-17)); ((-71396484833510454), (-17))];
  [(38455965433043353, (-16)); (57505623497696234, (-16)); (14698393763455631, (-16)); (8614781115980289, (-16)); ((-38706991010283703), (-17)); ((-32868274662731495), (-17)); ((-28799810120473579), (-17)); (16067096080041793, (-17)); ((-94405610853271704), (-17)); (418225485760924, (-15)); (90794368054877295, (-17)); (26939116755880177, (-18))];
  [(48416690715424533, (-16)); (52789940125029577, (-16)); (15790138322400098, (-16)); (53677071760983963, (-17)); (10877366547941822, (-17)); ((-83668720942463881), (-17)); ((-83576512180093376), (-17)); ((-67373430665114073), (-18)); ((-54493805337990797), (-17)); ((-11564539721791015), (-17)); (99178077745970894, (-17)); (54745151052189939, (-18))];
  [(32558491705238444, (-16)); (83612866913838524, (-17)); (42208336602757921, (-16)); (67034057683772863, (-17)); (73721525550607325, (-17)); (84600106938326633, (-18)); (27338041337715735, (-17)); ((-3513394739824543), (-16)); (89544610312595974, (-17)); (68985988477849303, (-17)); ((-57712584509000064), (-17)); ((-43705731695345956), (-17))];
  [(30548110183955923, (-17)); (21970378631293235, (-16)); (37391223550360758, (-17)); ((-58610366192249042), (-17)); ((-77272406560878382), (-17)); ((-24368015083317487), (-17)); (63032642873715417, (-17)); ((-2458828892086998), (-16)); ((-73636281684360438), (-17)); (50908849006485346, (-17)); ((-58518298268440283), (-17)); (63118126244374007, (-17))];
  [(39288997482590018, (-16)); (12277552442344495, (-16)); (41291233535848413, (-16)); (33635254042018981, (-17)); (6646356297243492, (-16)); (66717797344771679, (-17)); ((-19082268164094771), (-17)); ((-64565834441188263), (-17)); (73939976092954218, (-17)); (92220045148776741, (-17)); ((-37601167799979884), (-17)); ((-90341271208310314), (-18))];
  [(52892949450320907, (-16)); (32987008212980617, (-16)); (58324753226882764, (-17)); ((-9876838763310648), (-16)); (85339934544036253, (-18)); ((-13113983379454702), (-17)); ((-14345503178877111), (-17)); ((-1593390290096543), (-16)); (9767454774344968, (-16)); (62459701329132825, (-18)); (9835284283671113, (-16)); (16961903284594981, (-17))];
  [(15872369366358183, (-16)); (35452218139838401, (-16)); (50623411260912325, (-16)); ((-91964166992976848), (-17)); ((-64568975292087641), (-19)); (39270536971511355, (-17)); ((-36668938628482406), (-17)); (37231682859811333, (-17)); ((-85259549208795493), (-17)); ((-1407056960995034), (-16)); ((-92808323312994967), (-17)); ((-34476574578721386), (-17))];
  [(37620535798897379, (-16)); (43833249209283593, (-16)); (36258050125402703, (-16)); ((-32315744721044654), (-17)); ((-76995645567766824), (-17)); ((-55021479503254955), (-17)); ((-4253124443930934), (-16)); ((-40121877929165917), (-17)); (8112538540975216, (-16)); ((-84538665056694584), (-17)); (49617592394632959, (-17)); ((-19781522575172739), (-17))];
  [(52569700361646312, (-16)); (29718698826334387, (-16)); (34255214257397331, (-16)); ((-98563163129577058), (-17)); ((-87505018716855815), (-18)); (14447546189094174, (-17)); ((-12447332400888997), (-17)); ((-20190541983310373), (-17)); ((-97146311975915811), (-17)); (11417827726593244, (-17)); ((-97548812045118272), (-17)); (18811232777041237, (-17))];
  [(15296423340560483, (-16)); (52558711943765148, (-16)); (277758822055476, (-14)); (51711959363256632, (-17)); (35214301605337311, (-18)); (855188446392804, (-15)); (33737046448370062, (-17)); ((-92664786169047109), (-17)); ((-16584604342139028), (-17)); (78661839259919519, (-17)); (3742775619602729, (-16)); ((-4910680309669247), (-16))];
  [(19378361118966427, (-16)); (50762000151340496, (-16)); (16943347024641107, (-16)); (35583840174818404, (-17)); ((-33536607373609745), (-17)); (87230076718304694, (-17)); (82432754239408812, (-17)); ((-32712146069506398), (-17)); ((-46203425501065448), (-17)); (44029891516084924, (-17)); (88347107849638307, (-17)); (16004911361396881, (-17))];
  [(55764323709892532, (-16)); (4010042237648821, (-15)); (65886033304273961, (-17)); ((-64601079951983686), (-17)); (58049162315723601, (-17)); ((-49568086744196471), (-17)); ((-76245301316852232), (-17)); ((-45962334618832157), (-17)); (45542483721124749, (-17)); (36543804043671364, (-18)); (6721427341591425, (-16)); (73951923254442131, (-17))];
  [(5334433582405258, (-15)); (20492749849996592, (-17)); (41646813804333016, (-16)); (97907574087074178, (-17)); ((-11857681524687858), (-17)); (16537905709102252, (-17)); ((-20293417594767937), (-17)); ((-50857267837546949), (-17)); (83676254161048447, (-17)); ((-15113367290063965), (-18)); ((-85281496802994083), (-17)); ((-52199446015570572), (-17))];
  [(27961139154392294, (-16)); (45853325831218078, (-17)); (33475638827665568, (-16)); (89670269063509911, (-17)); (41647966893768912, (-17)); ((-14989653087822469), (-17)); (43833299220874605, (-17)); ((-88261326293373199), (-17)); (16987647287013624, (-17)); ((-6155056903962014), (-17)); ((-21803328519981452), (-17)); ((-97399846714246696), (-17))];
  [(52122110810189044, (-16)); (26522090971060313, (-16)); (11575016829904847, (-16)); ((-88262280522469561), (-17)); ((-22529587010100063), (-17)); (41257575621056802, (-17)); (46832323633942352, (-17)); ((-49727918302481988), (-17)); (73033332145995922, (-17)); (40624253862163208, (-18)); (8378276583197769, (-16)); (54442123852081836, (-17))];
  [(2330498158288727, (-15)); (58342278475648905, (-16)); (41907936919141253, (-16)); (900900082062422, (-15)); ((-29891637836880042), (-17)); (31468721118406057, (-17)); ((-42178105636001761), (-17)); ((-43193889120805784), (-17)); (79720106294320836, (-17)); ((-10237080949054292), (-17)); ((-85092760738198747), (-17)); ((-51521104836699405), (-17))];
  [(40941494409722283, (-16)); (41101861031903297, (-16)); (56781843306171531, (-16)); ((-56645921491770546), (-17)); ((-47764363692489042), (-17)); ((-67155082751790307), (-17)); (77481581037134895, (-17)); ((-31134042609612111), (-18)); ((-63141993268297503), (-17)); (28068562099510291, (-17)); ((-87800183797982245), (-17)); (38772200694653264, (-17))];
  [(38756371650246422, (-16)); (33091531941440178, (-17)); (80137498276788388, (-17)); (94574534439314628, (-17)); (24123542878120172, (-17)); (2176492854558425, (-16)); ((-11491847658290264), (-18)); (69429492818731364, (-17)); ((-71959883972305816), (-17)); ((-32470552966663152), (-17)); (67805606006739783, (-17)); (65939843676626153, (-17))];
  [(46625038270166828, (-16)); (45019368329890366, (-16)); (14621735591920684, (-16)); ((-2089020926535072), (-16)); ((-48764284195230642), (-18)); ((-9767200009582645), (-16)); ((-96567704935891929), (-17)); (1679348538341168, (-16)); (19815580034196634, (-17)); (15436240483497554, (-17)); (98459124993808489, (-17)); ((-8217249247115796), (-17))];
  [(59079232825985861, (-17)); (42762542275640651, (-16)); (50001439372987715, (-16)); ((-42243920316677236), (-17)); (75275757841112401, (-17)); (50487735914025988, (-17)); ((-69775129341331144), (-17)); ((-62560634648758406), (-17)); (34894101474963912, (-17)); (57852247334729645, (-17)); ((-20487246613217075), (-17)); (78951822046932474, (-17))];
  [(11074613094081993, (-16)); (24122906050625064, (-16)); (39642952935075817, (-16)); ((-74563966345021215), (-17)); ((-29781418129660181), (-17)); ((-59609412487331992), (-17)); (2343432967243127, (-16)); ((-95462020922501989), (-17)); (18380281668015847, (-17)); ((-62378258357398453), (-17)); ((-26399920102135876), (-19)); (78159344858561286, (-17))];
  [(61634599756011987, (-17)); (38640028095526318, (-16)); (23026953333624314, (-16)); ((-7502143272175672), (-16)); (53953233111604126, (-17)); (38220848619305053, (-17)); (64488800897892662, (-17)); (72466238525925375, (-17)); (24286597799108123, (-17)); ((-14593806601667936), (-17)); (42868320595850146, (-17)); ((-89159003461033148), (-17))];
  [(47338475034111678, (-16)); (19292342557008855, (-16)); (3684607687774744, (-15)); ((-3508118667082627), (-16)); ((-20093205044944717), (-18)); (9362303655018277, (-16)); ((-50097153814514084), (-17)); ((-84064893625624959), (-17)); ((-20575928639973373), (-17)); (79117542438144262, (-17)); ((-54120756561808869), (-17)); (28484349873673859, (-17))];
  [(52413500393554262, (-16)); (15243964988882632, (-16)); (5226579369153931, (-17)); (46383180326720876, (-18)); ((-50409353307351923), (-17)); (86240263827068364, (-17)); (54845880988053919, (-17)); (73441524243584322, (-17)); (39978392356662373, (-17)); ((-83489013315956817), (-17)); (45444907480526153, (-17)); (31053905384257269, (-17))];
  [(1918672558787635, (-15)); (58397008087091269, (-16)); (86729338521985477, (-17)); (90326198818939718, (-17)); ((-14627747258270077), (-17)); (4033865165160514, (-16)); (40224069195953455, (-17)); (61597823813713015, (-17)); ((-67732801202474402), (-17)); ((-14939948602338698), (-17)); (7740631183284048, (-16)); (61522847985090356, (-17))];
  [(53137019936247376, (-17)); (23051137171194234, (-16)); (50068586785636944, (-16)); ((-67008061859535495), (-17)); ((-63993684891573344), (-17)); ((-37612869337856708), (-17)); (54566909781230655, (-17)); ((-76818907391996438), (-17)); (33485934719325205, (-17)); ((-50322678811403687), (-17)); (19140953732486699, (-18)); (86394237285518116, (-17))];
  [(36945270891101258, (-16)); (48006747257830211, (-16)); (22093005671069572, (-16)); (88171101416993303, (-18)); ((-84767276014611803), (-17)); ((-52314123196434836), (-17)); ((-92528494813332285), (-17)); (12479129075050426, (-17)); ((-35815485269745684), (-17)); (36888158212741951, (-17)); (51563361552471054, (-17)); ((-77333586035311119), (-17))];
  [(31829355792054521, (-16)); (58240472987187841, (-16)); (12955790191234595, (-17)); (8964348440935217, (-16)); ((-44279686026424131), (-17)); ((-18316954854818428), (-18)); (43671935457379046, (-17)); (88964989984715914, (-17)); ((-1334138712525493), (-16)); (75370920358420704, (-18)); (11159747417423865, (-17)); (99089112828920556, (-17))];
  [(52348395241196366, (-16)); (18382562439018224, (-16)); (52040527009648123, (-16)); ((-26428252087664883), (-17)); ((-48126329310420446), (-17)); (83578728865039598, (-17)); ((-50958603022101512), (-17)); (80543453240415697, (-17)); (30265044492695481, (-17)); ((-81882649380846872), (-17)); ((-34592030400280604), (-17)); ((-45810731964893991), (-17))];
  [(2139634626023976, (-16)); (28876586817291572, (-16)); (15865575603604249, (-16)); ((-96793164650730379), (-17)); ((-24548528598260683), (-17)); ((-53341372832893107), (-18)); ((-57203738269699461), (-18)); (42213767439749572, (-17)); ((-90472510531224104), (-17)); (2446141042900668, (-16)); ((-87266073489089191), (-17)); ((-42264309028074343), (-17))];
  [(32715428867679441, (-16)); (29243875434977884, (-16)); (47144314311957221, (-16)); ((-97650356474284417), (-17)); (21368421595850134, (-17)); (27925685214841303, (-18)); ((-28362066164140269), (-18)); ((-2558913948248851), (-16)); (96628939105087763, (-17)); (2136267334567909, (-16)); (94279300480263184, (-17)); (25593938510476633, (-17))];
  [(55969496525343505, (-16)); (4810250908749377, (-15)); (62707765143565517, (-16)); (97705799898196125, (-18)); (76993510364487538, (-17)); ((-63059774249644174), (-17)); ((-76205107188733834), (-17)); (46541743576959937, (-17)); (450183045346012, (-15)); (64010291399243946, (-17)); (43656219105301119, (-17)); (63220385386470224, (-17))];
  [(39681607717286256, (-16)); (57579447114702882, (-16)); (33685808173357579, (-17)); (86520332688053714, (-17)); ((-3396648527599414), (-16)); ((-36885090613202731), (-17)); (19866108771729959, (-17)); (9076204092277258, (-16)); ((-36980936302407919), (-17)); (46038785320838965, (-17)); (24668396898230543, (-17)); (85275438671712922, (-17))];
  [(2153355480459151, (-15)); (11497410799488887, (-16)); (22538083526505011, (-16)); (40872376007516564, (-17)); (50211053838933362, (-17)); ((-76212196870867854), (-17)); ((-2742610038683333), (-16)); ((-72888691726865951), (-17)); ((-62729958041730305), (-17)); ((-87047446240952564), (-17)); (46541257940988656, (-17)); ((-16020406118411482), (-17))];
  [(4760435304550013, (-15)); (40114250663223112, (-16)); (19738813673935165, (-16)); ((-6449546299822797), (-16)); (36703877938274725, (-18)); ((-76333894870412122), (-17)); ((-68776394337497271), (-17)); ((-46335765166081733), (-17)); (55882058376609567, (-17)); ((-33318806019683256), (-17)); (88541092832179624, (-17)); (32408826660434198, (-17))];
  [(61788324270966744, (-16)); (41239699163298873, (-16)); (1438484872324663, (-15)); ((-55504666419941628), (-17)); (82729426245315374, (-17)); ((-86645276115855013), (-18)); ((-19502937334025719), (-17)); ((-23068909309542607), (-17)); ((-95328174526805898), (-17)); ((-80863263852976341), (-17)); ((-51221747884946511), (-17)); (28938989316403363, (-17))];
  [(47336648806431256, (-16)); (55771757095424066, (-16)); (23224194240916263, (-16)); (76095691029960322, (-17)); (13802814188695226, (-18)); ((-64865558117367184), (-17)); ((-46447088012030768), (-17)); ((-68646610106820805), (-17)); ((-55949181728107467), (-17)); ((-45300262933844915), (-17)); (72703079329880183, (-17)); ((-51596011803991837), (-17))];
  [(42159880702527239, (-16)); (28582584005991474, (-16)); (23173412872455779, (-16)); ((-96012865823189897), (-17)); (13314363719744682, (-17)); (24581645900071039, (-17)); (27085774553397673, (-17)); (22537718485195912, (-17)); (93586388232074513, (-17)); (69202899694050232, (-18)); (96513102552039043, (-17)); ((-25245407949148835), (-17))];
  [(24007788670961574, (-16)); (10883626106687303, (-16)); (38209822486692708, (-16)); (46393649970550538, (-17)); (65369968716857285, (-17)); ((-59786256216350742), (-17)); (88419782259305912, (-17)); ((-38313063295005573), (-17)); (26721738082876068, (-17)); ((-54379543605080363), (-18)); ((-65260067199704885), (-17)); ((-75574812480501952), (-17))];
  [(35137750174328466, (-16)); (10257564403358874, (-16)); (3131639429936798, (-15)); (51845219809175591, (-17)); (79656255002897514, (-17)); (31095887539216982, (-17)); (79961808608993512, (-17)); ((-58048002045810532), (-17)); (15379812172723897, (-17)); (30301523838199235, (-17)); (16891136652189501, (-17)); ((-93789696425993963), (-17))];
  [(48506650588425178, (-16)); (27726428168830491, (-17)); (32898883373480161, (-16)); (96180787223451047, (-17)); ((-377291797347011), (-16)); (27111275496418513, (-17)); ((-773727285260251), (-16)); ((-98753631149298127), (-17)); (13706018518620031, (-17)); (26256252167467026, (-17)); ((-15280229867179393), (-17)); ((-95273940809250357), (-17))];
  [(22451853818850402, (-16)); (52581402324116846, (-16)); (13008390610913225, (-16)); (51906036026233415, (-17)); ((-5337154416045613), (-16)); (6676257707707095, (-16)); (7857826016811218, (-16)); ((-93911478587985209), (-19)); ((-61843149114282792), (-17)); (33633620872511372, (-17)); (8456119876957412, (-16)); (41450973567055616, (-17))];
  [(30811783533622261, (-16)); (93069207487228212, (-17)); (3522390739502661, (-15)); (59727905814182258, (-17)); (80057027380075707, (-17)); ((-48424822269144227), (-18)); (76122171723180032, (-17)); ((-54683731204212016), (-17)); (34858349268606786, (-17)); (25258508253633333, (-17)); ((-24506364655968424), (-17)); ((-9360259532806684), (-16))];
  [(52149856246938535, (-16)); (21511925717336493, (-16)); (46825542843652865, (-16)); ((-54835533785205204), (-17)); ((-40282167396430452), (-17)); (73283089620577369, (-17)); ((-74452105005201441), (-17)); (6342077243153903, (-16)); ((-20849213042256476), (-17)); ((-38078186600547015), (-17)); ((-65993580097104099), (-17)); ((-64768040661896109), (-17))];
  [(52681895854924381, (-16)); (71502975520520165, (-18)); (23345423854866114, (-16)); (99744475120404386, (-17)); ((-37694515775194934), (-18)); (60688481411028269, (-18)); (17761538347691116, (-18)); ((-69196706773533911), (-17)); ((-72171054095480713), (-17)); (69198959898445309, (-18)); (72094431175384854, (-17)); ((-68952940713122823), (-17))];
  [(61335438182368511, (-16)); (44498694220933661, (-16)); (50097690199458249, (-16)); ((-25951460920244374), (-17)); (95494665029536685, (-17)); ((-143975910138333), (-15)); ((-14215844597567467), (-17)); (10968551532445614, (-17)); (98374796770605311, (-17)); (95521889839360075, (-17)); (27576436103613339, (-17)); (10728873815107051, (-17))];
  [(52748160684165288, (-16)); (43556852256228895, (-16)); (19001514502060235, (-16)); ((-3491873796440127), (-16)); (49967503030382671, (-17)); ((-79271245605718721), (-17)); ((-58849371070802969), (-17)); ((-77526126171645493), (-17)); ((-2294452626203122), (-16)); ((-72920732741411876), (-17)); (38638690476345094, (-17)); (56476706124992626, (-17))];
  [(28264915098826116, (-16)); (10477281358714603, (-16)); (21047406794254662, (-16)); (4995404298342474, (-16)); (8236387907612901, (-16)); ((-26847439601253448), (-17)); (18807217559042919, (-17)); ((-40563193974220968), (-17)); ((-89447838779349798), (-17)); ((-84562888771002742), (-17)); (39633555456740477, (-17)); ((-35753309281246903), (-17))];
  [(27594974311063223, (-16)); (4813647244312782, (-15)); (37716302552277416, (-16)); (10108531513641239, (-17)); ((-92313258574238244), (-17)); (37095550704141761, (-17)); ((-96445383564151033), (-17)); (57755039305965039, (-20)); (26425076225419342, (-17)); ((-24415273494300854), (-17)); ((-3844813331959388), (-16)); ((-89026038126141638), (-17))];
  [(49711870697663967, (-16)); (34439023926840888, (-16)); (20985881229996964, (-17)); ((-95465136684939089), (-17)); (76193694742880125, (-18)); ((-28781120314195313), (-17)); ((-13447938205816679), (-17)); (75211127798435606, (-17)); (64516968413743092, (-17)); (26562391378383726, (-17)); (6546167935595355, (-16)); ((-70775757856485655), (-17))];
  [(2097446655182206, (-15)); (92544765500938445, (-18)); (43479116792336967, (-16)); (99572078861830149, (-17)); (46450366438732578, (-18)); ((-79890390980737955), (-18)); (9120015117392373, (-17)); ((-35433829839959696), (-17)); (93065939135278253, (-17)); (14921244559391375, (-18)); ((-93396291882760829), (-17)); ((-35705829036141035), (-17))];
  [(1711633535782582, (-15)); (10550224931552197, (-16)); (35913561843487711, (-16)); (49320816328429251, (-17)); (12211126458236715, (-17)); ((-86129817527487529), (-17)); (4844189069860374, (-16)); ((-86093522518083243), (-17)); (1553346728753186, (-16)); ((-72255382513982136), (-17)); ((-49384144935892588), (-17)); ((-48377328643786027), (-17))];
  [(32233905456934835, (-16)); (16115312040000449, (-16)); (24401230331794657, (-16)); ((-40723612704299916), (-18)); (99582964062183477, (-17)); (81638925931797654, (-18)); (81339383881915861, (-17)); (80493627375613053, (-18)); ((-5761173829376689), (-16)); ((-5802861796901102), (-16)); (42943018185769372, (-18)); ((-81327968550170604), (-17))];
  [(22887242554403275, (-17)); (60459562182003646, (-17)); (55832273813361164, (-16)); (82273202535086687, (-17)); ((-55360640136744754), (-17)); ((-12896498294903605), (-17)); (50651390886848724, (-17)); (61102915571001015, (-17)); (60834778786075816, (-17)); ((-25798386496993636), (-17)); ((-56582976524507511), (-17)); (7831225971569693, (-16))];
  [(43376905401242061, (-16)); (22534845022090706, (-16)); (74862536487928777, (-17)); ((-63088100144821058), (-17)); (28396565776434729, (-17)); (72204755191203607, (-17)); (28340850232593345, (-17)); (95065319475341259, (-17)); ((-12624628356708795), (-17)); ((-72226642094249005), (-17)); (12498803348957765, (-17)); ((-68022732131496599), (-17))];
  [(4736113784381363, (-15)); (17308194479876937, (-16)); (5802647992495471, (-15)); ((-15934103244401249), (-17)); ((-23419489247412294), (-18)); (98694577505710335, (-17)); ((-43545416011399202), (-17)); (89887776928321816, (-17)); ((-48973771835986592), (-18)); ((-88599667596390785), (-17)); ((-43757317492256748), (-17)); ((-15342622581908943), (-17))];
  [(21725790287120943, (-16)); (19625302965316895, (-16)); (62443641778373102, (-16)); ((-38179160709177457), (-17)); (52322896416384967, (-17)); ((-76188359991163013), (-17)); ((-49326498656395829), (-17)); (58176511800899644, (-17)); (6467140020890505, (-16)); (7816167998350203, (-16)); (62272048186004225, (-17)); (3597748862356448, (-17))];
  [(37881805294836512, (-17)); (58183093152192269, (-16)); (59087229230370397, (-16)); (89387716676652418, (-17)); (41652771296894164, (-17)); (16579588373151669, (-17)); ((-44830770429081379), (-17)); (83210635811282829, (-17)); (32652597302773018, (-17)); ((-19526922317314871), (-19)); ((-36620168366225286), (-17)); (93053345661291487, (-17))];
  [(60552061667586683, (-16)); (52272494530889739, (-16)); (47244379105708951, (-16)); (49241341465217786, (-17)); (84784093563879237, (-17)); ((-19670988009177262), (-17)); (18648027235005363, (-17)); (11798819067803758, (-17)); (97534808908654402, (-17)); (8501494792651656, (-16)); ((-51695699503504189), (-17)); ((-10000664072704156), (-17))];
  [(12196992847597179, (-17)); (18814639020149404, (-16)); (12393426591323389, (-17)); ((-30569432271298752), (-17)); ((-94505622716855253), (-17)); ((-11584346572417967), (-17)); (92348737123880043, (-17)); ((-26467759421199583), (-17)); ((-27769920108743601), (-17)); (2317801894543578, (-16)); ((-19187104683117623), (-17)); (95365792880068401, (-17))];
  [(29919625557497254, (-16)); (12118171649683998, (-16)); (35712652241735849, (-16)); (35131865068262158, (-17)); (92579449638360989, (-17)); ((-13956989699917471), (-17)); (89978288311468158, (-17)); ((-29265688922766203), (-17)); (32363978192029996, (-17)); (2587778370270018, (-16)); ((-23928329580939423), (-17)); ((-93582986456418482), (-17))];
  [(20118380213907376, (-16)); (91152502185539197, (-17)); (61495747823749269, (-16)); (61254102580601655, (-17)); (33742386427095883, (-17)); ((-7147997114751562), (-16)); ((-2391956718898067), (-16)); (94103574139439439, (-17)); (23924289742328106, (-17)); (75337833938446697, (-17)); (24430907448479838, (-18)); (65713332627979448, (-17))];
  [(12488730107660908, (-16)); (54635803504941531, (-16)); (38596284409001553, (-16)); (68250998831865373, (-17)); (23124315305624771, (-17)); (69333016666655722, (-17)); ((-28199746686967125), (-17)); ((-79185701069900227), (-17)); (54170093528249397, (-17)); (67428298549226329, (-17)); ((-56523364971615486), (-17)); ((-47524033572940255), (-17))];
  [(41841723617086632, (-16)); (36826519331191783, (-16)); (22212030082245215, (-17)); ((-85716358652851166), (-17)); ((-25957912430117885), (-17)); ((-44484746167266354), (-17)); (15520277383114003, (-17)); (69337981526979409, (-17)); ((-70365938547819151), (-17)); (49110353788656291, (-17)); ((-67219276253427429), (-17)); ((-55405252916293246), (-17))];
  [(14776640488182649, (-16)); (3967379321244743, (-15)); (32957352286030779, (-16)); ((-67797891074101002), (-17)); (68360878150831833, (-18)); (73189574867523366, (-17)); ((-44819714579421965), (-18)); ((-99765817789459854), (-17)); (51665784277882723, (-18)); (73371369741572412, (-17)); (22249535897826134, (-19)); (67945511978795969, (-17))];
  [(3172306147882737, (-15)); (53430070813779862, (-16)); (38726970241941951, (-16)); (58964408797493462, (-17)); ((-80728229105299043), (-17)); ((-24802259341487318), (-18)); ((-58441091732816886), (-17)); ((-44765117869568694), (-17)); (67681038845455843, (-17)); ((-55747980162859323), (-17)); ((-38458253309867957), (-17)); ((-73573945524998674), (-17))];
  [(34097419831624718, (-16)); (10083198983016666, (-16)); (62130660832811948, (-16)); (53328273367280576, (-17)); (81570571315472573, (-17)); (22412879220037671, (-17)); ((-82940410408452181), (-17)); (55630005021219942, (-17)); ((-51177009112060717), (-18)); ((-16642823706994855), (-17)); ((-15860152477402162), (-17)); (9732148777352021, (-16))];
  [(36375725594138215, (-16)); (38484306661713017, (-16)); (34660025525714278, (-16)); ((-76041917162869821), (-17)); ((-57117777831499661), (-17)); ((-30906088231717238), (-17)); ((-44287155805134115), (-17)); (10799838781076565, (-17)); (89005681352341381, (-17)); ((-47500259629680136), (-17)); (81369053932648139, (-17)); ((-33508243720296332), (-17))];
  [(18102533162425674, (-17)); (82325595979442201, (-17)); (44882112886649512, (-16)); (67983701386451945, (-17)); ((-72137979453230305), (-17)); ((-13203342993463957), (-17)); ((-31636533731564567), (-18)); ((-20871888974968927), (-17)); (97746383810098503, (-17)); ((-73268053359784635), (-17)); ((-66033901679530438), (-17)); ((-16471678294753694), (-17))];
  [(40604617844580551, (-16)); (28487245457597452, (-16)); (24106836909216063, (-16)); ((-95741979354654128), (-17)); (17515954797170394, (-17)); (22949176821761286, (-17)); (28361465436133604, (-17)); (42212003563827266, (-17)); (86103275393230161, (-17)); (53945034588904352, (-18)); (8894570300284842, (-16)); ((-45382389202873635), (-17))];
  [(95350528446289828, (-18)); (5449376388308437, (-15)); (25681475050635507, (-16)); (67206015064588187, (-17)); (73713291371846024, (-17)); (70499797352670437, (-18)); (65746703234445114, (-17)); ((-55019048556875105), (-17)); ((-51480824679661297), (-17)); ((-34069378522951521), (-17)); (39233340044221948, (-17)); ((-85440168984116005), (-17))];
  [(28920681608450707, (-16)); (4244870567673674, (-15)); (46508210895376187, (-16)); ((-45067238862015346), (-17)); ((-86504278675844259), (-17)); (22044358737008657, (-17)); ((-27325113106089216), (-17)); (36876781033489331, (-17)); (88845040460047708, (-17)); ((-849840112909098), (-15)); (34016360642784199, (-17)); ((-40256738982766072), (-17))];
  [(50190567534703403, (-16)); (46818066794385933, (-16)); (60339078928805678, (-16)); ((-30577534014573277), (-18)); (30174239572840889, (-17)); ((-95289901932663768), (-17)); ((-57332038859317612), (-18)); (95124577132068366, (-17)); (30305860797006084, (-17)); (99788679304509353, (-17)); (63898428498654194, (-18)); ((-11787243171372471), (-18))];
  [(41674034394078427, (-16)); (31419494944935287, (-16)); (2188329473185284, (-16)); ((-99999993633228534), (-17)); ((-18498836389328725), (-20)); ((-30514706355794246), (-20)); (11433211921427639, (-20)); (64395623112884226, (-17)); ((-7650623238132328), (-16)); (33802898054741213, (-20)); ((-76506230999157343), (-17)); ((-64395616897950891), (-17))];
  [(60344199815792443, (-16)); (27796600975283949, (-16)); (3287085890338751, (-15)); ((-93521428671639295), (-17)); ((-34318258543150554), (-17)); (87177697710456928, (-18)); ((-35219575933026165), (-17)); (8762152562151565, (-16)); ((-32894524146974374), (-17)); (3650184969736206, (-17)); ((-33833790481167642), (-17)); ((-94031647711625044), (-17))];
  [(39922391988734613, (-16)); (30787943174171786, (-16)); (46709352309853172, (-16)); ((-99802883241120088), (-17)); (41388115576096486, (-18)); (47174925172116647, (-18)); ((-45419196730554112), (-18)); ((-99509745466787947), (-17)); ((-87853015212105812), (-18)); (43307577215613763, (-18)); ((-89822489403082906), (-18)); (99501576578119943, (-17))];
  [(11648048276263123, (-16)); (60093487473128055, (-16)); (33358490224377602, (-16)); (96274047479556768, (-17)); (10679970769907457, (-17)); (24844436122761418, (-17)); (56832024027160893, (-18)); ((-97809905604348335), (-17)); (20023076090307171, (-17)); (26438778193286694, (-17)); ((-17865066191380061), (-17)); ((-94772519316644732), (-17))];
  [(52277842420355753, (-16)); (57774967342851635, (-16)); (18383538777289818, (-16)); (87484113028861943, (-17)); (23875539527145095, (-17)); ((-42148411356076526), (-17)); ((-34336613838066299), (-17)); ((-30810333006688884), (-17)); ((-88722715975968924), (-17)); ((-34169093018235391), (-17)); (92090618372908484, (-17)); ((-18756094742949769), (-17))];
  [(73690502450731132, (-17)); (41189343420562503, (-16)); (10824819357999321, (-17)); ((-55922829677235275), (-17)); (61392768861740066, (-17)); (55709649544579731, (-17)); ((-55014731155080943), (-17)); (2278756707526095, (-16)); ((-80337451681794414), (-17)); ((-62016259777780058), (-17)); ((-75575490195429396), (-17)); (21031614414862621, (-17))];
  [(56337544488223621, (-16)); (15936494145420566, (-16)); (60047746948219034, (-16)); ((-2285109857638332), (-17)); ((-79622014271943631), (-17)); (60457531509456519, (-17)); (59940635020005184, (-17)); (47307310919480167, (-17)); (6456886716495932, (-16)); ((-80011865034737517), (-17)); (37714097852739853, (-17)); (46644916945117515, (-17))];
  [(11278072963916324, (-16)); (28457203252864236, (-16)); (44936656742578149, (-16)); ((-95654815771053692), (-17)); ((-12498099502876658), (-17)); ((-26343001511254788), (-17)); (23003504852272008, (-17)); ((-87863577415715965), (-17)); ((-41842926860151475), (-17)); ((-17916332892566941), (-17)); ((-46084588232170226), (-17)); (86920744032446251, (-17))];
  [(5195295999442207, (-15)); (36218371583980362, (-16)); (12673223769171895, (-16)); ((-88688198903821103), (-17)); (21453050753521072, (-17)); ((-40916622399253755), (-17)); ((-45457870470757544), (-17)); ((-56328014557977679), (-17)); (68998092641899034, (-17)); ((-82453251882563264), (-18)); (79792990853351908, (-17)); (59708401613314044, (-17))];
  [(50129086340170703, (-16)); (93427125936533392, (-18)); (20991338672392494, (-16)); (99563885968546495, (-17)); ((-27615765605261192), (-18)); (89110215880461058, (-18)); (63038649392674756, (-18)); ((-50497059388226873), (-17)); ((-86083147479453626), (-17)); (68770558867690817, (-18)); (862694655601983, (-15)); ((-50102748570193378), (-17))];
  [(56076584755050867, (-16)); (11319478384591932, (-16)); (50752926446554874, (-16)); (42489735080936547, (-17)); ((-70643024301662571), (-17)); (56605525616025698, (-17)); ((-27841220778210252), (-17)); (4930204305568272, (-16)); (82426785550053827, (-17)); ((-86136454758312309), (-17)); ((-50782592175373631), (-17)); (12804271236182663, (-18))];
  [(52711549091842151, (-16)); (31220956252853234, (-16)); (46315578063551746, (-16)); ((-99980993896448533), (-17)); ((-10335504043888654), (-18)); (16530677662781577, (-18)); ((-17311225475038713), (-18)); (86063988699706973, (-17)); ((-50891974453957212), (-17)); ((-8967018477977793), (-18)); ((-50910918501420666), (-17)); ((-86065523312984382), (-17))];
  [(44433838731900893, (-17)); (12011370188986465, (-16)); (45811716181616333, (-16)); (3612977744197966, (-16)); ((-84190513245687726), (-17)); ((-40082373450441999), (-17)); (28722216791991761, (-17)); ((-30847590645162681), (-17)); (9068329732614655, (-16)); ((-88711179929853501), (-17)); ((-44276219698797148), (-17)); (13036215886406755, (-17))];
  [(71440568025822948, (-17)); (54429136524681336, (-16)); (29812061419819762, (-16)); (66726051540376774, (-17)); (56270199811336985, (-17)); (48798551812765872, (-17)); (63341124796972526, (-17)); ((-77338873706659084), (-17)); (25691483491204703, (-18)); (39185915266653354, (-17)); (29195260351256447, (-17)); ((-87247354216256989), (-17))];
  [(31824495972794762, (-16)); (18776792297483602, (-16)); (4416466287611847, (-15)); ((-30208864307409644), (-17)); (95248429964380144, (-17)); (3893726566810253, (-17)); (24052111254785535, (-17)); (36631996545329337, (-18)); (96995241700190882, (-17)); (92243809881443695, (-17)); (30237684395661024, (-17)); ((-24015869356416544), (-17))];
  [(38662265956945245, (-16)); (22904588240599129, (-16)); (49987376643477006, (-16)); ((-65913089793190283), (-17)); (56307520989356985, (-17)); (49849048877064417, (-17)); ((-63723417123103254), (-17)); ((-77018357574897567), (-17)); (27383766395817632, (-18)); (39934830712923086, (-17)); ((-29960568694508105), (-17)); (86646255657309479, (-17))];
  [(58481581453340334, (-16)); (31190800935267551, (-16)); (60979573878710802, (-17)); ((-99974660302209861), (-17)); ((-20413984148521296), (-18)); (9486780115413946, (-18)); (2216774924618093, (-17)); ((-96609717396397554), (-17)); (2572252735486511, (-16)); (39141588026978319, (-19)); (25737039400444617, (-17)); (96630489994145397, (-17))];
  [(56267549043000997, (-16)); (39489730431814196, (-17)); (51545709151448378, (-16)); (9230360776352351, (-16)); ((-30476063461748343), (-17)); (23478789357909616, (-17)); ((-81795123462716321), (-18)); (44087535955595775, (-17)); (8938335835680622, (-16)); ((-37591748717169199), (-17)); ((-84424514977816345), (-17)); (38201592887544239, (-17))];
  [(45617561773037583, (-16)); (56880439475724405, (-16)); (17475372699696705, (-16)); (82806925726826142, (-17)); ((-84129640215319768), (-18)); ((-55427746553908419), (-17)); ((-56043475541468124), (-17)); ((-15003043804027233), (-17)); ((-81449601139890815), (-17)); ((-14635234554877608), (-18)); (98509546303832141, (-17)); ((-17138476773283809), (-17))];
  [(96025460499632975, (-17)); (58874724662875053, (-16)); (25042407092668979, (-16)); (92272202286704463, (-17)); (22099207436195145, (-17)); (31582680631217946, (-17)); (36554451602287075, (-17)); ((-76165972761876377), (-17)); ((-53502492103575516), (-17)); (12231629213540786, (-17)); (60912803448282726, (-17)); ((-78358264547227763), (-17))];
  [(16923993382092921, (-16)); (17943692528884614, (-16)); (4531458244150766, (-15)); ((-22171503218710387), (-17)); (11828447374868258, (-17)); ((-96791075403276139), (-17)); (97339591845698659, (-17)); ((-32007577108058308), (-18)); ((-22688301156973234), (-17)); ((-57817215719464528), (-18)); ((-99246375161900446), (-17)); ((-10804106297505583), (-17))];
  [(51318183164855151, (-16)); (23786918054336161, (-16)); (16505240715062259, (-16)); ((-7228345073235205), (-16)); ((-28141099643285766), (-17)); (63112449335216703, (-17)); (6067071778134776, (-16)); ((-69564376815801388), (-17)); (38468967780865237, (-17)); (33078191518275107, (-17)); (6609747339419153, (-16)); (67356939188063303, (-17))];
  [(51504068889605961, (-16)); (38023402137087543, (-16)); (21389636555618612, (-16)); ((-78953366909121625), (-17)); (26030106233226419, (-17)); ((-55576968459970577), (-17)); ((-32838695769220616), (-17)); ((-94423143855447478), (-17)); (24269249329229858, (-18)); ((-51845789741214188), (-17)); (2016689053722508, (-16)); (8309819860965334, (-16))];
  [(48190652466174, (-14)); (27254508887338216, (-16)); (50307162986600336, (-16)); ((-91465537601675539), (-17)); ((-35819742560385842), (-17)); ((-18735033337151041), (-17)); (29004594142791335, (-17)); ((-90436498644697982), (-17)); (31304524137886125, (-17)); ((-28156508125980972), (-17)); (2319883091440651, (-16)); (93107600626137632, (-17))];
  [(52523240974621457, (-16)); (61934745591765497, (-16)); (22752501803939434, (-17)); (99597868889742358, (-17)); (46056696251523283, (-18)); ((-76845507302405261), (-18)); ((-62203519233164632), (-18)); (97279232232460644, (-17)); ((-22317217528470745), (-17)); (64476146420039834, (-18)); (22705479152991637, (-17)); (97174531034943923, (-17))];
  [(46746950702984513, (-17)); (14744321965770362, (-16)); (38280803398748993, (-16)); (9621505916427664, (-17)); ((-8885697848224744), (-16)); ((-44853806961121651), (-17)); ((-40299389168303507), (-17)); ((-44681826286160753), (-17)); (7987173237381906, (-16)); ((-91013108157900913), (-17)); (10390946768161753, (-17)); ((-4010788412144749), (-16))];
  [(34742633245039332, (-16)); (61063975994778374, (-16)); (4853953092600289, (-15)); (98441371106943365, (-17)); ((-16622603068992042), (-17)); ((-57433023423630061), (-18)); (80311615490303939, (-18)); (13436438437571069, (-17)); (98767214025134564, (-17)); ((-15645986666184775), (-17)); ((-9768905357983616), (-16)); (14562002332010154, (-17))];
  [(2367823360557118, (-15)); (75396386094505286, (-17)); (17308658199969609, (-16)); (72898120647879094, (-17)); (48963439376883855, (-17)); ((-47837700722270099), (-17)); ((-39422027078539529), (-17)); ((-2710270092754315), (-16)); ((-87814277788131045), (-17)); ((-55962199626409959), (-17)); (8287354950053949, (-16)); ((-45497929125480341), (-19))];
  [(38801214962545463, (-16)); (29842849155113088, (-17)); (1141931432770158, (-15)); (95579972176824091, (-17)); (21741486140976471, (-17)); (19793349869571392, (-17)); (89598789025652881, (-18)); (42579893704666283, (-17)); ((-90037065823752194), (-17)); ((-28003383522869152), (-17)); (87830862642245799, (-17)); (38749839725991797, (-17))];
  [(21413993654663152, (-17)); (29070789887954764, (-16)); (61404275200310048, (-16)); ((-97262746605894679), (-17)); ((-22706254912425552), (-17)); ((-49380269875197461), (-18)); (23177823103692088, (-17)); ((-93283551665120412), (-17)); ((-27585639469020207), (-17)); (16572986609178317, (-18)); ((-279750777763487), (-15)); (95992960078100309, (-17))];
  [(32845361388612954, (-17)); (27431662064761437, (-16)); (61692304361751269, (-16)); ((-9216726238016385), (-16)); ((-36722862075397461), (-17)); ((-1251507676114571), (-16)); (37907753076108236, (-17)); ((-78374591177392716), (-17)); ((-49197822253605544), (-17)); (82582081632059268, (-18)); ((-50088470317707778), (-17)); (86156526967869751, (-17))];
  [(32400217456276417, (-19)); (37223623016725136, (-16)); (50373501427026586, (-16)); ((-83604061664186102), (-17)); (54866467640746208, (-17)); (17776917032045914, (-19)); ((-17685791105163465), (-17)); ((-27255562008141965), (-17)); (94574558590589508, (-17)); (51938171571932412, (-17)); (7903673239859601, (-16)); (32490325721931973, (-17))];
  [(57934257375357108, (-16)); (1620890726437425, (-15)); (49534372933270339, (-16)); ((-50073450715405261), (-18)); ((-88133899083772327), (-17)); (46982361877900031, (-17)); ((-24584628255351026), (-17)); (46681620215632269, (-17)); (84949528471850089, (-17)); ((-96801459435696091), (-17)); ((-72967229860333799), (-18)); ((-24004901265874379), (-17))];
  [(64893176450340839, (-17)); (2733150915831724, (-15)); (32408512688706193, (-16)); ((-9177408469627607), (-16)); ((-31644493699121251), (-17)); ((-24002987245070617), (-17)); ((-29110143526870802), (-17)); (12476799412885881, (-17)); (94852142939712181, (-17)); ((-2702067582437066), (-16)); (94036990035500856, (-17)); ((-20662225994732142), (-17))];
  [(31364818765539466, (-16)); (52774307898156403, (-17)); (17427191852862383, (-16)); (86394582093342742, (-17)); (50357819111724389, (-17)); ((-2573698263323048), (-18)); (83614978559384864, (-18)); ((-14848709815259262), (-17)); ((-98537308520313049), (-17)); ((-49659455680885156), (-17)); (85109375929641673, (-17)); ((-17039148756470623), (-17))];
  [(49020096134456361, (-16)); (45484760929325085, (-17)); (28200959091473208, (-16)); (89832798772076705, (-17)); ((-82806841514009646), (-18)); (43145087029235568, (-17)); (57768742252537142, (-18)); ((-95128345579091556), (-17)); ((-30285732475384053), (-17)); (43551073338795837, (-17)); (29698958523316438, (-17)); ((-84978090550854102), (-17))];
  [(22627840086341222, (-16)); (24078362407973355, (-16)); (25572109836275629, (-16)); ((-74266411317172665), (-17)); (42729184991215835, (-17)); ((-51562747212061766), (-17)); (71920900032946211, (-18)); ((-71463273524900228), (-17)); ((-69579266872321999), (-17)); ((-66579080734514784), (-17)); ((-55382463714534691), (-17)); (50000087214476052, (-17))];
  [(60358724081148578, (-16)); (26546125036481443, (-16)); (34850852744886407, (-17)); ((-88375005285413066), (-17)); ((-4537209757673758), (-16)); (11455618808698952, (-17)); (46556519624073639, (-17)); ((-87720758615316818), (-17)); (1172855440566169, (-16)); (47274645737920638, (-18)); (1569844799463706, (-16)); (98646894574858346, (-17))];
  [(86541009934663093, (-17)); (50716734603981664, (-16)); (6033547340890812, (-15)); (3516044902728514, (-16)); (60693131817296986, (-17)); (71274726056351101, (-17)); ((-76420408265386164), (-17)); (62583985934898445, (-17)); ((-15593777767177874), (-17)); ((-54070916625773791), (-17)); ((-489855943590424), (-15)); (68386749597710617, (-17))];
  [(53060417560653439, (-17)); (24340299236763102, (-17)); (61351292226970138, (-16)); (97052345197489986, (-17)); ((-20786863545934078), (-17)); ((-12196253342316186), (-17)); (22358588748199704, (-17)); (96547384311056916, (-17)); (1336772575578809, (-16)); (89964326739057757, (-18)); ((-15700601473058273), (-17)); (98349150034599098, (-17))];
  [(49209101876938499, (-16)); (25690670289906152, (-16)); (59775511226042504, (-16)); ((-84053538348546708), (-17)); ((-11215086871337548), (-17)); (53002118047845415, (-17)); ((-5252894427910685), (-17)); (99059972962427256, (-17)); (1263047334078993, (-16)); ((-53920402365140174), (-17)); (78322144474939195, (-18)); ((-83852529035383627), (-17))];
  [(45306797245644376, (-17)); (19479771225181208, (-16)); (29227282321277901, (-16)); ((-36830090354795053), (-17)); ((-83590705756988692), (-17)); ((-40695679813785746), (-17)); ((-90432516985715883), (-17)); (22051971809368359, (-17)); (36546824909245257, (-17)); ((-21575549033242214), (-17)); (50262356195938129, (-17)); ((-83714940324572895), (-17))];
  [(35756285157734338, (-16)); (61011235226414229, (-16)); (36975076775310112, (-16)); (9834724815061483, (-16)); ((-16426925946690876), (-17)); ((-76141240562078202), (-18)); ((-9935193925840545), (-17)); ((-84118968794105198), (-17)); (53153466591298626, (-17)); ((-15136403233837614), (-17)); ((-51518493698460299), (-17)); ((-84360737930534835), (-17))];
  [(27988135602412538, (-16)); (40845380116753134, (-16)); (57921512429670221, (-16)); ((-5874069224462789), (-16)); ((-76221056584208768), (-17)); (27200764838672425, (-17)); (54389018315808035, (-17)); ((-12291869041764417), (-17)); (83010509226861218, (-17)); ((-59928004816317815), (-17)); (63555176725794404, (-17)); (48676213391023232, (-17))];
  [(26589397761946505, (-16)); (18899419618207278, (-16)); (56300812414422046, (-16)); ((-31375545241405695), (-17)); (84103892727429241, (-17)); ((-4406938153522898), (-16)); ((-40016470056175146), (-17)); (30377262720959436, (-17)); (86463310333487975, (-17)); (86106081579919447, (-17)); (4476334591688701, (-16)); (24124377241234091, (-17))];
  [(12049996126899614, (-16)); (35669138235395565, (-16)); (29701776898856398, (-16)); ((-91090626092466687), (-17)); (14758907958169373, (-17)); (38531447857103834, (-17)); (21115176201161687, (-17)); ((-63555893682314313), (-17)); (74261684011583362, (-17)); (35449219625773459, (-17)); (75781416020846726, (-17)); (54777092053147847, (-17))];
  [(13790320370269373, (-16)); (87050854476855255, (-17)); (57367161012413881, (-16)); (64443776839257372, (-17)); ((-14573680398295322), (-17)); ((-75064022449775081), (-17)); (51460050599477614, (-17)); (80875870263534644, (-17)); (28477303267955656, (-17)); (56558490246745452, (-17)); ((-56979833702497384), (-17)); (59619088656608499, (-17))];
  [(24475039160747185, (-16)); (50565812410656363, (-16)); (79456663501740199, (-17)); (33743642335819446, (-17)); ((-72355509433668863), (-17)); (60216665936487623, (-17)); (93660048089022319, (-17)); (19389181050248067, (-17)); ((-29186555983238732), (-17)); (94425628869667017, (-18)); (66247565334848024, (-17)); (74310820836071534, (-17))];
  [(37941170301788478, (-16)); (28351276047009173, (-16)); (33776427118823138, (-16)); ((-95340598488920747), (-17)); (23970908540570668, (-17)); (1831845581685308, (-16)); (19022150288261286, (-17)); (63504233412209343, (-19)); (98172065882534398, (-17)); (2341640617569663, (-16)); (97082399357316396, (-17)); ((-51652354100590325), (-18))];
  [(1717351733989736, (-15)); (20203863288114361, (-16)); (28571097601185271, (-16)); ((-43459631606690285), (-17)); (13151952741976589, (-17)); ((-89097062576066899), (-17)); ((-12382750350037501), (-17)); ((-9886106421480475), (-16)); ((-85532143715037035), (-18)); ((-892072189588904), (-15)); (73154713716250583, (-18)); (4459322778440154, (-16))];
  [(31911037769745207, (-16)); (56504568704640157, (-16)); (52804129397001907, (-16)); (80641705849343892, (-17)); ((-59062256238111088), (-17)); ((-29266304467087698), (-18)); (34240615381991951, (-17)); (42601492424439807, (-17)); (83741824087327443, (-17)); ((-48213022472879574), (-17)); ((-68532931728287427), (-17)); (54577850202765443, (-17))];
  [(38043369191986418, (-16)); (37624380500580075, (-16)); (41832974180108531, (-16)); ((-81338696081092654), (-17)); ((-4585761426305226), (-16)); ((-35792397711368096), (-17)); (77517586635179811, (-18)); ((-69523824401499812), (-17)); (71458715900945158, (-17)); ((-57653506029123813), (-17)); (55349047459649436, (-17)); (60104543820407275, (-17))];
  [(20466610566740848, (-16)); (39707700450480461, (-16)); (37660566043365642, (-16)); ((-67548256031282827), (-17)); ((-33779729235316275), (-17)); (65545121862126254, (-17)); ((-65726478389804455), (-17)); ((-12711537181688448), (-17)); ((-74286249474267574), (-17)); (33425486467766324, (-17)); ((-93259566347197176), (-17)); ((-13615804754985988), (-17))];
  [(18797568236693862, (-16)); (34488989216843442, (-16)); (61175699853311922, (-16)); ((-95315185991861739), (-17)); ((-91978355423819241), (-18)); (28816924552632245, (-17)); (43212454931912989, (-18)); (90147679459903995, (-17)); (43066491909394927, (-17)); ((-29938973875608654), (-17)); (42294156917116821, (-17)); ((-855269672907085), (-15))];
  [(52284170239577266, (-18)); (14781873523469224, (-16)); (26566083528020257, (-16)); (92476655591908416, (-18)); ((-99435420262872465), (-17)); ((-5203640922593275), (-17)); ((-90394661753558103), (-17)); ((-61924991325313032), (-18)); ((-42313804850821674), (-17)); (4175267426363462, (-16)); (86168527688205807, (-18)); ((-90456973419384823), (-17))];
  [(51642633293310003, (-17)); (28695393491033645, (-16)); (21678919472285609, (-16)); ((-96322118423818992), (-17)); ((-23366716155440984), (-17)); ((-13268235695029088), (-17)); ((-24110233070347714), (-17)); (96955447149336815, (-17)); (42822808602038742, (-18)); (11863648833360751, (-17)); (73237861918006908, (-18)); ((-99023310347490856), (-17))];
  [(45427929170505976, (-16)); (39771070310359828, (-16)); (25976581796737306, (-16)); ((-67079628767859645), (-17)); ((-12517740888011922), (-17)); ((-73100133840005599), (-17)); ((-48540974775412787), (-17)); ((-67110553202540557), (-17)); (56035233707924448, (-17)); ((-5607224957337521), (-16)); (73071744278548378, (-17)); (38941276505419753, (-17))];
  [(45378444045248152, (-16)); (38228715445234629, (-16)); (51005290463158621, (-16)); ((-77676792538844752), (-17)); ((-10936858044411117), (-17)); ((-6202177873129463), (-16)); (61547508181603505, (-17)); (769264304660075, (-16)); ((-784393235538976), (-15)); (13349911517037152, (-17)); ((-99102009964853821), (-17)); (75596521963236241, (-19))];
  [(25166688156099375, (-16)); (50086433658205056, (-16)); (13569847511533961, (-16)); (29193981974412903, (-17)); ((-77567750025571069), (-17)); (55954942341567782, (-17)); (71139613735345131, (-17)); ((-21493428132999443), (-17)); ((-66911791970305812), (-17)); (63928606852203096, (-17)); (59340346334194138, (-17)); (48906610216558077, (-17))];
  [(54900729336531375, (-16)); (55139125007411449, (-16)); (19186494791982984, (-16)); (71841670481049791, (-17)); (48806365873218782, (-17)); ((-4956524016628755), (-16)); ((-29959484167335865), (-17)); ((-42597107196820699), (-17)); ((-85369290537579834), (-17)); ((-62779006769137502), (-17)); (76180214680139047, (-17)); ((-15980337930360483), (-17))];
  [(42654005219166189, (-16)); (51423319047906162, (-16)); (56466770496440883, (-16)); (41681892199007958, (-17)); ((-39291239445188236), (-17)); ((-8196839857878867), (-16)); (80318362513934394, (-17)); (58143713678657294, (-17)); (12971861960973033, (-17)); (42562665633046276, (-17)); ((-71242593036155022), (-17)); (55793480189842048, (-17))];
  [(19821874212447832, (-16)); (24175932738661605, (-16)); (46694154375869514, (-16)); ((-74916259391124329), (-17)); (26487811458587845, (-17)); ((-60712024533662834), (-17)); (61793898726753271, (-17)); (6095680134202488, (-16)); ((-496566455803921), (-15)); (23855149527712807, (-17)); ((-74717228363231025), (-17)); ((-62034406797576835), (-17))];
  [(15993614138702545, (-16)); (48980137627017841, (-16)); (5753933203309419, (-15)); (18456061877427765, (-17)); ((-28070553431018483), (-18)); (98242018608522708, (-17)); ((-47178199601487747), (-17)); (87436474170742207, (-17)); (11361358499374674, (-17)); ((-86218276846262354), (-17)); ((-48445674986420562), (-17)); (1481301160370051, (-16))];
  [(20414485664180728, (-16)); (4547175880337571, (-15)); (44582162165770738, (-16)); ((-16446253305741015), (-17)); ((-44729298542160034), (-17)); (879136542530779, (-15)); ((-963360830884608), (-15)); (26427655157147029, (-17)); ((-45758210266680047), (-18)); ((-2118678473427669), (-16)); ((-8544512212421046), (-16)); ((-47436813318373106), (-17))];
  [(25364594773358915, (-16)); (25812374659320083, (-16)); (21339754925722594, (-16)); ((-84706638679177604), (-17)); (43710899207713327, (-17)); ((-30234792113199294), (-17)); ((-22291474626114749), (-18)); ((-59758971191830279), (-17)); ((-80149212495719091), (-17)); ((-53101942198616281), (-17)); ((-67217725731737787), (-17)); (51594196206430909, (-17))];
  [(10032631861235841, (-16)); (57490915433925451, (-16)); (4705652232498541, (-15)); (86073031237046083, (-17)); (27364767179410182, (-17)); (42925549628201204, (-17)); ((-42740227427163552), (-17)); ((-69592467320762963), (-18)); (90137904592887119, (-17)); (27653322641968819, (-17)); ((-9593090431210769), (-16)); (57057291138305821, (-18))];
  [(47903521206823718, (-17)); (39148591580976411, (-17)); (14605932769031751, (-16)); (92434311101413447, (-17)); ((-3386136868326573), (-16)); ((-1758709305436989), (-16)); ((-13756328568254195), (-17)); (13418620543152632, (-17)); ((-9813615056155971), (-16)); (35590189034751535, (-17)); (93130813019187342, (-17)); (77453283245979165, (-18))];
  [(50450829716002088, (-17)); (14196608318758612, (-16)); (26064734840023247, (-16)); (15056078042849516, (-17)); ((-86543321869125212), (-17)); ((-4778669222518564), (-16)); ((-98813761839958603), (-17)); ((-11694672362025306), (-17)); ((-99536480438492086), (-18)); (30257205759234265, (-18)); (48718457264181453, (-17)); ((-87277470957828285), (-17))];
  [(62815342576496054, (-16)); (23799806290779988, (-16)); (85466031364343154, (-17)); ((-72372451117810299), (-17)); ((-69008806231859821), (-17)); (11393706062315034, (-19)); (45388489721981601, (-17)); ((-47725064746716417), (-17)); ((-75247612558002774), (-17)); (51981855680205657, (-17)); ((-54406827304809369), (-17)); (65861854078570559, (-17))];
  [(6073592667611224, (-16)); (46673061585858413, (-16)); (60113518314449115, (-16)); ((-45067551839207243), (-18)); (8203236039856463, (-16)); (57012112793267089, (-17)); ((-94327791505444269), (-17)); (15296831811958467, (-17)); ((-29466501085505381), (-17)); ((-32893113373738853), (-17)); ((-55106249953672781), (-17)); (76689923123091619, (-17))];
  [(3163295325556732, (-15)); (2410228790942438, (-16)); (17552271740164147, (-16)); (97109432570070842, (-17)); (23863985178078673, (-17)); (51799357071901104, (-19)); (48855549565413825, (-18)); ((-17747213482150956), (-17)); ((-98291239520038476), (-17)); ((-23364277405592471), (-17)); (95475371824567412, (-17)); ((-18400106420211826), (-17))];
  [(20579981045655085, (-17)); (13149186066767726, (-16)); (32902787054843272, (-16)); (25309464890352762, (-17)); ((-9470264320305658), (-16)); ((-19769682782446493), (-17)); ((-90729091723182675), (-17)); ((-30328135817788282), (-17)); (29127926340611515, (-17)); ((-33580692399804735), (-17)); (10564731334603249, (-17)); ((-93598736902681257), (-17))];
  [(27361331867414354, (-16)); (55357405295185877, (-16)); (11591187876618414, (-16)); (73342821690922611, (-17)); ((-62465226565837684), (-17)); (26812795014546653, (-17)); (49567898814188621, (-17)); (22152608702073168, (-17)); ((-8397788598696202), (-16)); (46517243185295176, (-17)); (7488229028129012, (-16)); (47210048598457427, (-17))];
  [(58036663691634987, (-16)); (22973303448922668, (-16)); (19654213217068581, (-16)); ((-6642828736233567), (-16)); ((-66317807221106184), (-17)); (34485229932409511, (-17)); (63380438911746148, (-18)); ((-50966421694826869), (-17)); ((-85803572532025874), (-17)); (74478935530393431, (-17)); ((-54812154719635664), (-17)); (38059372791077661, (-17))];
  [(39282355899787786, (-16)); (10121589617712889, (-16)); (4762588524255043, (-15)); (53003120568365802, (-17)); (59886424700676666, (-17)); (60035700600438235, (-17)); ((-62965080407760188), (-17)); ((-19627099085244704), (-17)); (75167650161105071, (-17)); (56798484656367121, (-17)); ((-77642727399726041), (-17)); (27304560473888956, (-17))];
  [(21548695200470998, (-16)); (60862758953336538, (-17)); (68363893860622804, (-17)); (82043345498921194, (-17)); (31527367952967256, (-17)); ((-47696064086073808), (-17)); ((-54568231452216998), (-17)); (68077487167741824, (-17)); ((-48864750660401646), (-17)); (17064512167709983, (-17)); (66117174855586214, (-17)); (73056975119381429, (-17))];
  [(27234692627119736, (-16)); (31183433359449961, (-16)); (49009006886201441, (-16)); ((-9997297467882027), (-16)); (21244533952891553, (-18)); ((-94394472253649577), (-19)); (52910543973155094, (-19)); (60332557314443136, (-17)); (7974774338708952, (-16)); (2263709632794499, (-17)); (79721196840430575, (-17)); ((-60327492845532005), (-17))];
  [(44619946141023732, (-16)); (52211338128083584, (-16)); (6014618534051376, (-15)); (48708142201381549, (-17)); ((-21640557015057837), (-17)); ((-84612074642854751), (-17)); (43316592738450799, (-17)); (90111629056633569, (-17)); (1888677391950308, (-17)); (75836598531455679, (-17)); ((-37571007450395894), (-17)); (53265652369431382, (-17))];
  [(560650049801162, (-14)); (37575376766170008, (-16)); (4097441738946773, (-15)); ((-81622784317537511), (-17)); (45042903863127481, (-17)); ((-36178141077587267), (-17)); (55536392430552473, (-17)); (78429207223958441, (-17)); ((-27650833080054932), (-17)); (15919491073913949, (-17)); ((-42661414249863328), (-17)); ((-89031306505909091), (-17))];
  [(54205029647127008, (-16)); (12044864136285474, (-17)); (35929978632047668, (-16)); (99275482809204052, (-17)); ((-7815078969290444), (-17)); (91270506574240712, (-18)); ((-11013778703780881), (-17)); ((-89551567114471431), (-17)); (43118598145190917, (-17)); (48036643995572489, (-18)); ((-43811429650789441), (-17)); ((-89763486119303293), (-17))];
  [(19088087307309853, (-16)); (55136477470043026, (-16)); (8318587274623096, (-16)); (71823251349438977, (-17)); ((-2307371128751261), (-16)); (65643159681842134, (-17)); (64062619898810758, (-17)); (58747490439723993, (-17)); ((-49444040072945417), (-17)); ((-27155133903109502), (-17)); (77565045055456849, (-17)); (569759816786788, (-15))];
  [(50539838743458603, (-16)); (46888488372902941, (-16)); (78283221611116549, (-17)); ((-23537969072007937), (-18)); (33489744989592113, (-17)); ((-94196054167102672), (-17)); ((-9017705188561298), (-16)); (39963836853143947, (-17)); (16461806012547867, (-17)); (43157374263723641, (-17)); (85330702121261048, (-17)); (2925939715977588, (-16))];
  [(27514167519414817, (-17)); (21043648125776997, (-16)); (20342902680090926, (-16)); ((-50860903068444052), (-17)); ((-82861264574944871), (-17)); ((-23391865511397836), (-17)); ((-57969222641437346), (-17)); (53043532582902952, (-17)); ((-61854287462341528), (-17)); (6366111658940492, (-16)); ((-17899566591610461), (-17)); ((-7501245063602906), (-16))];
  [(4797538891640567, (-15)); (56533552866032899, (-16)); (1682020030716501, (-15)); (80812763912493135, (-17)); (50093343020261534, (-18)); ((-58687338998068317), (-17)); ((-57768702278380935), (-17)); ((-12699907907115857), (-17)); ((-80631813673156083), (-17)); ((-11492355106566789), (-17)); (99063711362947227, (-17)); ((-73693191750152848), (-18))];
  [(37941446646706867, (-16)); (41240700554679464, (-16)); (28672647913711033, (-16)); ((-55496336375773703), (-17)); ((-66095510427076232), (-17)); ((-50512772149736884), (-17)); ((-77307943505013399), (-17)); (18554696246321378, (-17)); (60656451579633341, (-17)); ((-30718699840530894), (-17)); (72712493758576358, (-17)); ((-61394256502675892), (-17))];
  [(6066848966694808, (-15)); (44901868833147098, (-16)); (28844579344582657, (-16)); ((-22037811313502362), (-17)); (95267801513721551, (-17)); ((-2093754682986097), (-16)); (86811007169993748, (-17)); (93685696687516085, (-18)); ((-48745040121975913), (-17)); ((-4447677940950493), (-16)); ((-28918435246463481), (-17)); ((-84767565709145709), (-17))];
  [(4016063759168806, (-15)); (59519808221783277, (-17)); (21229966262215849, (-16)); (82803745577625909, (-17)); (35961704818495338, (-17)); (43015061372305469, (-17)); (55485971227256137, (-17)); ((-41540809335203094), (-17)); ((-72080983322540804), (-17)); ((-80527458226309648), (-18)); (83553078616671639, (-17)); ((-54351047261229357), (-17))];
  [(41597462802872496, (-16)); (26138220353057244, (-16)); (19808108116149075, (-16)); ((-86393195223255437), (-17)); (26436345558323004, (-17)); (42864151136321466, (-17)); (49849483192389865, (-17)); (5698914402183145, (-16)); (65324317746996741, (-17)); ((-71585504516007648), (-18)); (77803323175683758, (-17)); ((-62413124086621385), (-17))];
  [(50219729888047049, (-17)); (14014329646485197, (-16)); (58837171378008755, (-16)); (16855485425335481, (-17)); ((-86398589573787254), (-17)); ((-47446562896974581), (-17)); (98049570718390766, (-17)); (19632599513080815, (-17)); ((-91799689447570193), (-19)); (10108130045443188, (-17)); ((-46366418408361459), (-17)); (88022616133384535, (-17))];
  [(5514591227471767, (-15)); (47982437637502917, (-16)); (82422405540973653, (-17)); (85749349002682496, (-18)); (71624081753611812, (-17)); ((-69256489980420555), (-17)); ((-99477549109337748), (-17)); (228990177567263, (-16)); ((-99485462785809498), (-18)); ((-55396493260365373), (-18)); (69747740198587815, (-17)); (71446238687105423, (-17))];
  [(53844776339332983, (-16)); (36880245874310185, (-16)); (55724134060901447, (-16)); ((-85438407393541005), (-17)); (32354044587288994, (-17)); ((-4066318163768094), (-16)); (20096428929120128, (-18)); (80251026024255212, (-17)); (59629977003997592, (-17)); (51925329825609057, (-17)); (50129717941536722, (-17)); ((-69215399309717818), (-17))];
  [(30089733823118894, (-16)); (23689530427630996, (-16)); (22302940315096631, (-16)); ((-71607064459595027), (-17)); (69189839592268954, (-17)); ((-92300821597368812), (-18)); (35099461281094263, (-17)); (24260761871733211, (-17)); ((-90440274497482709), (-17)); ((-60336192598276916), (-17)); ((-6800133477071717), (-16)); ((-41657680350020532), (-17))];
  [(3828498050136691, (-15)); (60727939771931672, (-16)); (40751674515345391, (-16)); (97794926322904008, (-17)); ((-16147964847587085), (-17)); ((-13243701022707724), (-17)); (10371840583211623, (-18)); ((-59581129555029422), (-17)); (80305748550000855, (-17)); ((-20858490710666056), (-17)); ((-78672309183269129), (-17)); ((-58099837633552531), (-17))];
  [(34524102448626461, (-16)); (60259026194371144, (-16)); (26567067752700297, (-16)); (96708497760350831, (-17)); ((-24226118175774028), (-17)); ((-77821371787993088), (-18)); ((-25060840357069691), (-17)); ((-85386385436988144), (-17)); ((-4561928827375068), (-16)); (44068970414211289, (-18)); (46067997353255219, (-17)); ((-8864715944871997), (-16))];
  [(50074456709043602, (-16)); (26195000315041983, (-16)); (51510191804138197, (-16)); ((-86677749796762771), (-17)); ((-14501757858473574), (-17)); (47714428731611069, (-17)); ((-37038614568359018), (-17)); (82787863827436192, (-17)); ((-42122566799121153), (-17)); ((-3339324364338293), (-16)); ((-54183656409512271), (-17)); ((-77129907669266562), (-17))];
  [(49024184967875195, (-16)); (7077633428907022, (-16)); (57857029553610584, (-16)); (7598179065099131, (-16)); ((-12280280073086661), (-17)); (6384326284578099, (-16)); ((-19675187617122511), (-17)); (89251645274295188, (-17)); (40583627339881928, (-17)); ((-61964945587807618), (-17)); ((-43397448509767644), (-17)); (65398830120592444, (-17))];
  [(52013075599264997, (-16)); (2455830775556898, (-15)); (30509723673586966, (-16)); ((-77393680271018295), (-17)); ((-29742547051869656), (-17)); (55907058131998977, (-17)); ((-24561124833154713), (-17)); ((-67275245800946892), (-17)); ((-69791062818618599), (-17)); (58369250475208123, (-17)); ((-6774527435393185), (-16)); (44761684526757017, (-17))];
  [(25540657887897589, (-17)); (59810844334285598, (-16)); (33501871397814011, (-16)); (95471353066776532, (-17)); (28787502744167243, (-17)); (75166767492997458, (-18)); (26606882929592207, (-17)); ((-93913839111538155), (-17)); (21731649824693544, (-17)); (13315198998508226, (-17)); ((-18747546748486635), (-17)); ((-97320270070234782), (-17))];
  [(45084922314070246, (-16)); (23575447641674168, (-16)); (58216123202556389, (-16)); ((-70806092416812805), (-17)); (14298638784413964, (-17)); (69152340564688164, (-17)); ((-43599811484301393), (-17)); (68180921014601381, (-17)); ((-58740262581419134), (-17)); ((-55547760667691592), (-17)); ((-71741974732464264), (-17)); ((-42042066389407107), (-17))];
  [(57172271472146736, (-16)); (47224272026259104, (-16)); (49688108045682489, (-16)); (10038053656977214, (-18)); (84403267216258426, (-17)); ((-5361978047333531), (-16)); (30460169329012254, (-17)); (50815970820354672, (-17)); (80560009893450002, (-17)); (95242692419081143, (-17)); ((-17141341627939649), (-17)); ((-25199284671564892), (-17))];
  [(22053274774248726, (-16)); (21764366750205051, (-16)); (35311931487784745, (-16)); ((-56928864737242335), (-17)); (48736323560769129, (-17)); ((-66210838429284269), (-17)); (70232192468350874, (-17)); ((-13036186285892665), (-17)); ((-69982119060571635), (-17)); ((-42738080219135777), (-17)); ((-8634134938081246), (-16)); ((-26807235707606841), (-17))];
  [(18322979737974545, (-16)); (59994806484375096, (-17)); (13343260305649149, (-16)); (82536493859167315, (-17)); (14596674879324206, (-17)); ((-54540482798586787), (-17)); ((-56442273776384744), (-17)); (18913810754410657, (-17)); ((-80352582371059922), (-17)); ((-14131215047781913), (-18)); (97104092834512623, (-17)); (23849491449485627, (-17))];
  [(11049678087124202, (-16)); (2464015773581008, (-15)); (18451496707276471, (-16)); ((-77909407544468035), (-17)); ((-28158356347469193), (-17)); ((-5601099163449017), (-16)); ((-61545003047721336), (-17)); (51357509267709156, (-17)); (59788116224490129, (-17)); (11930499399688109, (-17)); (81052533641004154, (-17)); ((-57342392472305614), (-17))];
  [(19142744923408075, (-17)); (72891289164333783, (-17)); (49523158276772721, (-16)); (74589892142987668, (-17)); ((-65389268496429187), (-17)); ((-12672472355438794), (-17)); (27848028477728176, (-17)); (13333216339818812, (-17)); (95114208465082806, (-17)); ((-60504836996731992), (-17)); ((-74474619217136528), (-17)); (28154853799325791, (-17))];
  [(88873316702080218, (-17)); (23349584213640933, (-16)); (48666415352235859, (-16)); ((-69193230532906669), (-17)); ((-45512215709936565), (-17)); ((-56044045799640807), (-17)); (62371183330199242, (-17)); ((-76779576126612026), (-17)); ((-14653742860049968), (-17)); ((-36361137749123151), (-17)); ((-45094732630208517), (-17)); (81512776609555504, (-17))];
  [(20604832463596821, (-16)); (19124210740169754, (-16)); (28226142336213926, (-16)); ((-33501838932071326), (-17)); (44316886666487199, (-17)); ((-83148303316178851), (-17)); (16006346346256126, (-17)); ((-84288393877964185), (-17)); ((-5137376309087025), (-16)); ((-92851621767275794), (-17)); ((-30520160773870414), (-17)); (21144647585709692, (-17))];
  [(30677651394772036, (-16)); (32739384270173062, (-16)); (99138428857382022, (-17)); ((-99125507355736775), (-17)); ((-131600303210689), (-15)); (97334136679917086, (-19)); (80200153550099171, (-18)); ((-65938086500945048), (-17)); ((-74751910358861684), (-17)); (1047917674119396, (-16)); ((-74020148274253239), (-17)); (66416899237200044, (-17))];
  [(26540727732582692, (-16)); (26852651350990211, (-16)); (60960927126155173, (-16)); ((-89767684249735091), (-17)); (38931698186064495, (-17)); ((-20641844413449237), (-17)); ((-34412862543494976), (-17)); ((-32678413010902368), (-17)); (88022021191582533, (-17)); (27523040457085823, (-17)); (86118779597937112, (-17)); (42732166392069887, (-17))];
  [(58174882558663388, (-16)); (60315919980145258, (-16)); (54369366627061675, (-16)); (96851700102488225, (-17)); (22243670566753021, (-17)); ((-11178877715381275), (-17)); ((-63722982797810718), (-18)); (65559630327708063, (-17)); (75241801453233159, (-17)); (24065369348738072, (-17)); ((-72160612462838936), (-17)); (64913049590177108, (-17))];
  [(75133493806814633, (-17)); (53012790948798134, (-16)); (16178347086669373, (-16)); (55543843141151417, (-17)); (60768427263750524, (-17)); (567633661528404, (-15)); (59557974651996914, (-17)); (18566219682523716, (-17)); ((-78154610497733024), (-17)); ((-58032138892714102), (-17)); (77217185487367579, (-17)); ((-25880052568459166), (-17))];
  [(55791944908957767, (-16)); (3349611064137934, (-15)); (13910939655615051, (-16)); ((-97844207617769619), (-17)); (15742409325504383, (-17)); ((-13367407537704057), (-17)); ((-15965898161302591), (-17)); ((-98715338537281283), (-17)); (60994538514968499, (-19)); ((-13099661505310328), (-17)); (27310229032769806, (-18)); (99100657830047068, (-17))];
  [(19989736837964973, (-16)); (35946174174343342, (-16)); (48408019343121493, (-16)); ((-89912731715717753), (-17)); ((-18173357814591801), (-17)); (39817455232098614, (-17)); ((-3716232732722366), (-16)); (79758179833466691, (-17)); ((-47514147127741591), (-17)); ((-23122761579051232), (-17)); ((-57518360680700931), (-17)); ((-78466400972410799), (-17))];
  [(26154815279215939, (-16)); (43853779159801789, (-16)); (40163161822694464, (-16)); ((-32121392551335981), (-17)); ((-81893963193261399), (-17)); (47556229172041453, (-17)); ((-89004194823234251), (-17)); (43260589909819014, (-17)); (1437966148844356, (-16)); ((-32349179965352121), (-17)); ((-37708091348611295), (-17)); ((-86784966453954726), (-17))];
  [(49517998721981753, (-16)); (5872385963635268, (-15)); (1679877987449123, (-15)); (9168019040603006, (-16)); (9469618303954784, (-17)); ((-38795218987543778), (-17)); ((-37533724907994293), (-17)); ((-12740833376107488), (-17)); ((-91808990079475739), (-17)); ((-13636795138341032), (-17)); (98731947686955257, (-17)); ((-81265198144869072), (-18))];
  [(85945425245445417, (-17)); (36420314997984504, (-16)); (57049016575067162, (-16)); ((-87737208331212202), (-17)); (3132448222248313, (-16)); (36345000863100929, (-17)); ((-46096906613257027), (-17)); ((-34011267045512172), (-17)); ((-81965290914188293), (-17)); ((-1331380767977853), (-16)); ((-88667979155116616), (-17)); (4428015354099028, (-16))];
  [(46032103511902465, (-16)); (56912828759174261, (-17)); (98878226604811478, (-18)); (84237105918257005, (-17)); (58719321380434931, (-18)); (53568931289344979, (-17)); ((-55507676662158298), (-19)); (99493861781024784, (-17)); ((-10033113060336407), (-17)); ((-53886936044829159), (-17)); (81542553838194226, (-18)); (8384334346169614, (-16))];
  [(31283315532835547, (-16)); (12854974120614169, (-16)); (57224964376090286, (-16)); (2814442957374455, (-16)); (95949319480636752, (-17)); ((-1272468141539789), (-17)); ((-80581762431106829), (-17)); (24352563914396161, (-17)); (53977145110610558, (-17)); (52100582026165421, (-17)); ((-14166182336746574), (-17)); (84171542878438776, (-17))];
  [(15230768205281366, (-16)); (31286464922710087, (-16)); (34321050539626103, (-16)); ((-99991619962399736), (-17)); ((-61753273770695364), (-20)); ((-12931062710395657), (-18)); (31123584755291646, (-19)); ((-98103248576851754), (-17)); ((-19381840751477447), (-17)); ((-12566103382597437), (-18)); ((-19384241156197277), (-17)); (98095219686058954, (-17))];
  [(15942893188727656, (-16)); (34846684247771531, (-16)); (1290052007864936, (-15)); ((-94172447775657331), (-17)); ((-79019680974178833), (-19)); (33629238304531478, (-17)); (32531576526235018, (-17)); (23295916176036319, (-17)); (91646040930510486, (-17)); ((-85584232577506969), (-18)); (97245441427971135, (-17)); ((-21681271014869691), (-17))];
  [(27514575707232156, (-16)); (50767955395187725, (-16)); (5635756996563976, (-15)); (35639488444196687, (-17)); ((-86412730700172735), (-17)); (35534023644605672, (-17)); (47494146935199777, (-17)); (4950634663146814, (-16)); (72755945805841715, (-17)); ((-80461996435171956), (-17)); ((-90532654961813119), (-18)); (58684797976324576, (-17))];
  [(17403147095392868, (-16)); (40758175343087215, (-16)); (2141545893057109, (-15)); ((-59444190818460507), (-17)); ((-13566433000135075), (-17)); (79261214181914352, (-17)); (5936857318504577, (-16)); ((-73885837139378552), (-17)); (31878763906166296, (-17)); (54238000478541959, (-17)); (66006325195893711, (-17)); (51975035721234542, (-17))];
  [(17592306579381112, (-16)); (51414007809824964, (-16)); (53522414941962957, (-16)); (41597235961987644, (-17)); ((-17034561242065677), (-17)); (89328011752266356, (-17)); ((-61486539293719311), (-17)); (67104724026648033, (-17)); (41428993458558944, (-17)); ((-67000563027519655), (-17)); ((-72158019211988655), (-17)); (17439748203390007, (-17))];
  [(21445919961684505, (-16)); (7950081940907715, (-16)); (48978697984407313, (-16)); (70027891655435281, (-17)); (38750522066103782, (-17)); ((-5995407767532599), (-16)); (51779389479519322, (-17)); (30242790389576563, (-17)); (80026673394440051, (-17)); (49142539773834049, (-17)); ((-87084847528468123), (-17)); (1113604741638119, (-17))];
  [(74487321063774392, (-17)); (25216272612934492, (-16)); (55416964029048614, (-16)); ((-81389856446779119), (-17)); ((-42714115198975211), (-17)); ((-39385220963470086), (-17)); (58100366643770718, (-17)); ((-59605937496408645), (-17)); ((-55420931163538212), (-17)); (19663019123004532, (-19)); ((-67989974098707373), (-17)); (73330244501331077, (-17))];
  [(46886281779066916, (-16)); (18349779507761992, (-16)); (62604864862683689, (-16)); ((-26111937197367829), (-17)); (22934299336562311, (-18)); (96503403644328156, (-17)); ((-44831645057374248), (-18)); (99835085225939779, (-17)); ((-35856650629743129), (-18)); ((-96426489990122599), (-17)); ((-5262692948362848), (-17)); ((-2596605651838641), (-16))];
  [(62466536462960409, (-16)); (38466210853264555, (-16)); (59006982093009945, (-16)); ((-76159312672704504), (-17)); (64762309611236057, (-17)); ((-23669277639237731), (-18)); ((-59199130388697152), (-17)); ((-68038234529510422), (-17)); (43200250037810739, (-17)); (26367063819152559, (-17)); (34302214154857935, (-17)); (90156175881805223, (-17))];
  [(42688633117110681, (-16)); (38948876023217083, (-17)); (5635795726029901, (-15)); (9251033064159907, (-16)); (16294605296477865, (-17)); (34297588294426934, (-17)); ((-33682658419636047), (-17)); (76915094338912204, (-17)); (54309730110012133, (-17)); ((-17530466233621314), (-17)); ((-61794450406717205), (-17)); (76642864329066096, (-17))];
  [(50469320820023702, (-16)); (4358706740797917, (-15)); (28364819393389533, (-16)); ((-34635447037482786), (-17)); (30801475626602648, (-17)); ((-8860956442584248), (-16)); (2760664575867364, (-17)); ((-94080473124370978), (-17)); ((-3378229281434374), (-16)); ((-93769742132594547), (-17)); ((-14146860991693982), (-17)); (31734867015136697, (-17))];
  [(53978133083552127, (-16)); (60473035175524323, (-16)); (21324879252498374, (-16)); (97230864473919887, (-17)); (14793274863290146, (-17)); ((-1809193224819757), (-16)); ((-74330294419047177), (-18)); ((-53819378656479211), (-17)); ((-83953704827996067), (-17)); ((-22156467836051869), (-17)); (82973691612761569, (-17)); ((-51229458646176829), (-17))];
  [(18270731502151074, (-16)); (36409574721162974, (-16)); (61111384682699006, (-16)); ((-87788690705718642), (-17)); ((-12138381846675961), (-17)); (46322839618485784, (-17)); (40287368523470979, (-18)); (9451896461772552, (-16)); (32402694439933422, (-17)); ((-47717031168653079), (-17)); (30312126512955817, (-17)); ((-82487938043767051), (-17))];
  [(40672295175432804, (-16)); (22456191353625994, (-16)); (1047957006502698, (-15)); ((-62475897233565902), (-17)); (46952585222327975, (-17)); (62387635039332445, (-17)); (30607546780441702, (-17)); (88232357693874663, (-17)); ((-35752330495552725), (-17)); ((-7183272474954564), (-16)); ((-32412646791314559), (-18)); ((-69494991606128198), (-17))];
  [(50819648725829181, (-16)); (1105372537939217, (-15)); (56866659771918675, (-16)); (44880155278507333, (-17)); ((-3227975449109135), (-16)); (83329401246930468, (-17)); ((-20106742566134345), (-17)); (87209440071151301, (-17)); (44612021539664293, (-17)); ((-87071755268607465), (-17)); ((-36776772730503926), (-17)); (32649324984945571, (-17))];
  [(1356496184373327, (-15)); (84024990351466777, (-17)); (1561716208050858, (-15)); (66727671606827499, (-17)); ((-15839397789504381), (-17)); ((-72777271998868109), (-17)); ((-72630450192544405), (-17)); (78080093422973035, (-18)); ((-68292405836512482), (-17)); (16499562017208666, (-17)); (98428392589620406, (-17)); ((-62941230893464012), (-18))];
  [(36394337607026612, (-16)); (10324574177302881, (-16)); (31217720101355591, (-16)); (51271055088469719, (-17)); (75434550102885856, (-17)); (40998872678286019, (-17)); (76232303889043207, (-17)); ((-61965487395862096), (-17)); (18679245583315832, (-17)); (39495756150296346, (-17)); (21677338918060496, (-17)); ((-89275854650335706), (-17))];
  [(61491477406444446, (-16)); (37607142209731248, (-16)); (59903462884413292, (-16)); ((-81438854282120232), (-17)); (57511476456693755, (-17)); ((-77551975465971798), (-18)); ((-52824404044518491), (-17)); ((-6793293214149585), (-16)); (50938188699642439, (-17)); (24026971314692289, (-17)); (45580114155518325, (-17)); (85703896311736461, (-17))];
  [(44550426436199873, (-16)); (71986386456502494, (-17)); (53364170394260659, (-16)); (75189548779319859, (-17)); (16779735543241678, (-17)); (63757134733778242, (-17)); ((-61545464799924021), (-17)); (52536025922806262, (-17)); (58754759320412009, (-17)); ((-23636571598342976), (-17)); ((-83417063334410779), (-17)); (49828767070230684, (-17))];
  [(1867511772248899, (-15)); (56194427758351502, (-16)); (20375063880951956, (-16)); (78769209529485906, (-17)); ((-18012676019055729), (-17)); (58914812506978931, (-17)); (44509260296940756, (-17)); ((-49479789266985619), (-17)); ((-74636962705578191), (-17)); (42595039358112102, (-17)); (85013492792187006, (-17)); ((-30957530026693836), (-17))];
  [(44852218080755817, (-16)); (3248929897241676, (-15)); (29196356946927673, (-16)); ((-9942448867715572), (-16)); ((-24127927353826871), (-18)); ((-10437886879163756), (-17)); ((-46513892748103421), (-18)); ((-78046212964442641), (-17)); (62347038580216818, (-17)); ((-96506802402894734), (-18)); (62473731064543836, (-17)); (77484819789264114, (-17))];
  [(44992162614139062, (-16)); (38846729074029067, (-16)); (12540775460681477, (-16)); ((-73638808082442397), (-17)); ((-14313416261088424), (-17)); ((-66124519348982991), (-17)); ((-58377732272807892), (-17)); (62842556529819538, (-17)); (51408690544311675, (-17)); (34195998579973957, (-17)); (76458741839852729, (-17)); ((-54632357421084932), (-17))];
  [(37157976140816227, (-16)); (21279180809862863, (-16)); (15202792954148121, (-16)); ((-5287453925647031), (-16)); (71265681071674147, (-17)); (46102991224067086, (-17)); (42445577392946604, (-17)); (69238062088561669, (-17)); ((-58347782460003217), (-17)); ((-73502762248743825), (-17)); ((-1128244032161953), (-16)); ((-66858436133323762), (-17))];
  [(41319245149354966, (-16)); (93130424688594948, (-17)); (12635621178144707, (-16)); (59678796379645138, (-17)); (44004553995873463, (-17)); (67097246518028675, (-17)); (50647315688075156, (-17)); (44199825043497826, (-17)); ((-74035294824270403), (-17)); ((-62235766856923291), (-17)); (78166327109238298, (-17)); (40907982084489369, (-18))];
  [(37913317731690852, (-16)); (55073844274018695, (-16)); (12499243666183073, (-16)); (7138604165431286, (-16)); ((-55759848744781293), (-17)); ((-42365933542031409), (-17)); ((-22617279479097568), (-17)); (38897866351540977, (-17)); ((-89305177130231639), (-17)); (66275875896838221, (-17)); (73333452538775024, (-17)); (15156286248620726, (-17))];
  [(13336757943388382, (-16)); (1884511942478786, (-15)); (42530846773737618, (-16)); ((-30859502806320238), (-17)); ((-22343983624434544), (-17)); ((-92457760530621313), (-17)); (72969905060810303, (-17)); ((-67913986865397291), (-17)); ((-79425023426485358), (-18)); ((-6101707991999491), (-16)); ((-69917356813867371), (-17)); (37262302320164115, (-17))];
  [(32183671934943807, (-16)); (28853903142895247, (-16)); (47033329179293641, (-16)); ((-96735931175701217), (-17)); (25266221520227855, (-17)); (19436228185457378, (-18)); ((-17147337660950723), (-18)); ((-14178856630400666), (-17)); (98974843838047855, (-17)); (25282786786298106, (-17)); (95710908859676591, (-17)); (14149297423309462, (-17))];
  [(10894449659507259, (-16)); (60689494790583192, (-16)); (57734318582438524, (-16)); (97713914303920302, (-17)); (98429360950878175, (-18)); (18844297822793429, (-17)); ((-17786855165619481), (-17)); (86400988181587524, (-17)); (47100923818566959, (-17)); ((-11645545703117363), (-17)); ((-49375964297147545), (-17)); (8617653633677449, (-16))];
  [(57726005452449716, (-16)); (53533479700393123, (-16)); (3374456251031094, (-15)); (5979643681696144, (-16)); (69929559275361231, (-17)); ((-39169412601529768), (-17)); (77081050886289315, (-17)); ((-63569016178731763), (-17)); (41823171010118898, (-18)); ((-21974934317544986), (-17)); ((-32693071462037326), (-17)); ((-91914445764078379), (-17))];
  [(58076740492014185, (-16)); (21071912080025465, (-17)); (48920757828567414, (-16)); (97788075400020702, (-17)); ((-1859583527574375), (-16)); (95753443779986736, (-18)); ((-60977043944239182), (-18)); (18445442738184414, (-17)); (98094768684729483, (-17)); ((-20007756262961865), (-17)); ((-9650886255981761), (-16)); (16903524387894558, (-17))];
  [(4807117808756673, (-15)); (58329797212687557, (-16)); (62391079850202473, (-16)); (90035766053884314, (-17)); (41159688086243984, (-18)); ((-43319968050041818), (-17)); ((-22031612109525676), (-18)); (99855157124745986, (-17)); (49085309687161634, (-18)); (43459255766393046, (-17)); ((-34650247270001801), (-18)); (89996037089821412, (-17))];
  [(53292208396069221, (-16)); (39481364747293926, (-16)); (2158929043829426, (-15)); ((-6919975759043131), (-16)); (41758567247487666, (-17)); ((-58886463732020755), (-17)); ((-25824242922774637), (-17)); ((-90493017243640661), (-17)); ((-33824877052366031), (-17)); ((-67412921809480042), (-17)); ((-81997494827101003), (-18)); (7340478241592796, (-16))];
  [(11758084370086074, (-19)); (6778525849821434, (-16)); (43216220951813353, (-16)); (77892120445072077, (-17)); ((-62712137065741802), (-17)); ((-73737493846063934), (-20)); ((-23818723688194646), (-17)); ((-29692968621648719), (-17)); (92471595727008082, (-17)); ((-58012808710110042), (-17)); ((-7201052339124745), (-16)); ((-38065713529143008), (-17))];
  [(20790151587666741, (-16)); (55392673274697151, (-16)); (46418691590571228, (-16)); (73582105118462682, (-17)); ((-32952873468502114), (-17)); (59158954829378096, (-17)); ((-61333820844579312), (-17)); (45974904114919446, (-18)); (78848116670731494, (-17)); ((-28702547394622585), (-17)); ((-94302551461162121), (-17)); ((-1682832614891675), (-16))];
  [(31589748876329731, (-16)); (4792145324393501, (-15)); (17557974039202806, (-16)); (79671814891610584, (-18)); ((-99667056140104593), (-17)); ((-17326105979156278), (-18)); ((-20036560427590311), (-17)); (10146310102017581, (-19)); ((-97972067200149726), (-17)); (97647633178435478, (-17)); (81527679719449617, (-18)); ((-19961766180509607), (-17))];
  [(360935848260783, (-14)); (34400297525572565, (-16)); (58918379325198336, (-16)); ((-95579719099299754), (-17)); ((-26244177537715685), (-17)); ((-13257467415302732), (-17)); (29316864188378056, (-17)); ((-81621058520473466), (-17)); ((-49784779603385237), (-17)); (22447207084959449, (-18)); ((-51470826216083865), (-17)); (8570714834583254, (-16))];
  [(10832639186955051, (-16)); (20508168948955614, (-16)); (10615881255291542, (-16)); ((-46179741924466539), (-17)); ((-41550585649458199), (-17)); ((-78364406894818683), (-17)); ((-48167043981382224), (-17)); (85934768535816819, (-17)); ((-1717997179250236), (-16)); (74480650573724583, (-17)); (29812151698302902, (-17)); ((-596981431975243), (-15))];
  [(56136065513119497, (-16)); (68974320006361903, (-18)); (27588424532014568, (-16)); (99762221449843236, (-17)); ((-54038732761134259), (-18)); (42775372597028669, (-18)); ((-34153095099971248), (-18)); ((-92671712582101606), (-17)); ((-37420440243953207), (-17)); (59862202050511272, (-18)); (37185371326854549, (-17)); ((-92635918125425731), (-17))];
  [(40346727427630728, (-18)); (3667689494637826, (-15)); (89155031742575086, (-17)); ((-86477367021745621), (-17)); (50175315707352719, (-17)); (20255089863503176, (-18)); ((-29944522234032078), (-17)); ((-48287576800218968), (-17)); ((-82289947836528077), (-17)); ((-40311171915014593), (-17)); ((-71768709201367409), (-17)); (56782583583416679, (-17))];
  [(37808170478441792, (-16)); (55723221803655436, (-16)); (16749585687394611, (-17)); (75779897836910559, (-17)); ((-52365999689250375), (-17)); ((-38925687667308173), (-17)); (45143706597828986, (-17)); (85151923119122253, (-17)); ((-26668253480950449), (-17)); (47111069171018916, (-17)); (2636677011035693, (-17)); (88167993602570705, (-17))];
  [(54500782018222116, (-17)); (30896022144400361, (-16)); (23498032669916236, (-16)); ((-99864880151775326), (-17)); ((-44438206829770725), (-18)); ((-26940991089965817), (-18)); ((-50392609809232783), (-18)); (95473872830235118, (-17)); (29314594582941716, (-17)); (12694727400362534, (-18)); (29410747432420631, (-17)); ((-95568804399912144), (-17))];
  [(3011235395405166, (-15)); (43294801916108128, (-16)); (93758802597325919, (-17)); ((-37362018568274669), (-17)); ((-91971172776497467), (-17)); (1205748508684746, (-16)); (64142419716364163, (-17)); ((-35006723625478758), (-17)); ((-68266238316895156), (-17)); (67006190470983173, (-17)); ((-17771681944177287), (-17)); (7207175424145944, (-16))];
  [(40946418204549477, (-16)); (3463745192992417, (-15)); (404628813681102, (-14)); ((-94855610258373491), (-17)); ((-18338003630870492), (-17)); ((-25809510366253186), (-17)); (89608811310032538, (-18)); ((-93735003365569503), (-17)); (33666775215525213, (-17)); ((-30366359871864451), (-17)); (29622065540587361, (-17)); (90556156175279257, (-17))];
  [(32661130084922534, (-16)); (60949464615645779, (-16)); (2850544666536122, (-15)); (98233532169278692, (-17)); ((-1856802669755919), (-16)); ((-23241217924234395), (-18)); ((-18454045113400658), (-17)); ((-94065824422383004), (-17)); ((-28479271315993782), (-17)); (31018343766006685, (-18)); (28405088633837111, (-17)); ((-95830733917694677), (-17))];
  [(51261637797297812, (-16)); (23789952031130701, (-16)); (13664359409114131, (-16)); ((-72304412827509401), (-17)); ((-27774961099970014), (-17)); (63250481591559804, (-17)); (6757097712548582, (-16)); ((-47470541872368299), (-17)); (56397789891544503, (-17)); (14360882144776688, (-17)); (83517059276766203, (-17)); (53091109178326201, (-17))];
  [(56622668330506913, (-16)); (20242534849169842, (-16)); (42775397837012337, (-16)); ((-43807591658471046), (-17)); ((-73114621458276796), (-17)); (52298633271793515, (-17)); ((-7823264935167088), (-16)); (59664866045409592, (-17)); (17881731884854968, (-17)); ((-44278070062991315), (-17)); ((-33081050297658621), (-17)); ((-83337246311001967), (-17))];
  [(57067948192649594, (-16)); (51089644483733698, (-17)); (55126886827327128, (-16)); (87230653305714745, (-17)); ((-40996083415519885), (-17)); (26648344572335697, (-17)); (10856998585408596, (-17)); (69379234467176554, (-17)); (71194433816591141, (-17)); ((-47675346937118701), (-17)); ((-59210159342263857), (-17)); (64970903680717651, (-17))];
  [(27453240889298441, (-17)); (46051180322031611, (-16)); (22429963021462376, (-16)); ((-10706533770864797), (-17)); (95701930346568775, (-17)); (26953861737306362, (-17)); (80684587611410696, (-17)); (24204317722759877, (-17)); ((-53890150543047133), (-17)); ((-58097912669819074), (-17)); (15977845021034237, (-17)); ((-79808151287283224), (-17))];
  [(98140998551307912, (-17)); (2663506208828089, (-15)); (25927130231825548, (-16)); ((-88787693824896519), (-17)); ((-25573649550558819), (-17)); ((-38245703993019081), (-17)); ((-4177112407731946), (-16)); (99629366709017619, (-18)); (90310094043848632, (-17)); ((-19285191691388903), (-17)); (96159910261796755, (-17)); ((-1952826259219137), (-16))];
  [(49731532114562, (-13)); (47154356769224481, (-17)); (22757274240288288, (-16)); (89086816570891914, (-17)); ((-11711736943910567), (-17)); (4389048109807977, (-16)); (25840469979633529, (-17)); ((-66398652733384489), (-17)); ((-70167578171282718), (-17)); (3736053030265919, (-16)); (73851568249753874, (-17)); ((-56126078097048893), (-17))];
  [(36508909899966486, (-16)); (83378707406227437, (-17)); (21794599189207484, (-16)); (67207632649133286, (-17)); (6465049746163255, (-16)); (36103286438530724, (-17)); (66584916951342665, (-17)); ((-31432231226114804), (-17)); ((-67664345668386194), (-17)); ((-32397267605184771), (-17)); (69514948163049772, (-17)); ((-64172338539331331), (-17))];
  [(53526805916448614, (-16)); (39212437206000579, (-16)); (31330669637176669, (-16)); ((-7111588921192934), (-16)); (42001151785555146, (-17)); ((-56377597947086666), (-17)); (41518973224905559, (-17)); ((-39622525197758329), (-17)); ((-8189157685197288), (-16)); ((-56733633445656972), (-17)); ((-81645322864446823), (-17)); (10739464158610018, (-17))];
  [(33509883064923658, (-16)); (86361176191088143, (-18)); (17594136818570056, (-16)); (99627319077790399, (-17)); (8436979814689731, (-17)); (17929486826617977, (-18)); (3343091444728654, (-17)); ((-18608803912331864), (-17)); ((-98196416210290316), (-17)); ((-79511655098056369), (-18)); (97890396814799452, (-17)); ((-18821508400677589), (-17))];
  [(15883319443022654, (-16)); (37350408045291122, (-17)); (25776156018371927, (-16)); (93105449481049607, (-17)); (63980709278035506, (-19)); ((-36482405674732404), (-17)); ((-18961003151898989), (-17)); ((-84576408699082073), (-17)); ((-49872953101250278), (-17)); ((-31174599218039611), (-17)); (53351867244266726, (-17)); ((-78623931631181754), (-17))];
  [(62505103103268738, (-16)); (1846837442319859, (-15)); (31958818319279172, (-16)); ((-27254878542219124), (-17)); ((-96162839200526895), (-17)); (31432391799690505, (-18)); ((-96191722980259609), (-17)); (27304573970637319, (-17)); (12699095916602536, (-18)); ((-20794291855890205), (-18)); ((-26774236077998195), (-18)); ((-99942520365890897), (-17))];
  [(1378913533055508, (-15)); (99509264845555956, (-17)); (79611955162217707, (-17)); (54442517743717689, (-17)); ((-15996722085309265), (-17)); ((-82341466736088476), (-17)); ((-47655626475487578), (-17)); (74884547921392086, (-17)); ((-46056983703207727), (-17)); (69028642801041606, (-17)); (64314923347028208, (-17)); (33145695164109856, (-17))];
  [(11407372092516372, (-16)); (31523488772006085, (-16)); (45084958485285487, (-16)); ((-99994215238455009), (-17)); (44844470809061107, (-19)); (97765852388101895, (-19)); ((-8666044343977386), (-18)); ((-87429007206860199), (-17)); ((-48532645668426799), (-17)); (63711506010599205, (-19)); ((-48538310602724632), (-17)); (87427835888998273, (-17))];
  [(39047849534681306, (-17)); (60854619703669535, (-16)); (23307582943553435, (-16)); (98051634066526483, (-17)); (18165110067103613, (-17)); (74770203379416894, (-18)); (17933642604451325, (-17)); ((-67244530858485252), (-17)); ((-71809174431670175), (-17)); ((-80163283253488954), (-18)); (71750971044803546, (-17)); ((-69192027245254006), (-17))];
  [(19032514492272601, (-17)); (36276060613116048, (-16)); (12054030573841903, (-16)); ((-88420203575952983), (-17)); (45867004323900096, (-17)); (88366008135685722, (-18)); ((-81358056829651526), (-18)); (35061365969281166, (-18)); ((-99606805350100014), (-17)); ((-45996481011878104), (-17)); ((-88791468737232915), (-17)); (63151722773490682, (-19))];
  [(23770138019515019, (-16)); (33265395559699904, (-16)); (30748197430545128, (-16)); ((-98294601636770396), (-17)); ((-13271175673888636), (-17)); (12729775540102839, (-17)); ((-12392228426774043), (-17)); ((-33425333011610159), (-18)); ((-99172880092035653), (-17)); (13586904124459973, (-17)); ((-9905909028132357), (-16)); (16409353885258604, (-18))];
  [(35180166604943302, (-16)); (55113544355794897, (-16)); (51700828594738928, (-16)); (71663493283422786, (-17)); ((-6486166910923441), (-16)); ((-25638011053531506), (-17)); (5166029913201764, (-16)); (24668624108842985, (-17)); (81991904955105577, (-17)); ((-46856773512559247), (-17)); ((-72002936502206605), (-17)); (51186130065203483, (-17))];
  [(71990061019312701, (-17)); (48107555829328819, (-16)); (32739565635002825, (-16)); (98208046924298922, (-18)); (7482366448313309, (-16)); (65612278031696736, (-17)); (65509797703385741, (-17)); ((-54491802271405154), (-17)); (52336506284576922, (-17)); (74913404675362494, (-17)); (37842604542097935, (-17)); ((-54368364711620343), (-17))];
  [(39937547778371232, (-16)); (50029546698351837, (-16)); (26991149409265893, (-16)); (28649424777429666, (-17)); ((-63076019903377867), (-17)); ((-72115367107649642), (-17)); ((-87879739694076564), (-17)); ((-47282458519731962), (-17)); (64436377638076775, (-18)); ((-38162308777427772), (-17)); (61528731739558096, (-17)); ((-68977194487002391), (-17))];
  [(23130331486247759, (-16)); (45224459948881686, (-16)); (59671760595414005, (-16)); ((-18880290618569429), (-17)); ((-66378130105339228), (-17)); (72370425381346337, (-17)); (40600314142193783, (-17)); (61826149358977611, (-17)); (67298898557083175, (-17)); ((-89415597731679564), (-17)); (42088847681542085, (-17)); (15276772667236055, (-17))];
  [(42561954798150636, (-17)); (44782326132997037, (-16)); (36861618779108904, (-16)); ((-23202245764197441), (-17)); (88592822560701956, (-17)); (40161767668091503, (-17)); (54972127364270762, (-17)); ((-22119970772595635), (-17)); (80552914944562426, (-17)); (80247872274248955, (-17)); (40767863369908081, (-17)); ((-43569029272045207), (-17))];
  [(51130063228615921, (-16)); (33820051409757959, (-16)); (98116538577032197, (-17)); ((-9712398428852308), (-16)); (92857151276487082, (-18)); ((-21925035244917593), (-17)); ((-23386266303954617), (-17)); ((-19901181626421557), (-17)); (95168406092740132, (-17)); (44737259955477345, (-18)); (97558794910763103, (-17)); (21500402584054648, (-17))];
  [(50074696514327721, (-16)); (21449380152325945, (-16)); (3647635622860157, (-15)); ((-54311430199472965), (-17)); ((-24418707510059637), (-17)); (80336761655084987, (-17)); ((-60299127964096255), (-17)); ((-5523947555682045), (-16)); ((-57555325617852082), (-17)); (58431872436687493, (-17)); ((-79701487211629829), (-17)); (15277081520928221, (-17))];
  [(33392949308289248, (-16)); (61651890198505539, (-16)); (45575586498784544, (-16)); (99304651156458279, (-17)); ((-11542948374063121), (-17)); ((-23122719407202234), (-18)); (50454539004004635, (-19)); ((-15450467467296666), (-17)); (98797917432461069, (-17)); ((-11761449427834898), (-17)); ((-98122593717633255), (-17)); ((-15284793406544989), (-17))];
  [(17176477231473899, (-16)); (46464559000865897, (-16)); (30040162399012353, (-16)); ((-65885320283708373), (-18)); ((-14600621580012396), (-17)); (98708728566365422, (-17)); ((-92546973068997687), (-19)); ((-98910473279065114), (-17)); ((-1469223541497082), (-16)); (9977842828732425, (-16)); ((-18815220404296382), (-18)); (63816238781887802, (-18))];
  [(34379767205282334, (-16)); (34755968287239734, (-16)); (47034067444168615, (-17)); ((-94473723782269925), (-17)); ((-31353482942340144), (-17)); ((-95746865272838433), (-18)); (23609779939587103, (-17)); ((-44809352957712878), (-17)); ((-86224707472483664), (-17)); (22744093868862655, (-17)); ((-83720254388621484), (-17)); (49735552667974547, (-17))];
  [(13029651394650414, (-16)); (34429059299133837, (-16)); (52737936865786299, (-16)); ((-95494756571484163), (-17)); (78538592697596055, (-18)); (28619370397054383, (-17)); ((-28407734034910104), (-17)); (37152088495994995, (-18)); ((-95808130501568955), (-17)); ((-8587905120271877), (-17)); ((-99621855623024158), (-17)); ((-13167261942178321), (-18))];
  [(22860907742089709, (-16)); (56155479014371013, (-16)); (24158694682164385, (-18)); (78528661485582596, (-17)); ((-40605162405348538), (-17)); (46738315238335737, (-17)); (41722340387465967, (-17)); (90481349124504762, (-17)); (85071601138044961, (-18)); ((-45743804366003521), (-17)); (1281976000729928, (-16)); (87995216435213375, (-17))];
  [(78406273540283222, (-17)); (49549144259750646, (-16)); (56189885020339336, (-18)); (2401549270064684, (-16)); (68732904203310241, (-17)); (68549573230792293, (-17)); ((-64774661362069808), (-17)); (63942221477649075, (-17)); ((-41420231263628327), (-17)); ((-72301447812435671), (-17)); ((-34455481309682068), (-17)); (59877545473606308, (-17))];
  [(21108258635023081, (-16)); (15175620567784887, (-16)); (22959506721090279, (-16)); (53209130256735966, (-18)); (51343295967496083, (-17)); ((-85647847864189308), (-17)); ((-30045107189893616), (-17)); ((-80971900789996565), (-17)); ((-50406773517085524), (-17)); ((-95231189315901232), (-17)); (2841508827452508, (-16)); (11117703891988095, (-17))];
  [(25481999985784287, (-16)); (55759391010381754, (-17)); (25412677851965766, (-16)); (84853073903151532, (-17)); (43868769818490011, (-17)); ((-29588627609246171), (-17)); (19483480697328451, (-17)); ((-77891453248611398), (-17)); ((-5960969292603524), (-16)); ((-49197051020392824), (-17)); (44815762243118495, (-17)); ((-7464045568902391), (-16))];
  [(15782195663475118, (-16)); (43673316058404295, (-16)); (47008588529916153, (-16)); ((-33825067046632523), (-17)); ((-69856203137200878), (-19)); (9410301190917929, (-16)); ((-9410481110145571), (-16)); ((-15958916221897519), (-19)); ((-3382689845165589), (-16)); (38648007730271564, (-19)); ((-99997432678982456), (-17)); ((-60339933892939318), (-19))];
  [(21695939331718289, (-17)); (40291006563389313, (-16)); (21252953498221485, (-16)); ((-63134653088884352), (-17)); (75732037959810783, (-17)); (16693531855182861, (-17)); (54066484937581671, (-17)); (58416383192224153, (-17)); ((-60533803624367488), (-17)); ((-55595240676162916), (-17)); ((-29192201033718068), (-17)); ((-77826631771948784), (-17))];
  [(46045970394106979, (-16)); (17194567981334508, (-16)); (44035358499409671, (-16)); ((-14811351160002351), (-17)); (10639671677087702, (-17)); (98323045434012446, (-17)); ((-90436573887840632), (-17)); ((-41691736823572784), (-17)); ((-91118156293400351), (-18)); (40023118072487024, (-17)); ((-9026957664261932), (-16)); (15797264083316448, (-17))];
  [(42256681380938881, (-16)); (10172462156368181, (-16)); (5170687752199961, (-15)); (52571048560583034, (-17)); (39788091133550213, (-17)); (75187716132285354, (-17)); ((-85031999001858871), (-17)); (22067321159083297, (-17)); (47776484619630066, (-17)); (24174364497737199, (-18)); ((-89050216961050566), (-17)); (45433631378100603, (-17))];
  [(57852109130713636, (-16)); (44452983629049028, (-16)); (49039516885676484, (-16)); ((-26392633357095457), (-17)); (84740093328008692, (-17)); ((-46071091665363306), (-17)); (29094413115188394, (-17)); (52534114906305429, (-17)); (79960502102562181, (-17)); (91961644341326809, (-17)); (76995684146239113, (-18)); ((-3851976916166347), (-16))];
  [(58419448873495989, (-16)); (33912184273009198, (-16)); (1291836807136364, (-16)); ((-96900493892818618), (-17)); (22338037711594794, (-17)); ((-10550182677242639), (-17)); ((-2351102725493569), (-16)); ((-70276455006707328), (-17)); (67145003307080953, (-17)); (75845817778894584, (-18)); (67544296153602845, (-17)); (73350134126454725, (-17))];
  [(14491376597846248, (-16)); (46422162662091742, (-16)); (16427053410858328, (-16)); ((-701151374920157), (-16)); (12106010533315317, (-17)); (99016580348505356, (-17)); (99630469151081624, (-17)); (57860130386300404, (-18)); (63475719651041665, (-18)); ((-49606745186648295), (-18)); (99095744419647325, (-17)); ((-12466962189555551), (-17))];
  [(47699509239020959, (-16)); (45803531669169901, (-16)); (40033850917245228, (-16)); ((-13165250764596964), (-17)); (57029414720296302, (-18)); ((-98965411285316662), (-17)); (78828875785768127, (-17)); ((-5993065414698433), (-16)); ((-13940051501572356), (-17)); ((-60105611340849185), (-17)); ((-79848563869872802), (-17)); (33944562541925224, (-18))];
  [(53296747840415906, (-16)); (23755202047469619, (-16)); (39734524816753929, (-16)); ((-72063923222858561), (-17)); ((-40130460773370191), (-17)); (56536157349495753, (-17)); ((-688186457784845), (-15)); (31508473573480716, (-17)); ((-6535449553232543), (-16)); (84133799953064858, (-18)); ((-86004431346217636), (-17)); ((-50323481853587115), (-17))];
  [(18007612697982254, (-16)); (68496177831577387, (-17)); (58702971043886247, (-16)); (77444322835432422, (-17)); (14420688359945072, (-17)); ((-61598868559306075), (-17)); (11508089543176526, (-17)); (92531822170338229, (-17)); (36130676175559329, (-17)); (62208847727855821, (-17)); ((-35070010451413391), (-17)); (70001097357900066, (-17))];
  [(57051978805401937, (-16)); (15888922225093249, (-16)); (25674965184733729, (-16)); ((-18094908112581926), (-18)); ((-83742676232375624), (-17)); (54624993550969703, (-17)); ((-40651818695507685), (-17)); ((-49298074894482202), (-17)); ((-76922879876182448), (-17)); (91346348475193817, (-17)); ((-23597965783887673), (-17)); ((-33150876777408511), (-17))];
  [(51012245561744916, (-16)); (17607695764001572, (-16)); (49225322064592518, (-16)); ((-18883262590800637), (-17)); ((-37229069077489918), (-17)); (90870340648367509, (-17)); ((-81105305405918304), (-17)); (58083820006755427, (-17)); (69425707368060224, (-18)); ((-55365619557082413), (-17)); ((-72389683443473629), (-17)); ((-4116287042972212), (-16))];
  [(49007795371411129, (-16)); (35898329652504524, (-17)); (61059467004079933, (-16)); (93625449834167895, (-17)); ((-65795039308394448), (-18)); (34510654461684409, (-17)); (39178499827741695, (-19)); (98420118137461332, (-17)); (17701040938975335, (-17)); ((-35130067575580243), (-17)); ((-1643747163745764), (-16)); (92172055842879741, (-17))];
  [(2826463865191803, (-15)); (33315592968383254, (-16)); (10996758025677205, (-16)); ((-9820105342901666), (-16)); ((-17952767283860205), (-17)); (58524569441366442, (-18)); (13363384020129937, (-17)); ((-87972725319744949), (-17)); ((-45631344132594237), (-17)); (13340654892543713, (-17)); ((-44028374335969589), (-17)); (88789240228587296, (-17))];
  [(4344172387115238, (-15)); (5205523229578171, (-15)); (37322747421914766, (-16)); (47338902309484682, (-17)); ((-31706509002748867), (-17)); ((-82181053868830811), (-17)); (19434712964671927, (-17)); ((-87238341534299635), (-17)); (44852688863943296, (-17)); ((-85914610283198511), (-17)); ((-37204422495228912), (-17)); ((-35135604259534603), (-17))];
  [(25606196875749005, (-16)); (21195701198817694, (-16)); (13413312109627009, (-16)); ((-52164146477819695), (-17)); (71318523991015703, (-17)); ((-46824886096855478), (-17)); ((-61819396980461372), (-17)); ((-69420934320943406), (-17)); ((-36865919695287463), (-17)); ((-5879850320554677), (-16)); (97160698716188154, (-18)); (80301519332059501, (-17))];
  [(59118680689887206, (-16)); (95889221769661537, (-17)); (1548872692039284, (-16)); (57442711990273387, (-17)); ((-76277132382021318), (-17)); (29700739296827228, (-17)); (79945908333961191, (-17)); (60071061024042882, (-17)); ((-345496893749897), (-17)); ((-17578014104567588), (-17)); (2394298859836238, (-16)); (95486892907447318, (-17))];
  [(36857505689528436, (-16)); (3873723899568732, (-15)); (53973866195379672, (-17)); ((-74375144782428271), (-17)); ((-57190681166146051), (-17)); ((-34605835148787562), (-17)); (31276278582888578, (-17)); (15980524644798338, (-17)); ((-93629147331814033), (-17)); (59077341143609186, (-17)); ((-80460231293659734), (-17)); (60015784234150382, (-18))];
  [(59094503426926153, (-16)); (44311271672892056, (-16)); (54285994339019226, (-16)); ((-27756810057698994), (-17)); (89438864759135661, (-17)); ((-35074905074965806), (-17)); ((-32262412967795967), (-17)); (25711425004787741, (-17)); (91093684378877582, (-17)); (90491415089588523, (-17)); (36600711670952768, (-17)); (2171846450059422, (-16))];
  [(27230994282370897, (-16)); (34215776234207689, (-16)); (52747492160354108, (-16)); ((-96105959187432544), (-17)); ((-25249359525471554), (-17)); (11230069110073575, (-17)); (39619380267328211, (-18)); (27628831806686682, (-17)); (96025781434311419, (-17)); ((-27348631697689707), (-17)); (92731426693172891, (-17)); ((-25552589843552537), (-17))];
  [(49618985960344446, (-16)); (40973695157072715, (-17)); (36505858980162049, (-16)); (91722564464316847, (-17)); ((-98368544775103095), (-18)); (38603205334240398, (-17)); ((-2740116955652423), (-16)); ((-85917661533563305), (-17)); (43212629444858691, (-17)); (28916207825782597, (-17)); ((-50213461647175295), (-17)); ((-81501295660767292), (-17))];
  [(11412649834558344, (-16)); (4386244350366689, (-15)); (60896775502855496, (-16)); ((-32039328591254435), (-17)); (39449171787128529, (-17)); (86123424622638234, (-17)); ((-55274619200479225), (-17)); (66048280956923644, (-17)); ((-50816739907999731), (-17)); ((-76929824487409559), (-17)); ((-63885737281062205), (-17)); (64395371841448334, (-19))];
  [(57264217639628443, (-16)); (50159048138930284, (-16)); (39939177323205679, (-16)); (29887717730845276, (-17)); (81016476807984328, (-17)); ((-50428710220098372), (-17)); (91291229246446381, (-17)); ((-88812473005262987), (-18)); (39837606718522472, (-17)); (27796326942855049, (-17)); ((-57943540899812396), (-17)); ((-76615339694330653), (-17))];
  [(32296275433363313, (-16)); (60463891478546383, (-16)); (40562430308505204, (-17)); (97209454970106079, (-17)); ((-2336809360750558), (-16)); ((-20625386216446464), (-18)); (20658056182535994, (-17)); (89437771946822431, (-17)); ((-39675302947140434), (-17)); (11116050520490871, (-17)); (38142065365407801, (-17)); (9176936455313861, (-16))];
  [(1214434263395332, (-15)); (53625201266008977, (-16)); (29337873767112512, (-16)); (60529080390930401, (-17)); (27769981571360852, (-17)); (74599320040832562, (-17)); (42563341641655594, (-17)); ((-90485559755949618), (-17)); ((-85171823285570269), (-19)); (672650903167757, (-15)); (3226750066520106, (-16)); ((-66589909336905229), (-17))];
  [(43097177176996944, (-16)); (31420122985395649, (-16)); (35849193744106707, (-16)); ((-99999991194905935), (-17)); ((-16444934429840863), (-20)); ((-38608067381231488), (-20)); (17056157689117752, (-21)); ((-93518480526170444), (-17)); (35416010463731684, (-17)); ((-41929817673873993), (-20)); (35416006686813362, (-17)); (93518472572267675, (-17))];
  [(11094075839988091, (-17)); (48603487033950667, (-16)); (17596650419295514, (-16)); (14742045595970163, (-17)); (98299346757273254, (-17)); (10950366146375629, (-17)); (29211129428224247, (-17)); (62503481217251744, (-18)); ((-95433972283903057), (-17)); ((-94495407344345927), (-17)); (17267645336020754, (-17)); ((-27792920238354457), (-17))];
  [(7661946863811811, (-17)); (3660119202842298, (-15)); (9356664774445077, (-16)); ((-86855036578092826), (-17)); (49414689841816578, (-17)); (37935535919802664, (-18)); ((-26263057953951191), (-17)); ((-39400169120695311), (-17)); ((-8807881958886602), (-16)); ((-42029208985246891), (-17)); ((-77497194149837945), (-17)); (47198839932531877, (-17))];
  [(59495640303110413, (-16)); (29674541298154002, (-16)); (21613448951791067, (-17)); ((-98487616350451479), (-17)); ((-16370667840487074), (-17)); (56736813501222623, (-18)); (17206536462519584, (-17)); ((-88577314076072688), (-17)); (43104460720820514, (-17)); ((-20308935398653891), (-18)); (43428799954928721, (-17)); (90054510191908288, (-17))];
  [(34030555158158857, (-16)); (23416026208915768, (-16)); (46991749479534723, (-16)); ((-69671385941720165), (-17)); (69296850846567548, (-17)); (18543043000231846, (-17)); ((-17625759930892568), (-17)); ((-41593882834811968), (-17)); (89214805372104455, (-17)); (69535822191287988, (-17)); (58888839124850345, (-17)); (41193131207873435, (-17))];
  [(23703910155514757, (-17)); (58479703214791003, (-16)); (44417706670903039, (-16)); (90677942413245882, (-17)); (40981622832967468, (-17)); (99003711888223669, (-18)); (14154515141069605, (-18)); ((-26428512652786079), (-17)); (96434071862452941, (-17)); (42136768465453978, (-17)); ((-87304297196288838), (-17)); ((-24544906484865603), (-17))];
  [(22842114871771915, (-16)); (30831272770334164, (-16)); (52855609658463276, (-16)); ((-99829138665380157), (-17)); (38239111906261496, (-18)); ((-44182322861643086), (-18)); (16384262818722361, (-18)); (90898293941601316, (-17)); (41651119046492802, (-17)); (5608799572740223, (-17)); (41507563909635181, (-17)); ((-90805635869368706), (-17))];
  [(9463807325939757, (-16)); (48198900132744305, (-16)); (38151838193910526, (-16)); (10729409705096074, (-17)); (58124840240340914, (-17)); (80662151684758798, (-17)); ((-48871994179391649), (-18)); ((-80724077473134859), (-17)); (58819542653446533, (-17)); (99302543014917222, (-17)); ((-10253109925586754), (-17)); ((-58205401488477956), (-18))];
  [(72758791896456221, (-17)); (14347394035008192, (-16)); (60893476587984434, (-16)); (13563754233691572, (-17)); ((-73987942159303255), (-17)); ((-6589240461631074), (-16)); (85294908848681683, (-17)); (42556721596600372, (-17)); ((-30227536642017827), (-17)); (50406379512747157, (-17)); ((-52102877674664405), (-17)); (6888023695107226, (-16))];
  [(41389623829482813, (-16)); (5428033760662605, (-16)); (59516645453119983, (-16)); (85626399638926509, (-17)); (28022920061913525, (-17)); (43391653991043605, (-17)); ((-406202033162397), (-15)); (8842265381429153, (-16)); (23052838761968242, (-17)); ((-31907973414527524), (-17)); ((-37365093919881442), (-17)); (87096102030666356, (-17))];
  [(39000787968263388, (-16)); (52850715848484455, (-16)); (24013405465290652, (-17)); (5418885916452727, (-16)); ((-61006449426448395), (-17)); ((-57808136718157788), (-17)); (45507263389059405, (-17)); (79125181057896965, (-17)); ((-40844763451314015), (-17)); (70658732802717328, (-17)); ((-4173589693922769), (-17)); (70639398551948185, (-17))];
  [(37851678934495574, (-16)); (45074199860648984, (-17)); (5277457423759004, (-15)); (9001241106861736, (-16)); (34848745850074747, (-17)); (2614059613496123, (-16)); ((-40737675649003469), (-17)); (46075971718362874, (-17)); (78850787015255686, (-17)); (15433976685574, (-14)); ((-81624565805188343), (-17)); (55670662119141667, (-17))];
  [(67085522725290825, (-17)); (48396480482502984, (-16)); (18733910874551092, (-16)); (12691585521349633, (-17)); (77695620800348086, (-17)); (61662907532833588, (-17)); (82014489670617818, (-17)); (26745378369264428, (-17)); ((-50579721430164137), (-17)); ((-55790206497398742), (-17)); (56991887530888119, (-17)); ((-60327254327080126), (-17))];
  [(17298362484795426, (-16)); (26565613890047866, (-16)); (59743832116510198, (-16)); ((-88466037286527233), (-17)); (73837946387237216, (-18)); ((-46035202004030862), (-17)); (69563799862619957, (-18)); (99723156479476094, (-17)); (26269448522299954, (-18)); (46101724743283801, (-17)); ((-87842956637338987), (-19)); ((-8873476960691008), (-16))];
  [(13445139035649405, (-16)); (61238833331455771, (-16)); (54315672368432608, (-16)); (98733825110324391, (-17)); (35589424772129077, (-18)); (15458515696138717, (-17)); ((-1397468550186699), (-16)); (6562640591795591, (-16)); (74147710763148922, (-17)); ((-75059938854082478), (-18)); ((-75369150019988762), (-17)); (65292811863609024, (-17))];
  [(45482845829715215, (-16)); (55806314982441201, (-16)); (37777291755648239, (-16)); (76319448606065832, (-17)); ((-10556384589157922), (-17)); ((-63748760841853758), (-17)); (29381111734832049, (-17)); ((-82198772094447203), (-17)); (48786392973763104, (-17)); ((-57550777906917916), (-17)); ((-5596360076488035), (-16)); ((-59632066472139733), (-17))];
  [(47516992851968043, (-16)); (57543959541911898, (-16)); (52877598409333437, (-17)); (86341846050055582, (-17)); (19826486182020597, (-18)); ((-50409867338897463), (-17)); ((-27142481042473904), (-17)); (86053728658644735, (-17)); ((-43105005588716577), (-17)); (42524949659317002, (-17)); (50900146251274014, (-17)); (74838517944113969, (-17))];
  [(22088480389976484, (-16)); (16951576609960435, (-16)); (6659344011341819, (-16)); ((-12404102528550853), (-17)); (59103158655596277, (-17)); ((-79705425645890715), (-17)); ((-95716715976548972), (-17)); (14051506619982687, (-17)); (25315320349014669, (-17)); (26161967111168299, (-17)); (79431554174899521, (-17)); (54828639215597441, (-17))];
  [(6170677011497105, (-15)); (23790345319007873, (-16)); (15779072380030155, (-16)); ((-7230712961150042), (-16)); ((-68640607226543171), (-17)); (77553882505719401, (-18)); (72670990257437174, (-18)); ((-18723594590088166), (-17)); ((-97962320702278471), (-17)); (68694019238181969, (-17)); ((-70270150456630254), (-17)); (18526674707211621, (-17))];
  [(38345578149975945, (-16)); (27514682704340432, (-16)); (25707252492679866, (-16)); ((-92486176366786998), (-17)); (29258843779039057, (-17)); (24294592850372235, (-17)); (37747221944996084, (-17)); (62844497422201329, (-17)); (6801261926426696, (-16)); (46318912429780042, (-18)); (72072804888284447, (-17)); ((-69166873422531583), (-17))];
  [(35886178954519385, (-16)); (2606148878539714, (-15)); (28110268569900319, (-16)); ((-86004228984032016), (-17)); (46008675353803458, (-17)); (22056164422911476, (-17)); (50676663863560167, (-17)); (72004878275317175, (-17)); (47404358915784234, (-17)); (59286032521937315, (-18)); (51947081696136466, (-17)); ((-85242902148700928), (-17))];
  [(27723835051712062, (-16)); (81888670601431501, (-17)); (22332864488090274, (-16)); (68303476459390866, (-17)); (68116737966446794, (-17)); ((-26358017990202987), (-17)); (21115064806875325, (-17)); ((-52962403772880329), (-17)); ((-82153136427039997), (-17)); ((-69919876585724128), (-17)); (50547935619655315, (-17)); ((-50558056359281545), (-17))];
  [(61622629558712481, (-16)); (55248706204527247, (-16)); (55248584227450239, (-16)); (72599602927821338, (-17)); (68267717456286303, (-17)); ((-82955655642841922), (-18)); ((-43856594439561397), (-17)); (55252318632108044, (-17)); (70878631546749249, (-17)); (52970716239130722, (-17)); ((-47819452517617439), (-17)); (70052859913274235, (-17))];
  [(51695506324580363, (-16)); (39711384327151236, (-16)); (48096687173276615, (-16)); ((-67521087427353721), (-17)); (32558978841236302, (-17)); ((-66187730354224883), (-17)); (62712462844739236, (-17)); (72579697920156705, (-17)); ((-28272503493076151), (-17)); (38833616321105824, (-17)); ((-60597857607631056), (-17)); ((-6942513879561506), (-16))];
  [(92941409286362131, (-17)); (67609420818792887, (-17)); (19452336599834268, (-16)); (78002271614143903, (-17)); ((-37438916623120572), (-17)); ((-50139536746168156), (-17)); ((-603587897157977), (-15)); ((-2387972841899611), (-16)); ((-76069541044225464), (-17)); (16506426841610339, (-17)); (89599587570044181, (-17)); ((-41224407578527428), (-17))];
  [(57517615229945918, (-16)); (17832713716206419, (-16)); (40373257222409862, (-16)); ((-21087992923317597), (-17)); ((-84269980219328533), (-17)); (49536521762231989, (-17)); ((-91335794804074211), (-17)); (35042649026066275, (-17)); (2073126471646119, (-16)); ((-3482914213663838), (-16)); ((-40872768233506196), (-17)); ((-84358447561319705), (-17))];
  [(49084047007269049, (-16)); (20763943654413106, (-16)); (22939614188388426, (-16)); ((-48433074193390696), (-17)); ((-17039514063524189), (-17)); (85813124198204505, (-17)); (53059298283031042, (-17)); ((-83708736027934061), (-17)); (13325103313595457, (-17)); (69562548759298992, (-17)); (51985598708532876, (-17)); (49583760819703193, (-17))];
  [(17423263350307305, (-17)); (53742764305071926, (-16)); (38848781431676125, (-16)); (61460682991798676, (-17)); (77689054148488912, (-17)); (13674622908686984, (-17)); (47944743942025531, (-17)); ((-50555640473576413), (-17)); (71731643956067881, (-17)); (62640928908463955, (-17)); ((-37530495358037058), (-17)); ((-6831966000841283), (-16))];
  [(4289385190765616, (-15)); (16244746029614499, (-16)); (421105120555979, (-14)); ((-53652502164270144), (-18)); (40991007792746825, (-17)); (91054661441631302, (-17)); ((-60149270290679824), (-17)); ((-74113546479129511), (-17)); (29820253382301293, (-17)); (79707461216713404, (-17)); ((-53168783213657234), (-17)); (28632169285006148, (-17))];
  [(25441130353431181, (-16)); (44419885260512926, (-16)); (15277279228599064, (-17)); ((-26711736152335158), (-17)); ((-79671510111105881), (-17)); (54211932527295004, (-17)); (86993498519532642, (-17)); (42648511362450819, (-18)); (49131886388757162, (-17)); ((-41456174052366468), (-17)); (60284836579372292, (-17)); (68169818186190534, (-17))];
  [(53701530010852636, (-16)); (22286009798470783, (-16)); (71821517468166962, (-17)); ((-61138106885978827), (-17)); ((-4837826069139094), (-16)); (62623284638179477, (-17)); (7763666903649552, (-16)); ((-2134992948141532), (-16)); (59302007824830427, (-17)); ((-15319252831528204), (-17)); (84874757163802295, (-17)); (50612212845017002, (-17))];
  [(24945385906598291, (-17)); (26462420444232251, (-16)); (12258155653779803, (-16)); ((-8798021053024081), (-16)); ((-4606271311740518), (-16)); ((-11734948458264904), (-17)); (45338742727498396, (-18)); (16442964720499009, (-17)); ((-98534627899430982), (-17)); (47317296405578818, (-17)); ((-87223020880178492), (-17)); ((-12378129479147655), (-17))];
  [(52270867114953221, (-16)); (56988066687409002, (-16)); (48733042599650895, (-16)); (8340550403912963, (-16)); (27157709681663034, (-17)); ((-48020627867878168), (-17)); (43048996544436297, (-17)); (22396638875734171, (-17)); (87436688315529554, (-17)); (34500808577420938, (-17)); ((-93599409036149683), (-17)); (698890803972258, (-16))];
  [(22824025671121753, (-16)); (15795595565758249, (-16)); (44034626720955723, (-16)); ((-876311762049445), (-17)); (65302596594565698, (-17)); ((-75728481799803105), (-17)); (91997874737516749, (-17)); (30204522259889049, (-17)); (24981550769158498, (-17)); (3918702746414775, (-16)); ((-69449677559073553), (-17)); ((-60341686796648686), (-17))];
  [(52197649838133131, (-16)); (3773150282033416, (-15)); (22731090524044313, (-16)); ((-80710885983030023), (-17)); (28686808075103665, (-17)); ((-51602518604196979), (-17)); ((-20859552267749928), (-17)); ((-95620850202966157), (-17)); ((-20531246568363007), (-17)); ((-55232526313969532), (-17)); ((-58068966689683865), (-18)); (83160375107695295, (-17))];
  [(62641263919674017, (-16)); (30362850143348439, (-16)); (25431778823352533, (-16)); ((-99446027288933614), (-17)); ((-10509401863238564), (-17)); (20032205477419789, (-19)); ((-85703314728601071), (-18)); (79964568499703648, (-17)); ((-59432459170906837), (-17)); (60858093047658532, (-18)); ((-59120387829691734), (-17)); ((-80422277187187785), (-17))];
  [(25153564354833926, (-16)); (31651873846167695, (-16)); (18270094978162614, (-16)); ((-99972165724728879), (-17)); ((-19115602046311179), (-18)); (1382757350880554, (-17)); (85319341514018508, (-19)); ((-83936241661368782), (-17)); ((-54350523426740438), (-17)); (21995775284597261, (-18)); ((-54323597757773467), (-17)); (83929187922604886, (-17))];
  [(41174567348838078, (-16)); (43479812783035117, (-16)); (55419351847499794, (-16)); ((-35639595233769433), (-17)); ((-52365052953770452), (-17)); ((-77380362371352951), (-17)); (90873812108280916, (-17)); ((-17444533844258314), (-19)); ((-41736313226406974), (-17)); (21720256086932715, (-17)); ((-85193138209439812), (-17)); (47648291444136276, (-17))];
  [(56284475681267701, (-16)); (14790573147992894, (-16)); (57770513421563763, (-16)); (91610386171170427, (-18)); ((-78987216359612866), (-17)); (60639055263216268, (-17)); (396864306258498, (-15)); (58746050029170727, (-17)); (70525802584230002, (-17)); ((-913294180187047), (-15)); (17604580589434005, (-17)); (36728955153050868, (-17))];
  [(42456405238538872, (-16)); (35863073591469892, (-16)); (35783267054048133, (-16)); ((-90273343590251909), (-17)); ((-19358367286772027), (-17)); ((-38418446780508436), (-17)); ((-1291026889898156), (-17)); ((-88044341591209574), (-17)); (47397543853452612, (-17)); ((-43000659141528108), (-17)); (43283340094785178, (-17)); (79230649269290221, (-17))];
  [(29151152208264492, (-16)); (29659850255121292, (-16)); (23790110771170019, (-16)); ((-98462056413212862), (-17)); (17024504736144666, (-17)); ((-39229689484209088), (-18)); (95997057124451599, (-18)); (33959919823154655, (-17)); ((-93565856463986652), (-17)); ((-14596886555554736), (-17)); ((-92503459849315317), (-17)); ((-35071937767827588), (-17))];
  [(41584009914480662, (-16)); (46520274475432579, (-16)); (46040056605914254, (-17)); ((-60324884830277155), (-18)); ((-52512481740598438), (-17)); ((-84888446470326295), (-17)); (9328067368719524, (-17)); (84374594345508458, (-17)); ((-52857496991396791), (-17)); (9938106581168652, (-16)); ((-1110707389343418), (-16)); ((-19148801274459018), (-19))];
  [(47715299857158016, (-16)); (23192780852963653, (-16)); (26294920345421122, (-16)); ((-68052709443733905), (-17)); ((-43308713145582954), (-18)); (73144188361232543, (-17)); (3206605051446762, (-16)); ((-91518681617695907), (-17)); (24415145286531048, (-17)); (65883208344542099, (-17)); (40069620270418643, (-17)); (63669681871469364, (-17))];
  [(20661082302235805, (-16)); (48218501681657973, (-16)); (27513918126138139, (-16)); (10924272923712525, (-17)); ((-47246143567221605), (-17)); (87455486843958086, (-17)); ((-1042896978814209), (-16)); ((-88041241482036892), (-17)); ((-46259878809392546), (-17)); (98852905117888479, (-17)); ((-40671508857122722), (-18)); ((-14545151543610296), (-17))];
  [(20098359832987862, (-16)); (53516991663028515, (-16)); (55252304028081189, (-16)); (59664200237173193, (-17)); ((-34112219000640615), (-17)); (72639794361705323, (-17)); ((-25161555226673138), (-17)); (78000100804663464, (-17)); (57296425831262954, (-17)); ((-76204195085530424), (-17)); ((-52462756211570438), (-17)); (37954971506401469, (-17))];
  [(34362323576260452, (-16)); (10557124000336593, (-16)); (29828994101503792, (-16)); (49260788815089962, (-17)); (83274949388660646, (-17)); (25271673661060051, (-17)); (86222201059129344, (-17)); ((-50638736510829996), (-17)); ((-12043293178402942), (-18)); (11794351607196718, (-17)); (22383055396945753, (-17)); ((-96746535345008999), (-17))];
  [(20736177315939739, (-16)); (89344024989028237, (-17)); (1343195591898825, (-15)); (62673498621030932, (-17)); (37551185349935029, (-17)); ((-68278408369077115), (-17)); ((-74990626143974015), (-17)); (52534107347452175, (-18)); ((-65945490112567862), (-17)); ((-21176367987319161), (-17)); (9253275179344278, (-16)); (31452365322798148, (-17))];
  [(32740133231624369, (-16)); (24614106451254885, (-16)); (18027126921920202, (-16)); ((-77745826021953546), (-17)); (62342833446018864, (-17)); (83040745472378247, (-18)); (22410819671048227, (-17)); (39797360187047792, (-17)); ((-88960245524695702), (-17)); ((-58765140158395679), (-17)); ((-67301866542201749), (-17)); ((-44912326393761609), (-17))];
  [(32151285457800283, (-16)); (30517723544936159, (-17)); (13007315154098573, (-17)); (9537937149908442, (-16)); (29965021313339452, (-17)); (22074850239029234, (-18)); ((-29425563496752161), (-17)); (94642289263001034, (-17)); ((-13303131058402945), (-17)); ((-6075500418751556), (-17)); (12038877885814378, (-17)); (99086597044767855, (-17))];
  [(71560211466613149, (-18)); (11318576580675499, (-16)); (33972319925705148, (-16)); (42497898411790186, (-17)); ((-90288649410995858), (-17)); ((-64721262440899568), (-18)); ((-85717865445120034), (-17)); ((-42438151582233108), (-17)); (2917963046057474, (-16)); ((-2909254499203287), (-16)); ((-68529612447235072), (-18)); ((-95428825561592556), (-17))];
  [(68555273019658203, (-17)); (3024479240795015, (-15)); (11544868449070349, (-17)); ((-99315005887048124), (-17)); ((-90446803472826756), (-18)); ((-73975241176406248), (-18)); (81323331726080153, (-18)); ((-80452219312302009), (-18)); ((-99343543128111511), (-17)); (83901586889221239, (-18)); ((-99264637013856705), (-17)); (87256561748657868, (-18))];
  [(33615676452253124, (-17)); (14462986810306466, (-17)); (20545477696855321, (-16)); (98955931934829833, (-17)); ((-13605933937587375), (-17)); ((-47541662355593615), (-18)); ((-10536822366698748), (-17)); ((-45789764706713626), (-17)); ((-88273851295366279), (-17)); (9833560358382995, (-17)); (87853150255354007, (-17)); ((-46745321486628233), (-17))];
  [(32871643187220752, (-16)); (5686402133115112, (-15)); (58734813764435723, (-16)); (82714769805975863, (-17)); ((-55604056475836261), (-17)); ((-81520401971797593), (-18)); (54249463546928123, (-17)); (75214594714372673, (-17)); (37413372566813308, (-17)); ((-14671828816304405), (-17)); ((-35368823070391719), (-17)); (92378481226963161, (-17))];
  [(1826886930661447, (-15)); (31061557774010149, (-16)); (26857775003359574, (-17)); ((-99937217960706537), (-17)); (89743032946355463, (-19)); ((-34274020887537719), (-18)); ((-17747537471459334), (-18)); (71045923483543538, (-17)); (70351453471179015, (-17)); (30663847461181795, (-18)); (70368113341017136, (-17)); ((-70985392225545518), (-17))];
  [(22016821629079442, (-17)); (33461121055309184, (-16)); (36499505640700103, (-16)); ((-97915869527375277), (-17)); (19819404481467115, (-17)); (44355045595763101, (-18)); (1515418806487295, (-16)); (56756914732717967, (-17)); (80925911883138169, (-17)); (1352157826559027, (-16)); (79911474995916465, (-17)); ((-58577496405911156), (-17))];
  [(20778627815712198, (-16)); (41283273146262633, (-16)); (13103513312104185, (-16)); ((-55141683874943059), (-17)); ((-40511446525075029), (-17)); (72926109178276, (-14)); (80898836862850576, (-17)); ((-47308504880881208), (-17)); (34889591000376152, (-17)); (20365973919106678, (-17)); (78235082069245809, (-17)); (58859995242478924, (-17))];
  [(18270971944779255, (-16)); (54282757146677012, (-16)); (94338507643108771, (-17)); (65628672591803339, (-17)); ((-19127170264619878), (-17)); (7298649663811877, (-16)); (70314839041273025, (-17)); (50584985345314204, (-17)); ((-49969817572352759), (-17)); ((-27362396540466771), (-17)); (84114865602238165, (-17)); (46647493397605655, (-17))];
  [(13684178808022802, (-16)); (50354035190418855, (-16)); (63133429308751843, (-17)); (31742663384293307, (-17)); (19060466183499863, (-17)); (92892959637095762, (-17)); (39441119585374113, (-17)); (86430392262427946, (-17)); ((-31211942893947731), (-17)); ((-86236891219034928), (-17)); (4654552526538393, (-16)); (19917647216622819, (-17))];
  [(27168847794918644, (-17)); (38139392047711618, (-16)); (44981670955351333, (-17)); ((-78236233383804155), (-17)); (59997785761751987, (-17)); (16713990834083839, (-17)); ((-46762363459203365), (-17)); ((-38860586133897523), (-17)); ((-79392293133775227), (-17)); ((-41138463141253695), (-17)); ((-69929396887266526), (-17)); (58459441507414944, (-17))];
  [(41804387699566075, (-16)); (57947722171121292, (-16)); (45907365471989996, (-16)); (88307858821136753, (-17)); ((-23799803190743171), (-17)); ((-40438736855990826), (-17)); (37251705087275466, (-17)); ((-1684341782244117), (-16)); (91261217086719415, (-17)); ((-28531255466888139), (-17)); ((-95654945738004382), (-17)); ((-60082291353279083), (-18))];
  [(30414704376088517, (-16)); (46431613860988659, (-16)); (43555299056890728, (-16)); ((-69172312457050703), (-18)); ((-99260867916765472), (-17)); (99715601740087839, (-18)); ((-44018427320073877), (-17)); (12006731091481983, (-17)); (88984360787523853, (-17)); ((-89523907243600664), (-17)); (17659300403120422, (-18)); ((-44523606355863721), (-17))];
  [(461168429437787, (-14)); (28595426847842731, (-16)); (4374369308584904, (-15)); ((-9604868988931986), (-16)); (2798130078903114, (-17)); (27691508420575467, (-17)); ((-2519662098345688), (-16)); ((-51004997374360395), (-17)); ((-8224123378122139), (-16)); (11822836443141919, (-17)); ((-85968952017010336), (-17)); (49694665986760478, (-17))];
  [(29350438451400784, (-17)); (62484247455237518, (-17)); (15087614459749255, (-16)); (81105527715293324, (-17)); ((-55995382750468603), (-17)); ((-169236664069081), (-15)); ((-13419673595483408), (-17)); (1034869180571292, (-16)); ((-98553624684742336), (-17)); (56936857435359678, (-17)); (82203538175305402, (-17)); (87896350699828152, (-19))];
  [(1786716190955995, (-15)); (53930700749712415, (-16)); (35435305680802003, (-16)); (62932247870157321, (-17)); ((-16650006971432496), (-17)); (75909877129793391, (-17)); ((-4501921540383706), (-16)); ((-87429957824899651), (-17)); (18145873336910237, (-17)); (6334668438388863, (-16)); ((-45593637084438865), (-17)); ((-62517340274362931), (-17))];
  [(4776057217564591, (-15)); (20026817091877676, (-16)); (53300533750411203, (-16)); ((-41858380851589583), (-17)); ((-57783046242818742), (-18)); (90633807975568814, (-17)); ((-70541293729671228), (-17)); (64923892774851821, (-17)); ((-28439655868237762), (-17)); ((-57199666357659151), (-17)); ((-75838640168640592), (-17)); ((-3125218113898498), (-16))];
  [(17551467436941157, (-16)); (44319387205109395, (-16)); (59056532583393917, (-16)); ((-27678834523647711), (-17)); ((-17614631921693888), (-17)); (94464844580805674, (-17)); ((-18448173553073774), (-17)); (97450981827559069, (-17)); (12766010864809113, (-17)); ((-94305604350792416), (-17)); ((-13893555452367035), (-17)); ((-30222873869369299), (-17))];
  [(4043180559623182, (-15)); (49388890507490437, (-16)); (24882873983776146, (-16)); (22456837031654858, (-17)); ((-60452017213862308), (-17)); ((-76428032064868645), (-17)); ((-94457741978043375), (-17)); ((-32777926162445459), (-17)); ((-18282606210973329), (-18)); ((-23946303492252757), (-17)); (7260276283492364, (-16)); ((-64462495901048955), (-17))];
  [(25871923161677217, (-16)); (31372842671992158, (-16)); (60550272171299979, (-17)); ((-99999071891771119), (-17)); (36630488985280167, (-19)); ((-22680721342400803), (-19)); ((-43027487275295656), (-19)); ((-87598878866751262), (-17)); (48231227278829591, (-17)); ((-22007232189979624), (-20)); (48231755535289278, (-17)); (875996419722468, (-15))];
  [(47011806073904712, (-16)); (24189974079065362, (-16)); (36867991896056473, (-16)); ((-75009193402113383), (-17)); (74123181227509763, (-19)); (66129202933082609, (-17)); ((-3366048558874391), (-16)); ((-86500396101868715), (-17)); ((-37210928289277867), (-17)); (56926203238002038, (-17)); ((-50171027990467643), (-17)); (65132751632994901, (-17))];
  [(76432570258497234, (-17)); (57891310145773653, (-16)); (36882080237682464, (-16)); (88041755721055581, (-17)); (34230033184995001, (-17)); (32816978497541766, (-17)); (12184107111477722, (-17)); ((-83210949472576357), (-17)); (54106241985268055, (-17)); (45827903982726675, (-17)); ((-43637629587621818), (-17)); ((-77431004775370815), (-17))];
  [(59539104512445293, (-16)); (20090868120585936, (-16)); (60024717323400045, (-16)); ((-42439215712713163), (-17)); ((-85683353545352536), (-17)); (29279274152750512, (-17)); (74217965116468854, (-17)); ((-14392961926401271), (-17)); (65456369445270757, (-17)); ((-5187105766861142), (-16)); (49509651303632585, (-17)); (69700701604304538, (-17))];
  [(52406261529307567, (-16)); (32632806516621371, (-16)); (34774705607047931, (-16)); ((-99260514755159079), (-17)); (61180904331854934, (-18)); ((-10484234831031329), (-17)); (9231803976268077, (-17)); ((-18033310098238842), (-17)); ((-97926367859961583), (-17)); ((-78818783221137903), (-18)); ((-98170100826840967), (-17)); (17335146315023464, (-17))];
  [(51438154678921215, (-16)); (21655317504195547, (-18)); (36364554767740116, (-16)); (99976553277494906, (-17)); ((-90548315342421845), (-19)); (19669506885244149, (-18)); ((-17309822306591834), (-18)); ((-87995548693495307), (-17)); (47474067770182071, (-17)); (13009593649933473, (-18)); ((-47496984224154309), (-17)); ((-87990590373863697), (-17))];
  [(31675730986485302, (-16)); (30841596270269696, (-16)); (32963378049479628, (-16)); ((-99835117703210896), (-17)); (57382086031205974, (-18)); (14911476486198457, (-19)); (56466590379622497, (-18)); (97709084376148114, (-17)); (20519504674425462, (-17)); (10317533111293235, (-18)); (20494091646175536, (-17)); ((-97871996468362343), (-17))];
  [(33943929553082146, (-16)); (32448285673814534, (-16)); (53536360771536255, (-16)); ((-99467590410356677), (-17)); ((-99777192297926795), (-18)); ((-2577513710719239), (-17)); (80341160017386878, (-18)); ((-90745292651578713), (-17)); (41240087798766156, (-17)); ((-64537925306076147), (-18)); (40813441175068293, (-17)); (91063777548601144, (-17))];
  [(59374938498401502, (-16)); (85323181567198936, (-17)); (21290636729251222, (-16)); (65755170368646332, (-17)); ((-70883875949449882), (-17)); (25529075583994343, (-17)); ((-15895319298703103), (-17)); ((-46174233687536537), (-17)); ((-87265565761994812), (-17)); (73645070399739399, (-17)); (53323693361879643, (-17)); ((-4162916444111821), (-16))];
  [(13647368663814765, (-16)); (46617786837959354, (-16)); (38853819084806612, (-17)); ((-50588693802108432), (-18)); (20434234077368132, (-17)); (97759142376891239, (-17)); (18123534796647703, (-17)); (96447122239582272, (-17)); ((-19222125225317183), (-17)); ((-98213773611793709), (-17)); (16744989978330899, (-17)); ((-85825394585130069), (-18))];
  [(19874951066080293, (-17)); (37966826728347569, (-16)); (53422360340546629, (-16)); ((-7929930888333685), (-16)); (59723746573920922, (-17)); (12028869680863707, (-17)); ((-44899292231470872), (-17)); ((-70637227523035762), (-17)); (54721436795572698, (-17)); (41178552278317315, (-17)); (37992843839767337, (-17)); (82830372745925396, (-17))];
  [(46525732787224605, (-16)); (54714450335698332, (-16)); (38207151075758077, (-16)); (68823693164178767, (-17)); ((-43369580777984799), (-18)); ((-72418851508943383), (-17)); (42112343586987594, (-17)); ((-7889425693407498), (-16)); (44746471821046019, (-17)); ((-59074950502344703), (-17)); ((-61293450037109021), (-17)); ((-52471546629520494), (-17))];
  [(25745578964726645, (-16)); (41833679656013434, (-16)); (6245757503735919, (-15)); ((-50468842371830869), (-17)); ((-72819263692223812), (-17)); (46370796682499033, (-17)); (71033113674474058, (-17)); ((-45008463548260658), (-18)); (7024271594834226, (-16)); ((-49063150238815034), (-17)); (68389306308900544, (-17)); (53997315407627822, (-17))];
  [(41364098910545338, (-17)); (25403420297883961, (-16)); (14757717518232976, (-16)); ((-82462881434016644), (-17)); ((-5179671841964536), (-16)); ((-22737043487561992), (-17)); ((-17719909495019381), (-17)); (61824763447394837, (-17)); ((-76574822442902168), (-17)); (53720368512209926, (-17)); ((-59116821511560014), (-17)); ((-60160813003837654), (-17))];
  [(15220333056855346, (-16)); (17242423300807554, (-16)); (55655225678539262, (-16)); ((-15284454683008744), (-17)); ((-48170971790913612), (-18)); ((-9870755300284898), (-16)); (68541559533488672, (-17)); (71437071164495847, (-17)); ((-14099626950951014), (-17)); (71192977615494346, (-17)); ((-69810747297289011), (-17)); ((-76170532382131659), (-18))];
  [(22379420685207632, (-16)); (1455978289411781, (-15)); (54748604945998436, (-17)); (11456592578045421, (-17)); (61467218777103838, (-17)); ((-78041831746239321), (-17)); ((-93106994614529026), (-17)); (3403598837036178, (-16)); (13139217994335112, (-17)); (34638620647345875, (-17)); (71157097407498648, (-17)); (61129644594002119, (-17))];
  [(37427374296086717, (-16)); (41923114719805001, (-16)); (46198114362196714, (-16)); ((-49694739963089463), (-17)); ((-71564889529813169), (-17)); ((-4908053999892989), (-16)); (42254523322083842, (-17)); ((-69356347194153489), (-17)); (5834597126372576, (-16)); ((-75795699606405065), (-17)); (82561304779948996, (-18)); (64705859322830517, (-17))];
  [(20107274649094129, (-16)); (57804140573940073, (-16)); (74194968340419976, (-17)); (87625058583163673, (-17)); ((-20521133548230527), (-17)); (43597387378062247, (-17)); (44587111079538144, (-17)); (68838620424078356, (-17)); ((-57212182825780999), (-17)); ((-18271251568462987), (-17)); (69571024255830471, (-17)); (69469662084370243, (-17))];
  [(50504351211399623, (-16)); (46352359464063912, (-16)); (53178159495112292, (-16)); ((-77076513351841708), (-18)); (3306578645618099, (-16)); ((-94059799473151506), (-17)); (58523357689320632, (-17)); (77878615170294208, (-17)); (22581804709213527, (-17)); (80719320584746446, (-17)); ((-5330642611535179), (-16)); ((-25353820602533861), (-17))];
  [(46561457140878542, (-16)); (32527023954186446, (-17)); (50681918805123773, (-16)); (94756440195267622, (-17)); (17963897530178251, (-18)); (3190595595458508, (-16)); ((-30533353562768545), (-17)); (34552676150636891, (-17)); (88734586780128621, (-17)); ((-9430342609451689), (-17)); ((-93823693994025092), (-17)); (33289383947197021, (-17))];
  [(48311312688083028, (-16)); (8497686707203187, (-16)); (34578309480843266, (-16)); (66015692137947524, (-17)); ((-88981177119681981), (-18)); (74583858124474178, (-17)); ((-31651980393428392), (-17)); ((-93344716108561632), (-17)); (16879458278809176, (-17)); (68118136562311793, (-17)); ((-3475035936211297), (-16)); ((-64438590886845504), (-17))];
  [(1914060533428779, (-15)); (37556336749841575, (-16)); (25709694778951775, (-16)); ((-81732636212650533), (-17)); ((-19391898459649501), (-17)); (54256155889089397, (-17)); (12987286646833582, (-17)); ((-97943233609816793), (-17)); ((-15441935617202748), (-17)); (56134717985249594, (-17)); ((-55746985733311133), (-18)); (82570068260435603, (-17))];
  [(14128105390135646, (-16)); (61834340320452537, (-16)); (38444106233592952, (-16)); (99502896555341636, (-17)); (15667794769659307, (-18)); (98345706142942246, (-18)); ((-51612856455505139), (-18)); ((-76342910422739962), (-17)); (6438261534506452, (-16)); (85167310384921355, (-18)); ((-64570157427840158), (-17)); ((-75882541221033994), (-17))];
  [(10665446392313283, (-17)); (61796838506981562, (-16)); (13105519593419757, (-16)); (99464850416097406, (-17)); (10272969503498536, (-17)); (10998314796166348, (-18)); ((-15806096020786538), (-18)); (25650264255105926, (-17)); ((-9664142805716941), (-16)); ((-10210054112941), (-14)); (96106867815070451, (-17)); (2567537251506572, (-16))];
  [(49665284703408412, (-16)); (62668952160546745, (-16)); (4352188795080453, (-15)); (99986731939969842, (-17)); (4095353540557828, (-18)); ((-15766156026096517), (-18)); (16197837994989535, (-18)); ((-35242840886856591), (-17)); (93569858750917179, (-17)); ((-17244247590001028), (-19)); ((-93582981609999416), (-17)); ((-35244798432889607), (-17))];
  [(47894456863142345, (-16)); (230253388899259, (-15)); (15329387796876806, (-16)); (97360859677466849, (-17)); ((-17568809024207394), (-18)); (22754700005917869, (-17)); (22804891320397849, (-17)); (35818442893313103, (-18)); ((-97299061266549891), (-17)); (89439070291022892, (-19)); (99920387113850262, (-17)); (38879691728270924, (-18))];
  [(16271160795735331, (-16)); (51880793885236409, (-16)); (46763658194667643, (-16)); (45795231306485262, (-17)); ((-50040487504005339), (-18)); (88756725298363315, (-17)); ((-8887936580837843), (-16)); ((-55097993093452258), (-19)); (45827445429743946, (-17)); ((-18041959666189225), (-18)); ((-9987319919387444), (-16)); ((-46998893279218572), (-18))];
  [(29676180888029253, (-16)); (12557374305832287, (-16)); (17999840552099644, (-16)); (30987246899501597, (-17)); (9364257139006511, (-16)); ((-16457805231739955), (-17)); (52468800529509356, (-18)); ((-18967670605629464), (-17)); ((-98044366087533474), (-17)); ((-94932927792727817), (-17)); (29517728490737533, (-17)); ((-10790872320986258), (-17))];
  [(38811859207850712, (-16)); (47233632417846518, (-16)); (53527776853378315, (-16)); (1097404112149963, (-17)); ((-73869826807397609), (-17)); ((-67394691123705863), (-17)); (98179098771838247, (-17)); ((-11986762683227095), (-17)); (1473709892501309, (-16)); ((-18964711138434562), (-17)); ((-66329225894933186), (-17)); (72393186997221359, (-17))];
  [(50940598414725757, (-16)); (40115149796964396, (-16)); (43552329573457387, (-16)); ((-64488591369908854), (-17)); (28467218124992338, (-17)); ((-70928408098229767), (-17)); (76404920291921385, (-17)); (26287808648253769, (-17)); ((-58917223896394966), (-17)); (1873429558338309, (-17)); ((-921876814368216), (-15)); ((-38702992817003729), (-17))];
  [(48728045474835486, (-16)); (52983899663240388, (-16)); (37623786000179011, (-16)); (55303363962193086, (-17)); (13307918529747764, (-17)); ((-82246198932660708), (-17)); (58665476261549643, (-17)); ((-76315119718588709), (-17)); (27099158609503537, (-17)); ((-59159951229448793), (-17)); ((-63236870627372688), (-17)); ((-50011982202130045), (-17))];
  [(47830524973264028, (-16)); (55844723065190509, (-16)); (51262877985092841, (-16)); (76567066136384332, (-17)); (45415274418342727, (-18)); ((-64162753305649334), (-17)); (56918313957352473, (-17)); (41682208423430911, (-17)); (70872413795481248, (-17)); (29963142684284683, (-17)); ((-90785285313429132), (-17)); (29329883242871357, (-17))];
  [(24259437913987552, (-16)); (45290771824439719, (-16)); (13154321424400188, (-16)); ((-18228687718764691), (-17)); ((-74202351334682171), (-17)); (64511440849326473, (-17)); (81162773736217719, (-17)); ((-48390360694217271), (-17)); ((-32725787252976496), (-17)); (55500622550519951, (-17)); (46393793208660394, (-17)); (69045614257654142, (-17))];
  [(27122888337670087, (-17)); (57953655460871447, (-16)); (15317141421318756, (-16)); (88335683761144879, (-17)); (45156648217157852, (-17)); (12557232825860146, (-17)); (1078327275084331, (-16)); (64926946587445439, (-18)); ((-99204666950951614), (-17)); ((-4561280525501501), (-16)); (88987201539660554, (-17)); (86600167893037261, (-19))];
  [(26552413456400656, (-16)); (19897295926157164, (-16)); (1335828821861208, (-15)); ((-40678619806330041), (-17)); (80759501170182235, (-17)); ((-42698394131341605), (-17)); ((-60326854885226289), (-17)); ((-58847205460616758), (-17)); ((-53830075135864386), (-17)); ((-68599711882112901), (-17)); (38612666599563528, (-18)); (72657898052942649, (-17))];
  [(2817030268724694, (-16)); (56528239765467632, (-16)); (20453190229045566, (-16)); (80781457952060731, (-17)); (56620309676755742, (-17)); (16385865349371259, (-17)); (40446014331889546, (-17)); ((-33023800635190065), (-17)); ((-85285101373404049), (-17)); ((-42877453000429383), (-17)); (75521977752939584, (-17)); ((-49577766190909278), (-17))];
  [(28952168006933072, (-16)); (42803450578883737, (-16)); (58463080180194673, (-16)); ((-41872778591635873), (-17)); ((-88068926195325659), (-17)); (22148016882288182, (-17)); (7042616372651932, (-16)); ((-16095399073360955), (-17)); (69145452427724741, (-17)); ((-57330845761957283), (-17)); (44551120832943508, (-17)); (68763156971936146, (-17))];
  [(50325507530808755, (-16)); (22722407618720548, (-16)); (3094793928880144, (-15)); ((-6453217796919124), (-16)); ((-24041811485677733), (-17)); (72509236011971356, (-17)); ((-20623387783180741), (-17)); ((-85910980592966779), (-17)); ((-46839932641918225), (-17)); (73554563984141597, (-17)); ((-45180689614502556), (-17)); (50481990878538063, (-17))];
  [(38976623600308375, (-16)); (25207242638094853, (-16)); (46804884606727235, (-16)); ((-81337358485735656), (-17)); (42323923675804348, (-17)); (39911396859138032, (-17)); ((-38541164624152302), (-17)); ((-9059478573659312), (-16)); (17526078476224338, (-17)); (43575368546656218, (-17)); ((-11270678885812069), (-18)); (89999538743249197, (-17))];
  [(54021592729290226, (-16)); (92985599650747552, (-17)); (36614585116532163, (-16)); (59794941215942043, (-17)); ((-51006407952693922), (-17)); (61829696366272069, (-17)); ((-74982488535838843), (-17)); ((-62854236511865036), (-17)); (20663285447462809, (-17)); (28322983916862154, (-17)); ((-58717044376176608), (-17)); ((-7582952776967079), (-16))];
  [(31380957532093947, (-16)); (60980181569487444, (-16)); (43612977041117427, (-16)); (98290549019360673, (-17)); ((-18410970329760515), (-17)); (64381591575928215, (-20)); ((-63924051440293228), (-18)); ((-33798746906964333), (-17)); (93897720227881765, (-17)); ((-17265721240285423), (-17)); ((-92296700260819975), (-17)); ((-34397877710944752), (-17))];
  [(33557314499706279, (-16)); (22753081549637963, (-16)); (76263837997751294, (-17)); ((-64766195502753154), (-17)); (7445252044385956, (-16)); (1619142117467863, (-16)); ((-42644809841761472), (-17)); ((-17811123790864297), (-17)); ((-88680234905341282), (-17)); ((-63140795953639683), (-17)); ((-64339615081714485), (-17)); (4328572302131104, (-16))];
  [(57530901427830647, (-16)); (48118087861655878, (-16)); (55077395128465785, (-16)); (99256104211312091, (-18)); (85849858557348513, (-17)); ((-50311867819145661), (-17)); ((-26086116767701284), (-17)); (5103813102728828, (-16)); (81942807452656907, (-17)); (96026021315838062, (-17)); (49910887514254654, (-18)); (27460740400171452, (-17))];
  [(97387480628538003, (-17)); (3602347734290368, (-15)); (18288292542116908, (-18)); ((-89571702546900389), (-17)); (24992303772148833, (-17)); (36773561902679941, (-17)); ((-24315636235619881), (-17)); (41708782439076852, (-17)); ((-87573553667227433), (-17)); ((-37224453485667286), (-17)); ((-87382848543695291), (-17)); ((-31282228870126921), (-17))];
  [(25370861056821306, (-16)); (32872572671103986, (-16)); (6617576073478923, (-17)); ((-98940965571917505), (-17)); ((-11942693251503429), (-17)); (82496914849665953, (-18)); (12462084123462205, (-17)); ((-40753357239962412), (-17)); (90464691084266435, (-17)); ((-74418943150509148), (-18)); (90534722353208208, (-17)); (41810073635801154, (-17))];
  [(30830612631490095, (-16)); (40309814278037353, (-16)); (55871392021748116, (-16)); ((-62988687526062137), (-17)); ((-77535683432329472), (-17)); (45434610624161653, (-18)); (56586378916327851, (-17)); ((-41805515253643866), (-17)); (71065326394206596, (-17)); ((-53201569195671961), (-17)); (4733409647451759, (-16)); (70207380994160373, (-17))];
  [(56895658935980906, (-16)); (3062444609313161, (-15)); (24597142438928614, (-16)); ((-99686942832174241), (-17)); ((-65539041447828558), (-18)); (44226427886301253, (-18)); ((-23010053234627719), (-18)); ((-2946709054820591), (-16)); ((-95532172324956732), (-17)); (75643111567557778, (-18)); ((-95334867257917921), (-17)); (29224036025828948, (-17))];
  [(5503483222779459, (-15)); (21748639815472202, (-16)); (37002411342959823, (-17)); ((-56799497324484716), (-17)); ((-58527702112760449), (-17)); (57864714542507067, (-17)); (75492541420845227, (-17)); ((-90448403161645652), (-18)); (64954345916782597, (-17)); ((-32782515057692285), (-17)); (80577285565195478, (-17)); (49321473593528398, (-17))];
  [(55832108967799181, (-16)); (38682806951403803, (-16)); (34947228083990924, (-16)); ((-74737895589848746), (-17)); (50817056863862398, (-17)); ((-42800393625477817), (-17)); (62483318207964433, (-17)); (31861488159173473, (-17)); ((-71278892513878955), (-17)); ((-22584992993647976), (-17)); ((-80015450407891997), (-17)); ((-55564789097944467), (-17))];
  [(19369913537179004, (-17)); (49342507428450375, (-16)); (50589910506653775, (-16)); (22004613305835075, (-17)); (95724674381289809, (-17)); (18777212462362591, (-17)); ((-50178623595842065), (-17)); ((-53996971866999519), (-18)); (86330463941292168, (-17)); (83653468112729601, (-17)); ((-28418831518695198), (-17)); (46845141560513481, (-17))];
  [(37304161287990554, (-16)); (54649166954807749, (-16)); (38911373291200557, (-17)); (68348608144234091, (-17)); ((-60703379766268306), (-17)); ((-40540935481290313), (-17)); (40785581881276639, (-17)); (77818041574770336, (-17)); ((-47758650693596794), (-17)); (60539277129410907, (-17)); (16107516581382825, (-17)); (77945774960730629, (-17))];
  [(47008828187343257, (-16)); (17738252275391386, (-16)); (26364515147868599, (-16)); ((-20163693932376497), (-17)); (11269580255769804, (-18)); (97939549787662539, (-17)); (48382187950705996, (-17)); ((-86827662035897168), (-17)); (10959972375995217, (-17)); (85162135577403186, (-17)); (49595232341310852, (-17)); (1696241707149635, (-16))];
  [(56599275070219646, (-16)); (48922195989833082, (-16)); (13930702723520427, (-16)); (1788629260350115, (-16)); (79888723747285983, (-17)); ((-57427104706155663), (-17)); ((-70646207140360262), (-17)); ((-30196056024080276), (-17)); ((-64010246189746201), (-17)); ((-68477689458561986), (-17)); (5201913127514175, (-16)); (51037398325113692, (-17))];
  [(19249761084281836, (-18)); (37854490113406127, (-16)); (38917459529084795, (-16)); ((-79978680014923409), (-17)); (60017294609483685, (-17)); (11554613056839745, (-18)); (43119977589551589, (-17)); (56100992920041481, (-17)); (70663612461167191, (-17)); (41762163207226954, (-17)); (57014059153369323, (-17)); ((-70748277598179332), (-17))];
  [(56517629852062112, (-17)); (40481025649514892, (-16)); (47136124077292871, (-16)); ((-61649744399836537), (-17)); (66491833815316437, (-17)); (42168057238995071, (-17)); ((-42249373588352107), (-17)); ((-73129798213367536), (-17)); (53544589312684088, (-17)); (66440194512258011, (-17)); (15194362413358753, (-17)); (7317671695303658, (-16))];
  [(33171376041555698, (-16)); (38819315773782598, (-17)); (24411896797603063, (-16)); (92559449021440998, (-17)); (37269940249971878, (-17)); (66105938168058181, (-18)); (32756643497507298, (-17)); ((-70118193865102851), (-17)); ((-6332804430797675), (-16)); ((-18967095286956248), (-17)); (60781497537156648, (-17)); ((-77109395364742306), (-17))];
  [(1590308242823361, (-15)); (4296485777002288, (-15)); (12412668435933696, (-16)); ((-40401630197281674), (-17)); ((-17847427497523168), (-18)); (91457766049249767, (-17)); (87114393044392979, (-17)); (29751044189013259, (-17)); (39063511032297094, (-17)); ((-27906823572544281), (-17)); (95455173055107856, (-17)); ((-10465139039224455), (-17))];
  [(55273995477176188, (-16)); (5179874870185504, (-15)); (56058028383857526, (-16)); (45064335552401136, (-17)); (64965007770039607, (-17)); ((-61227064494872585), (-17)); ((-12247366929082086), (-17)); (72436784058505055, (-17)); (67844781070955884, (-17)); (88426283787825333, (-17)); ((-23075096548014701), (-17)); (4059965830859637, (-16))];
  [(55214095855906251, (-16)); (25222935618650584, (-16)); (41558264933900047, (-16)); ((-8142855090634219), (-16)); ((-42003085450253719), (-17)); (4006409751825098, (-16)); ((-56206461887053838), (-17)); (7429521150798688, (-16)); ((-36346322910614492), (-17)); ((-14499128919780138), (-17)); ((-52114895755841051), (-17)); ((-84105962338739204), (-17))];
  [(28384293196447987, (-16)); (83304803005717576, (-18)); (85369685203131329, (-17)); (99653216107147058, (-17)); (79413918468307282, (-18)); ((-24841125250954735), (-18)); ((-70914059903947099), (-18)); (65438059731909204, (-17)); ((-75283280345654946), (-17)); ((-43529852494167479), (-18)); (75198368559817663, (-17)); (65774287418110322, (-17))];
  [(30354524099915685, (-16)); (33400750029329092, (-16)); (38304681752436167, (-16)); ((-98036695969030285), (-17)); ((-1960720462146682), (-16)); (20889639556130615, (-18)); ((-16463893896544571), (-17)); (87226155849402731, (-17)); (46049298946878964, (-17)); ((-10851103226826421), (-17)); (44801286395232404, (-17)); ((-88741750580508161), (-17))];
  [(49598609243774163, (-16)); (80644381569315837, (-17)); (41979261987698688, (-16)); (69206976635794704, (-17)); ((-17681508483870942), (-17)); (69983988473559922, (-17)); ((-69625555825495411), (-17)); ((-41931108844649445), (-17)); (58258596679365571, (-17)); (19044063666229155, (-17)); ((-89045754355797113), (-17)); ((-41330101261473462), (-17))];
  [(55353401774760584, (-16)); (2272411649600389, (-15)); (57563633493884758, (-16)); ((-645452313260097), (-15)); ((-55998498019269571), (-17)); (5194305856086795, (-16)); (22289237647312063, (-17)); (51236532487025799, (-17)); (82933754429710915, (-17)); ((-730554789059215), (-15)); (65107495407916072, (-17)); ((-20589100114736575), (-17))];
  [(46023401977375428, (-17)); (12599235765742469, (-16)); (61889101261832744, (-16)); (3058896694906813, (-16)); ((-85300304769620672), (-17)); ((-42286795896575646), (-17)); (88902211612516824, (-17)); (41485291986147443, (-17)); ((-19374398551371111), (-17)); (34069221760881158, (-17)); ((-31667468402667109), (-17)); (88523779706776995, (-17))];
  [(1230493919577385, (-15)); (44320311624848663, (-17)); (12807419661019865, (-16)); (90338269058041798, (-17)); ((-14313328974796272), (-17)); ((-40424321358015464), (-17)); ((-34642056071783373), (-17)); (31205494352429453, (-17)); ((-88465502165193799), (-17)); (25276967672493156, (-17)); (93922019441022198, (-17)); (23232071999802023, (-17))];
  [(15056305675247066, (-16)); (45368030421714058, (-16)); (33957332357569832, (-16)); ((-17468509658164505), (-17)); (64118390477968856, (-18)); (98253445183096566, (-17)); ((-18496372062010547), (-17)); ((-98224948126654554), (-17)); (31215038138208306, (-18)); (96709541364160589, (-17)); ((-17628042589611856), (-17)); (1834439215652951, (-16))];
  [(17266730647550084, (-16)); (31315499786779903, (-16)); (39503734491261384, (-16)); ((-99994957276413132), (-17)); (15590615844431545, (-19)); ((-99207487523462947), (-19)); (82534724250162787, (-19)); ((-43520792014151166), (-17)); ((-90029214505016597), (-17)); ((-5721199328878766), (-18)); ((-90032862643207978), (-17)); (43517310613727467, (-17))];
  [(34887805077136963, (-17)); (55272589988445207, (-16)); (18852944698757705, (-16)); (72763644222213164, (-17)); (64463839797809808, (-17)); (23449209752686717, (-17)); (42240263926739702, (-17)); ((-15172684840977868), (-17)); ((-89361903169727386), (-17)); ((-54048239406131982), (-17)); (74927985380888718, (-17)); ((-3826989448455233), (-16))];
  [(39944010969791348, (-16)); (36894799284497832, (-16)); (31916742224264643, (-16)); ((-85362691302018212), (-17)); ((-34267487980660344), (-17)); ((-39229455784800815), (-17)); ((-32260671223610737), (-17)); ((-24348974199582135), (-17)); (91467899000852626, (-17)); ((-40895721363957355), (-17)); (90735146018085966, (-17)); (97300180471662001, (-18))];
  [(21619344222273851, (-16)); (29698099306201615, (-16)); (43208688178418733, (-16)); ((-98528159566593432), (-17)); (95265448439840181, (-18)); ((-14193192585019951), (-17)); (16754466548565733, (-17)); (70284542117203597, (-17)); ((-69132994944874393), (-17)); (33896346547815051, (-18)); ((-70493461276281477), (-17)); ((-70846187577007347), (-17))];
  [(10406556878449774, (-18)); (16890671836042936, (-16)); (30514050930446857, (-16)); ((-11799532088625049), (-17)); ((-99296038162538136), (-17)); ((-10333671725363624), (-18)); ((-98985555521039137), (-17)); (1184429806683592, (-16)); ((-7846808363610315), (-17)); (79139649153117747, (-18)); (96997565510060363, (-20)); ((-99686306736640107), (-17))];
  [(40726648348193208, (-16)); (30358835891454641, (-16)); (90582150639760317, (-17)); ((-99441799771610839), (-17)); (62988117380818942, (-18)); (84648348401525367, (-18)); (27746376368118834, (-18)); (93013342370763175, (-17)); ((-36617202610297472), (-17)); ((-10179874467165372), (-17)); ((-36177936808328237), (-17)); ((-92668910882373945), (-17))];
  [(18292035532507296, (-16)); (5416362359287203, (-15)); (31317905998081565, (-16)); (64725160168794182, (-17)); ((-19479287197324296), (-17)); (7369675034496499, (-16)); ((-18755983474609964), (-17)); ((-97777239834787899), (-17)); ((-93714702256649768), (-18)); (73884143935110314, (-17)); ((-7756851202293677), (-17)); ((-66940006979394451), (-17))];
  [(13938941086427616, (-16)); (15080340232119085, (-16)); (15283451616333901, (-16)); (62721107128727693, (-18)); ((-17563449597740549), (-17)); ((-98245538654094078), (-17)); ((-97411662752842076), (-17)); (20342936823583246, (-17)); ((-98556015097131855), (-18)); (2171701146410405, (-16)); (96320767021548004, (-17)); ((-15832916770091515), (-17))];
  [(22895535215670368, (-16)); (54858124007050693, (-16)); (59826622708586941, (-16)); (69858886452004587, (-17)); ((-47113618697721737), (-17)); (538520465432059, (-15)); (29060796368364855, (-17)); (87457610038347999, (-17)); (38815416535401026, (-17)); ((-65385060205847956), (-17)); ((-11466184177220284), (-17)); (74788505281839268, (-17))];
  [(40106676946978265, (-17)); (61154479055616395, (-16)); (71379431894700329, (-17)); (98596503551590331, (-17)); (15370347299826467, (-17)); (65178149163621218, (-18)); ((-73509306074983335), (-18)); (75019391571520444, (-17)); ((-65711906892454675), (-17)); ((-14989773400721557), (-17)); (64310522561409855, (-17)); (75096360639337356, (-17))];
  [(67028278209547953, (-17)); (57340331251532959, (-16)); (50860892618110594, (-16)); (85296735923843481, (-17)); (409035217095787, (-15)); (32424816923031868, (-17)); ((-45119304736940319), (-17)); (26546374103213799, (-17)); (85202924609589159, (-17)); (26243383562209061, (-17)); ((-87305165561530451), (-17)); (410985752244592, (-15))];
  [(34027235770014306, (-16)); (55477759053218652, (-16)); (51602772366343288, (-16)); (74155615161363386, (-17)); ((-64814668335095305), (-17)); ((-17320609361433151), (-17)); (43681005413872953, (-17)); (27049752842539954, (-17)); (85792077939578448, (-17)); ((-50920668751234732), (-17)); ((-71185459468694123), (-17)); (4837060940445066, (-16))];
  [(22765589214725366, (-16)); (39015300898516792, (-16)); (21708541814922993, (-16)); ((-72487911082316581), (-17)); ((-44681498414231768), (-17)); (52431540568451429, (-17)); (18040699652181655, (-17)); ((-85768342047765522), (-17)); ((-48148983981360094), (-17)); (66483350569762478, (-17)); ((-2544317593848105), (-16)); (70232534449367279, (-17))];
  [(22548100097736339, (-16)); (52184121074797609, (-16)); (4860222022982466, (-15)); (48470260166329782, (-17)); ((-55271744091769581), (-17)); (67791357741693303, (-17)); ((-58910668778045827), (-17)); (36660476334020048, (-17)); (72010711557976803, (-17)); ((-64654210872391615), (-17)); ((-7484012145912573), (-16)); ((-14791525832436209), (-17))];
  [(48749313013820528, (-16)); (78883227735264916, (-17)); (34585339350314412, (-16)); (70467433119424527, (-17)); ((-11482163719924882), (-17)); (70017860477654359, (-17)); ((-32732155178040728), (-17)); ((-92814577044327395), (-17)); (17721746682629144, (-17)); (62951941089692331, (-17)); ((-35406414735065406), (-17)); ((-69162409650390655), (-17))];
  [(60541603458734086, (-16)); (13444747642821209, (-16)); (5884087697790072, (-15)); (22439441827566078, (-17)); ((-94905251795550827), (-17)); (22123847587849033, (-17)); (78849800211008048, (-17)); (31023150879912059, (-17)); (53106243664623154, (-17)); ((-57264128886689547), (-17)); (55278649680782777, (-18)); (81794023325321885, (-17))];
  [(72418822487488899, (-17)); (21882468254316305, (-16)); (13374897820997098, (-16)); ((-57895829019958001), (-17)); ((-61073308225511136), (-17)); ((-54019663128193462), (-17)); ((-38436233352051435), (-17)); (78872433726858771, (-17)); ((-479770274580337), (-15)); (7190778085713978, (-16)); ((-70135740100169763), (-18)); ((-69138128639756924), (-17))];
  [(18078685806783958, (-16)); (50072002050223308, (-16)); (58770198101172824, (-16)); (29055922427317032, (-17)); ((-22472531381449889), (-17)); (93009347407706744, (-17)); ((-16102812076787917), (-17)); (94668240144279725, (-17)); (27903830403810853, (-17)); ((-9432100940467818), (-16)); ((-23084835743291215), (-17)); (23888020922376046, (-17))];
  [(50081378640206671, (-16)); (25620689091385294, (-16)); (60488771101311212, (-16)); ((-83672355448310309), (-17)); ((-15960890447228618), (-17)); (52384987447389741, (-17)); (33625321983090262, (-18)); (93980516532198566, (-17)); (34005233267197099, (-17)); ((-54659219816486126), (-17)); (3021444172035484, (-16)); ((-78099021764554322), (-17))];
  [(48288887821711493, (-16)); (35754206230792538, (-16)); (37398039745840039, (-16)); ((-90736332517067353), (-17)); (48859671812727865, (-18)); ((-41749793844469585), (-17)); (27549526537566893, (-17)); ((-68103886728316776), (-17)); ((-67844559104267854), (-17)); ((-31748095201257087), (-17)); ((-73061535278148393), (-17)); (60448908293630854, (-17))];
  [(62633228203989946, (-16)); (41852869248294571, (-16)); (30177575348350141, (-16)); ((-50303085499391353), (-17)); (8640979737516874, (-16)); ((-17165391994372795), (-18)); (85536065653585447, (-17)); (49490384938948201, (-17)); ((-15306314745889979), (-17)); ((-12376633700099655), (-17)); ((-91678086900311845), (-18)); ((-98806731663771508), (-17))];
  [(55709709882636087, (-16)); (20143489108049444, (-16)); (59208572937043487, (-16)); ((-42915097673992653), (-17)); ((-68367192353498774), (-17)); (59027293698181427, (-17)); (43006051276159935, (-17)); (42001629114188688, (-17)); (79914596322489417, (-17)); ((-79427790761571426), (-17)); (59680735262342699, (-17)); (11376989640594368, (-17))];
  [(21924651285854431, (-16)); (13764909946704221, (-17)); (34134175103014477, (-16)); (99054131156444114, (-17)); (79912896195094549, (-18)); ((-1115429921864602), (-16)); (10692684650126372, (-17)); ((-95898982651933451), (-17)); (26249792785793935, (-17)); ((-85991625066002025), (-18)); ((-27194198214716458), (-17)); ((-95846387452234183), (-17))];
  [(35008556522148635, (-16)); (5813580893286395, (-15)); (18792691792771263, (-16)); (89174737395308412, (-17)); ((-42364209418181503), (-17)); ((-15910373058173216), (-17)); ((-28021317221492081), (-17)); ((-24085236941642846), (-17)); ((-92923124907836763), (-17)); (35534096184514019, (-17)); (87322248721831386, (-17)); ((-33348956303193689), (-17))];
  [(59150413210898911, (-16)); (55001500742212404, (-16)); (11777702862358759, (-16)); (70877564972534957, (-17)); (65816770396542024, (-17)); ((-253874677377039), (-15)); ((-48658651614576598), (-17)); (19556735645341333, (-17)); ((-85146166760163078), (-17)); ((-51075497125484248), (-17)); (72702729147309919, (-17)); (45886891024752868, (-17))];
  [(55220313791558242, (-16)); (8518717107855206, (-17)); (29765463973725987, (-16)); (99637376665826061, (-17)); ((-61604395123993246), (-18)); (58687440024566002, (-18)); ((-51125011401092359), (-18)); ((-98483313348325618), (-17)); ((-16580088179134955), (-17)); (68011398489284794, (-18)); (16219925306535116, (-17)); ((-98441142414164107), (-17))];
  [(58664313146448173, (-16)); (15054415370651646, (-16)); (39280245006771439, (-16)); (653082752395482, (-16)); ((-91245558472125499), (-17)); (40393023543209544, (-17)); ((-93045314909799515), (-17)); (90574279266675328, (-18)); (35503976857381248, (-17)); ((-36054370958159759), (-17)); ((-39902519450069185), (-17)); ((-84308192225597245), (-17))];
  [(17997673308486761, (-16)); (17147870973443315, (-16)); (18460580438168472, (-16)); ((-14349371779238965), (-17)); (22462658648589526, (-17)); ((-96382179348560737), (-17)); ((-86648461191891524), (-17)); ((-49904230519570264), (-17)); (12696256640684481, (-18)); ((-47813593282856809), (-17)); (83695858575478743, (-17)); (26624491632611735, (-17))];
  [(4255375313887912, (-15)); (18304606967400856, (-16)); (58270828871957905, (-16)); ((-25675618789716959), (-17)); (42647716853237788, (-17)); (86729088816677824, (-17)); ((-76488124382958989), (-17)); (45888317090174091, (-17)); ((-45208729057656882), (-17)); ((-59079010047072777), (-17)); ((-77945074262827496), (-17)); (20838329348107049, (-17))];
  [(50002475601235465, (-16)); (22590043334815837, (-16)); (54758498155123441, (-16)); ((-63515409322329752), (-17)); ((-21927989471122422), (-17)); (74060489171833399, (-17)); ((-38343231342594253), (-17)); (9218765597204962, (-16)); ((-55886220651714141), (-18)); ((-67049156510915231), (-17)); ((-31946820876784709), (-17)); ((-66961266767000671), (-17))];
  [(10477414018754796, (-16)); (56976911983121303, (-17)); (26982516559226505, (-17)); (84202554306061617, (-17)); ((-26946471924700716), (-17)); ((-4673133316251592), (-16)); (13514640423056423, (-17)); (94404732932191326, (-17)); ((-30084894785209404), (-17)); (52223407994597915, (-17)); (19016678227622899, (-17)); (83132915302043986, (-17))];
  [(56414621548268409, (-16)); (15803825846964885, (-16)); (36354421999265343, (-16)); ((-95861110785963894), (-19)); ((-80102870163844719), (-17)); (5985491839655388, (-16)); ((-98904116028188682), (-17)); ((-80596165545828255), (-18)); ((-12370061183182743), (-17)); (14732850960573723, (-17)); ((-59317558720056329), (-17)); ((-79147775269215193), (-17))];
  [(33715134210045403, (-16)); (44654634621489757, (-16)); (11182493425112339, (-16)); ((-24442389109137833), (-17)); ((-94415112585102656), (-17)); ((-22098781192180955), (-17)); (21409483548303415, (-17)); (1697293936120591, (-16)); ((-96195391488551851), (-17)); (94573799906910927, (-17)); ((-2824368681640585), (-16)); (16065196114095737, (-17))];
  [(51552125013029855, (-16)); (25254192474697041, (-16)); (47775146272895839, (-16)); ((-81609587809486284), (-17)); ((-24763281228661191), (-17)); (52217382932850864, (-17)); ((-5049510104137076), (-16)); (74501238855514762, (-17)); ((-43586811994172014), (-17)); ((-28109072350177372), (-17)); ((-61938237880842029), (-17)); ((-73304397820517686), (-17))];
  [(47251230774949198, (-16)); (2814761586466044, (-15)); (37700571236922156, (-16)); ((-94706446227696472), (-17)); ((-40880881301304881), (-19)); (32101743227975016, (-17)); ((-19203419417664153), (-17)); ((-7941008517587036), (-16)); ((-57665128587650727), (-17)); (25727761767975782, (-17)); ((-60777226390445105), (-17)); (75127964345474363, (-17))];
  [(35707379933715013, (-16)); (79313570665542465, (-17)); (59352698901067613, (-17)); (70161439948684079, (-17)); (64794338740579016, (-17)); (29649047396135669, (-17)); ((-3713040806379862), (-16)); (6875874881903169, (-16)); ((-62398455572691125), (-17)); ((-60816980699003775), (-17)); (3277084265032576, (-16)); (72300530638748395, (-17))];
  [(24329006147087546, (-16)); (42113873387269187, (-16)); (11235658326941749, (-16)); ((-48030432120889271), (-17)); ((-66590787368244719), (-17)); (57085415194757638, (-17)); (80269489679085737, (-17)); ((-59605656748447955), (-17)); ((-19936675363128487), (-18)); (35353735544349402, (-17)); (44864604325274282, (-17)); (82080939698548683, (-17))];
  [(61493672233483627, (-16)); (22586588663688106, (-17)); (18395986745249744, (-16)); (97460055684488045, (-17)); ((-22194815938709864), (-17)); (29879242666574105, (-18)); ((-3013805380990766), (-17)); ((-2621894193634503), (-16)); ((-96454569932502832), (-17)); (22191316389570059, (-17)); (9391462734412227, (-16)); ((-26221903968107296), (-17))];
  [(42561177911941739, (-16)); (4873706813551907, (-15)); (47807565347167476, (-16)); (16061906875259824, (-17)); ((-43488322585136896), (-17)); ((-88604632758459934), (-17)); (91368513572854226, (-17)); ((-27404293136471741), (-17)); (30013321128750153, (-17)); ((-37333763204606552), (-17)); ((-85777447597963641), (-17)); (35332981880404124, (-17))];
  [(42777605073332409, (-17)); (59543220060370405, (-16)); (43895296013734111, (-16)); (94641007160604818, (-17)); (29386505071427027, (-17)); (13398249262994807, (-17)); ((-3382254025941555), (-17)); ((-32238595342440396), (-17)); (94600387568182742, (-17)); (32119155053182041, (-17)); ((-89983922397467053), (-17)); ((-29517005075655567), (-17))];
  [(63918500545718471, (-17)); (43610139323083574, (-16)); (52930543655213729, (-16)); ((-34418916552196815), (-17)); (75354468990923962, (-17)); (56009304463354936, (-17)); ((-88167240867294305), (-17)); ((-46448546677072811), (-17)); (83108452901192426, (-18)); (32278101264191811, (-17)); ((-46521355469114045), (-17)); (82425042699988393, (-17))];
  [(28951725462228839, (-16)); (32533300172535657, (-16)); (24387062553269363, (-16)); ((-99376387312738235), (-17)); ((-1081366423592473), (-16)); (27199835406341816, (-18)); ((-64923455698734991), (-18)); (36281611558159899, (-17)); ((-9295963700307861), (-16)); (90654891577885838, (-18)); ((-9255651964359658), (-16)); ((-36757415276302241), (-17))];
  [(13052335057940045, (-16)); (37961902149692044, (-16)); (47988369767691559, (-16)); ((-79329301308087796), (-17)); (15979153053712555, (-17)); (58749711672966098, (-17)); ((-59909968391544544), (-17)); ((-37678406778307305), (-17)); ((-70647953614896297), (-17)); (10847010707782724, (-17)); ((-91241461684556735), (-17)); (39463122384966093, (-17))];
  [(60474253627837156, (-16)); (21457418845413807, (-16)); (32005430552543985, (-16)); ((-54378910235763622), (-17)); ((-81600660777609646), (-17)); (19602711093831926, (-17)); ((-82613833073809706), (-17)); (47941842553269781, (-17)); ((-29606322254717765), (-17)); (14761053703020943, (-17)); ((-32294146424003367), (-17)); ((-93483685209353851), (-17))];
  [(12643176413439117, (-16)); (11284524079940901, (-16)); (22613888044983037, (-16)); (42805895751201178, (-17)); ((-27266458949762379), (-17)); ((-86163771419769108), (-17)); ((-83789529590869849), (-17)); ((-47701156224605246), (-17)); ((-26531385673887276), (-17)); ((-33866945830382211), (-17)); (83553216043290213, (-17)); ((-43265344895715663), (-17))];
  [(58980703514718358, (-17)); (40337895065158342, (-16)); (11460127622866187, (-16)); ((-62770339678269538), (-17)); (64693149070673817, (-17)); (43297585613914269, (-17)); (12788067620873786, (-17)); (63433898530312582, (-17)); ((-76240447557513502), (-17)); ((-767876929149367), (-15)); ((-42319463377571093), (-17)); ((-48090677227876488), (-17))];
  [(11603136869460266, (-17)); (21047398314084753, (-16)); (17586681744002969, (-17)); ((-50893188522206456), (-17)); ((-85501865128513876), (-17)); ((-99656621249456651), (-18)); (82439411458485623, (-17)); ((-45081084666573518), (-17)); ((-34226294623633136), (-17)); (24771491687455191, (-17)); ((-25634485850717842), (-17)); (9343043580518976, (-16))];
  [(2320727242631796, (-16)); (19113011458773874, (-16)); (53850820392992222, (-16)); ((-33396297017255733), (-17)); ((-91731712657252029), (-17)); ((-21679027618935845), (-17)); (74113710777663111, (-17)); ((-39765608597612445), (-17)); (54091166077525021, (-17)); ((-58239550309906563), (-17)); (19973146544395137, (-18)); (81266016968170796, (-17))];
  [(59100648262745521, (-16)); (13646787807695262, (-16)); (23225559946832806, (-16)); (204661178270447, (-15)); ((-91148368837147431), (-17)); (35680707383919052, (-17)); ((-36183182541191905), (-17)); ((-40915214873961536), (-17)); ((-83765879049935021), (-17)); (90950070490793511, (-17)); (4233208020507484, (-17)); ((-41354136764957417), (-17))];
  [(1638434808360262, (-15)); (32086034459758923, (-16)); (15289011256566141, (-16)); ((-99775561689730963), (-17)); ((-45256642081972749), (-19)); (66807539345074482, (-18)); (66938465512138265, (-18)); ((-9309446325924027), (-17)); (99340458160074641, (-17)); (17235964577905962, (-19)); (99564699531206768, (-17)); (93188464636467128, (-18))];
  [(35413975744535614, (-18)); (5463782933374258, (-15)); (39456964471880664, (-16)); (68265803733151353, (-17)); (73027980640377588, (-17)); (2587292843010915, (-17)); (48800278482474713, (-17)); ((-48196195761303512), (-17)); (7277128234524266, (-16)); (54390374706374056, (-17)); ((-48415294667354319), (-17)); ((-68539378327888845), (-17))];
  [(58875273417572451, (-16)); (56624232072411509, (-16)); (50438709175645702, (-16)); (8134354134965297, (-16)); (53671841020730371, (-17)); ((-22417889332913193), (-17)); (3730270575607831, (-17)); (33648504550278002, (-17)); (94094969169253007, (-17)); (5804578677328831, (-16)); ((-77376428083592519), (-17)); (25368780319411932, (-17))];
  [(30310885147568811, (-16)); (19465574160228112, (-16)); (6005310448920322, (-15)); ((-36698062226228206), (-17)); (92455477630273353, (-17)); ((-10258503058336819), (-17)); ((-86094900397261531), (-17)); ((-29581622585932876), (-17)); (41383520038404686, (-17)); (35226699454043348, (-17)); (24018997925422481, (-17)); (9045533364170989, (-16))];
  [(27767620241999542, (-16)); (2493683660017938, (-15)); (96485151755232801, (-17)); ((-79734750593042103), (-17)); (56379928789603884, (-17)); ((-21533071716421867), (-17)); ((-49809981798321851), (-17)); ((-81622404319067432), (-17)); ((-29270272059301511), (-17)); ((-34078369402250125), (-17)); ((-12612959321819622), (-17)); (93164252779861356, (-17))];
  [(53737118486182778, (-17)); (60756569693103541, (-16)); (2377455518266598, (-15)); (97854316919026552, (-17)); (1770017982070384, (-16)); (1054686183779147, (-16)); (20076694084562671, (-17)); ((-70401890941892498), (-17)); ((-68121216272470941), (-17)); ((-4632387607443892), (-17)); (68777012047054087, (-17)); ((-72444900434287152), (-17))];
  [(45567140153012584, (-16)); (61348882574977424, (-16)); (16914176386152449, (-16)); (98902412979089349, (-17)); ((-22908818916318869), (-18)); ((-1459673138316421), (-16)); ((-14766332081833392), (-17)); ((-11862829825142046), (-17)); ((-98189758658368942), (-17)); (51782599652375359, (-19)); (99267442440602416, (-17)); ((-12070904172389521), (-17))];
  [(42582134247672601, (-16)); (10169961747904499, (-16)); (3853840449581726, (-15)); (52592316980528264, (-17)); (37314679361518382, (-17)); (76430771936221564, (-17)); ((-21707033758049871), (-17)); ((-80997680268475125), (-17)); (54481010237997252, (-17)); (8223656656285282, (-16)); ((-45243679064295289), (-17)); ((-34498646707958369), (-17))];
  [(95455161683606027, (-17)); (48130351262548023, (-16)); (33347434271308214, (-16)); (10047631359378152, (-17)); (57504985150992627, (-17)); (81192498340980734, (-17)); (40850575778998877, (-17)); ((-76794112836874806), (-17)); (49334518261777033, (-17)); (90720866191799066, (-17)); (28210652533776287, (-17)); ((-31207106899362369), (-17))];
  [(47518337403585248, (-17)); (51597775857348465, (-16)); (43781641248516472, (-16)); (43261263094099228, (-17)); (80169281722241859, (-17)); (41247416690538863, (-17)); ((-12666493493382999), (-17)); ((-39891896092561036), (-17)); (90819582517882125, (-17)); (89263783574780275, (-17)); ((-44514299885319208), (-17)); ((-71031012687878647), (-18))];
  [(47547610104737421, (-16)); (39884751107753065, (-16)); (13367077121302682, (-16)); ((-66232208371011925), (-17)); (31736441304699527, (-18)); ((-74854676254940766), (-17)); ((-73549248380011911), (-17)); (16283176661167043, (-17)); (65767516454223351, (-17)); (1427594609944198, (-16)); (98614330301200936, (-17)); ((-84505160914271224), (-18))];
  [(13338748921522847, (-16)); (56780624315185468, (-16)); (23253081403807556, (-16)); (82243220440721687, (-17)); (13351853670915528, (-17)); (55297203320686283, (-17)); (49435000320615946, (-17)); ((-64871503307890988), (-17)); ((-57860770837200137), (-17)); (28146641626303476, (-17)); (74922733947212228, (-17)); ((-5995290237374411), (-16))];
  [(14516938841811902, (-17)); (77367189145682147, (-17)); (56471118396793187, (-16)); (71534970260655995, (-17)); ((-69141659458209281), (-17)); ((-10108360755932735), (-17)); (61624719274449846, (-17)); (55603991548894183, (-17)); (55772664434969887, (-17)); ((-3294149365393611), (-16)); ((-46126207856223378), (-17)); (82384652361056687, (-17))];
  [(44668889771649907, (-16)); (1158823129233582, (-15)); (16466840713788049, (-16)); (4004182113869395, (-16)); (22270670344560675, (-17)); (88885712025616059, (-17)); (90318339894650368, (-17)); (67817165403788474, (-18)); ((-42386386959026839), (-17)); ((-15467709545089439), (-17)); (97252380758364254, (-17)); ((-1739897693138569), (-16))];
  [(5661221532959767, (-16)); (5591457035097912, (-16)); (29279633085917274, (-16)); (84770859228984963, (-17)); ((-4477033310499553), (-16)); ((-284520420927454), (-15)); ((-49784673770068644), (-17)); ((-85663868398428367), (-17)); ((-13534692779098634), (-17)); ((-18313592853054633), (-17)); (25638231699641195, (-17)); ((-94906761572229703), (-17))];
  [(21648344899970784, (-16)); (89493469584999652, (-17)); (19415864265617997, (-16)); (62556976594812685, (-17)); (43666948292614383, (-17)); ((-64651545272531574), (-17)); ((-44435109149368096), (-17)); ((-48171598251273484), (-17)); ((-75531570861472552), (-17)); ((-64126014644602713), (-17)); (75978251814108277, (-17)); ((-10731239307375023), (-17))];
  [(6022426680473945, (-15)); (16577429449765828, (-16)); (23464616555439184, (-16)); ((-86837110981598895), (-18)); ((-96254489414427291), (-17)); (25683972222606027, (-17)); ((-49059341822576968), (-17)); ((-18306752564710715), (-17)); ((-85194153499345293), (-17)); (86705098705319772, (-17)); ((-1999840188871003), (-16)); ((-456321134772256), (-15))];
  [(26313660788784947, (-16)); (35286187518907619, (-16)); (35137033353603964, (-16)); ((-92603561117733801), (-17)); ((-32936357018070234), (-17)); (18433037044729114, (-17)); ((-37384188251337325), (-17)); (73315663025037769, (-17)); ((-56808767140184291), (-17)); (51964350378612863, (-18)); ((-5949798266813191), (-16)); ((-80205904529030547), (-17))];
  [(43790418812303677, (-16)); (52037263644582685, (-16)); (42985994210985137, (-16)); (47180548485233026, (-17)); ((-28849990446666463), (-17)); ((-833167083834919), (-15)); (64685025261558859, (-17)); ((-52887603053726939), (-17)); (54943142885558571, (-17)); ((-59915301480874383), (-17)); ((-79815910033392889), (-17)); ((-62910375930577023), (-18))];
  [(81414616569965592, (-17)); (55605341699374291, (-16)); (27449051234776332, (-16)); (75005496988539155, (-17)); (45402733149166868, (-17)); (48091238745615483, (-17)); (60457805896620676, (-17)); ((-76549653742983459), (-17)); ((-22022811310000301), (-17)); (2681471848945618, (-16)); (45593226848018575, (-17)); ((-84865944512014568), (-17))];
  [(45301838591015653, (-17)); (63078446707765756, (-17)); (62360331109257112, (-16)); (80756509506752927, (-17)); ((-53028755966814756), (-17)); ((-25813508341520186), (-17)); (54186529321920252, (-17)); (83992086424447399, (-17)); ((-30248071199390936), (-18)); (2328532182149092, (-16)); ((-11544715617119616), (-17)); (96563519659286623, (-17))];
  [(21873591144036553, (-16)); (4955940601249595, (-15)); (71514341198526143, (-17)); (24115094420264294, (-17)); ((-56116919186259129), (-17)); (79179249820547037, (-17)); (94288098620759941, (-17)); (32868864442360113, (-17)); ((-54214581757680902), (-18)); ((-22982964986780655), (-17)); (75963998916016895, (-17)); (60837933800415978, (-17))];
  [(43986392684519151, (-16)); (31047507968278447, (-16)); (46187359096275102, (-16)); ((-99932141555519816), (-17)); (11367836630811177, (-18)); (35035420692352146, (-18)); ((-33818809722808943), (-18)); ((-66005839733405036), (-17)); ((-75045266354230322), (-17)); (14594400353812171, (-18)); ((-75112827426421658), (-17)); (65999493867693593, (-17))];
  [(17626402548272135, (-16)); (12112380109929926, (-16)); (88895484335147412, (-17)); (35186082808876701, (-17)); (17847645869595474, (-17)); ((-91887981333144897), (-17)); ((-82591080182641186), (-17)); (52118478349893615, (-17)); ((-21502969300917646), (-17)); (44052843844993794, (-17)); (83457328925656271, (-17)); (33079014461791489, (-17))];
  [(26035375463621135, (-16)); (15021254801516951, (-17)); (32069640213103794, (-16)); (98873929282314688, (-17)); (12850403421606893, (-17)); ((-76689790831497753), (-18)); (13323930301910322, (-17)); ((-98925468519114901), (-17)); (60186842069875957, (-18)); ((-68131482873683896), (-18)); ((-69727189944497114), (-18)); ((-99523676581197351), (-17))];
  [(50427563910618893, (-16)); (55702742347060727, (-16)); (93324645101666748, (-17)); (75646113001540249, (-17)); (21216398600394867, (-17)); ((-61867034987846037), (-17)); ((-62342264655568413), (-17)); (51992482379619698, (-17)); ((-58397121621018266), (-17)); (197764411705764, (-15)); (82744463297758464, (-17)); (525570753390315, (-15))];
  [(54921590338878463, (-16)); (12496984043250412, (-16)); (17458978577031379, (-16)); (31560855770687657, (-17)); ((-6671793052277748), (-16)); (67473180818601464, (-17)); (548186336881896, (-15)); ((-45220766106683769), (-17)); ((-70356234359754399), (-17)); (77452112841303022, (-17)); (59192905482688019, (-17)); (22301797168291751, (-17))];
  [(12151301578799756, (-16)); (19644398153656975, (-16)); (38626388423794409, (-16)); ((-38355577975636956), (-17)); ((-32158264517926316), (-17)); ((-86571910348275871), (-17)); (32997680729973905, (-17)); ((-92325564969578711), (-17)); (19675952822946349, (-17)); ((-86255450289228353), (-17)); ((-2101989715110858), (-16)); (46023485517279927, (-17))];
  [(40039127155588785, (-16)); (456939813876415, (-14)); (45996310745273652, (-16)); ((-14250406532831214), (-17)); ((-6440367988057647), (-16)); ((-75160441267260203), (-17)); (67436494195411667, (-17)); ((-61901229214937914), (-17)); (4025614328660812, (-16)); ((-72451674682378797), (-17)); ((-44948902539661018), (-17)); (52252760656244801, (-17))];
  [(12820143326110751, (-16)); (17057387898389156, (-16)); (98543544950544104, (-17)); ((-134533297338324), (-15)); ((-28219590837266462), (-17)); ((-9498769716152744), (-16)); ((-63582127208867123), (-17)); (75981744641980231, (-17)); ((-13567887851701399), (-17)); (76002111935578609, (-17)); (58569865751409866, (-17)); ((-28164690788176711), (-17))];
  [(20621460646054528, (-16)); (43430580239204648, (-16)); (54912059865991267, (-16)); ((-36099158349468141), (-17)); ((-44000136163948245), (-17)); (82224319906059662, (-17)); ((-27615385679761956), (-17)); (89258889533304753, (-17)); (35640442099380543, (-17)); ((-89074357927621484), (-17)); ((-98406634347137673), (-18)); ((-44372515174899252), (-17))];
  [(52961102437545691, (-16)); (39392204799425605, (-16)); (15096126580362585, (-16)); ((-69840644070991631), (-17)); (39444652074094794, (-17)); ((-59719375905167249), (-17)); ((-62019495871937835), (-17)); ((-74999165863771378), (-17)); (22993635022092429, (-17)); ((-35719274454273936), (-17)); (53096558669014693, (-17)); (76843274851922683, (-17))];
  [(52765517309267755, (-16)); (5291901973691707, (-15)); (18772451412427811, (-16)); (54761650891010794, (-17)); (44740634241865951, (-17)); ((-70706698687794989), (-17)); ((-53915413805956258), (-17)); ((-45754092707428223), (-17)); ((-70708494218534779), (-17)); ((-63986637244221223), (-17)); (76842947940299877, (-17)); ((-93359842587988351), (-19))];
  [(60211132041742736, (-16)); (45592364637493308, (-16)); (13968436781746463, (-16)); ((-15255450199773521), (-17)); (95454992840968023, (-17)); ((-25604991328508053), (-17)); ((-4173960376598454), (-16)); ((-29707196362874144), (-17)); ((-85879496748154305), (-17)); ((-89582792525466848), (-17)); ((-24138819333968373), (-18)); (44374502333556154, (-17))];
  [(20431684757374016, (-16)); (49008864266796852, (-16)); (49000642360715254, (-16)); (1873831682396308, (-16)); ((-44694048117150509), (-17)); (87471810004747341, (-17)); ((-7759704672040354), (-16)); (47865694183183444, (-17)); (41080088371782608, (-17)); ((-60229343536820101), (-17)); ((-75573258387235043), (-17)); ((-25712035972670738), (-17))];
  [(11249997243019838, (-16)); (22140085141179799, (-16)); (36249381072046156, (-16)); ((-59976883778437029), (-17)); ((-34501614377850209), (-17)); ((-72197036071780518), (-17)); (30038529049093689, (-18)); ((-91133958028374429), (-17)); (41055798150908646, (-17)); ((-79960929709161865), (-17)); (22455295575979534, (-17)); (55695685835097386, (-17))];
  [(19314146829762424, (-16)); (55797662520379454, (-16)); (24456476672220018, (-16)); (76263510530546363, (-17)); ((-2282354616498298), (-16)); (60522414872608432, (-17)); (21285693623039681, (-17)); ((-79501006292674969), (-17)); ((-56802370068846098), (-17)); (61080244011818852, (-17)); (56202097282102792, (-17)); ((-55772108195313197), (-17))];
  [(55635878385934916, (-16)); (28777791279130387, (-16)); (3882462443793715, (-15)); ((-96540257013953701), (-17)); ((-19611308604803662), (-17)); (17186487438883996, (-17)); ((-26070502944132262), (-17)); (73990624404764882, (-17)); ((-62013840200660075), (-17)); ((-55466378983550935), (-19)); ((-64348924427686949), (-17)); ((-76543505753787366), (-17))];
  [(55335876353706688, (-16)); (62301232780149336, (-16)); (30926640034916708, (-17)); (99859254081133075, (-17)); (38821221465133907, (-18)); ((-36136549363846436), (-18)); ((-47977947688912594), (-18)); (95162516741883807, (-17)); ((-30349243362994804), (-17)); (22606502859368806, (-18)); (30479903789058049, (-17)); (95214835636545936, (-17))];
  [(26822669892334292, (-16)); (27497890517688131, (-16)); (25394577673658012, (-16)); ((-92422184735653623), (-17)); (34227722822688261, (-17)); ((-16929346090795694), (-17)); (18619199085797089, (-17)); (16869761693954433, (-18)); ((-98236854269705443), (-17)); ((-33338644154976776), (-17)); ((-93944755584210848), (-17)); ((-79320680866162452), (-18))];
  [(43793434275300509, (-16)); (30413332390685488, (-16)); (49326388819787335, (-16)); ((-99497823356048543), (-17)); (32722198140566074, (-18)); (94591608981481973, (-18)); ((-99455481387768649), (-18)); ((-42958571073603113), (-17)); ((-89753257565023581), (-17)); (11265964795935054, (-18)); ((-90243303068996117), (-17)); (43068283359909787, (-17))];
  [(57930086510996102, (-16)); (79559587539362642, (-17)); (38555403753419335, (-16)); (69985926798545461, (-17)); ((-63017399101433524), (-17)); (33627034669136086, (-17)); ((-69647199411510419), (-17)); ((-49758573101093889), (-17)); (51704468057184361, (-17)); ((-15850478361296819), (-17)); ((-59606139058269325), (-17)); ((-78713852162655085), (-17))];
  [(45689850185865272, (-17)); (50534672694420113, (-16)); (57053258690838717, (-16)); (33450346010948034, (-17)); (84572848862276551, (-17)); (41575324256900054, (-17)); ((-93550857880168514), (-17)); (24476441877468205, (-17)); (25478241362060944, (-17)); (11371514482792751, (-17)); ((-47416632401905656), (-17)); (87306080143539744, (-17))];
  [(53563370950909626, (-16)); (43386935280690775, (-16)); (31930534321265238, (-16)); ((-3650583261974561), (-16)); (55892365867656735, (-17)); ((-74453795218612717), (-17)); (59648134198047376, (-17)); ((-47360821905999584), (-17)); ((-6480009749282728), (-16)); ((-71480236929034091), (-17)); ((-68066114815700984), (-17)); ((-16049291026863494), (-17))];
  [(30791724192728558, (-16)); (24129732159516477, (-16)); (33188977202512051, (-16)); ((-74609434703739552), (-17)); (66454350931790929, (-17)); ((-41534919553072924), (-18)); (66145101645225235, (-17)); (74688336780397102, (-17)); (68174685419738645, (-18)); (7632678529274374, (-17)); (23391432646077147, (-18)); ((-99680843832987265), (-17))];
  [(1891515667702288, (-15)); (31969568630174012, (-16)); (15526215555495009, (-16)); ((-99846779359325644), (-17)); ((-17444613388374986), (-18)); (52514289681422965, (-18)); (52822651002639186, (-18)); ((-58322739880013597), (-17)); (81058964268603906, (-17)); (16487349637454157, (-18)); (81212159603876888, (-17)); (58325524476799606, (-17))];
  [(33665257769832908, (-16)); (26339977898810663, (-16)); (38633258159564976, (-17)); ((-87391611505392086), (-17)); (47383201998345614, (-17)); (10841513126616471, (-17)); ((-39805909479387458), (-17)); ((-56963665193845958), (-17)); ((-7190709574306442), (-16)); ((-27896161187687329), (-17)); ((-67156332657966045), (-17)); (68642779481334892, (-17))];
  [(36283915903674604, (-16)); (37088895794839831, (-16)); (38505203711990926, (-17)); ((-84335656308454099), (-17)); ((-47493250352135047), (-17)); ((-25137387414202983), (-17)); (34573953939453461, (-17)); ((-1214804465837428), (-16)); ((-93043359354500388), (-17)); (41135614545243598, (-17)); ((-87159716509219831), (-17)); (26665427692380533, (-17))];
  [(41857130425259079, (-16)); (58702630611305837, (-16)); (45642962476149691, (-16)); (91595207405673973, (-17)); ((-20171227762631225), (-17)); ((-34690626267907348), (-17)); (31334607780350626, (-17)); ((-18054122412308765), (-17)); (93231920602189478, (-17)); ((-25069111184147669), (-17)); ((-96266142721464776), (-17)); ((-10216135764926787), (-17))];
  [(56499060698115349, (-16)); (33273479713666685, (-16)); (29497205841473675, (-16)); ((-98279703217169201), (-17)); (14887610927522663, (-17)); ((-10929729018408949), (-17)); (12530141835190881, (-17)); (10272135789356501, (-17)); ((-98678664218335577), (-17)); ((-13568178991122654), (-17)); ((-98350608880655799), (-17)); ((-11960863332934157), (-17))];
  [(4496333602373765, (-15)); (27229621087522076, (-16)); (14455158556962879, (-16)); ((-91364649358847516), (-17)); (87146880911919397, (-18)); (39705856734341877, (-17)); (38305741937693211, (-17)); (51152977802978228, (-17)); (76915817596193226, (-17)); ((-13607754485501874), (-17)); (85483490063059853, (-17)); ((-50073964737187027), (-17))];
  [(17545849638074587, (-16)); (33872176304308814, (-16)); (53322529796368912, (-16)); ((-96998554343095333), (-17)); ((-44439351007666252), (-18)); (23906733281018475, (-17)); ((-16877473515617575), (-17)); (83081203974822004, (-17)); ((-53034558863288828), (-17)); ((-17505180464057185), (-17)); ((-55477607977581322), (-17)); ((-81337590756098721), (-17))];
  [(42700589165087566, (-16)); (90278799670791565, (-17)); (43989390702461666, (-16)); (61942364239216585, (-17)); (33604081224971227, (-17)); (7095004748047572, (-16)); ((-57131481445148191), (-17)); ((-42689377506115078), (-17)); (70097153123526246, (-17)); (53843637881730377, (-17)); ((-83954647120727821), (-17)); ((-72443002764350284), (-18))];
  [(54954887350144421, (-16)); (54673589408466814, (-16)); (30918952097193362, (-16)); (68526679140756297, (-17)); (51379530838499887, (-17)); ((-51616257678714705), (-17)); (48751954127371072, (-17)); ((-85013293309717264), (-17)); ((-1989942032820779), (-16)); ((-54104909340119423), (-17)); ((-11527522346611263), (-17)); ((-83305312038583934), (-17))];
  [(12447535364830182, (-16)); (19491475520202999, (-16)); (37158432125153213, (-16)); ((-36938880711572358), (-17)); ((-29764380089225895), (-17)); ((-88031816803246321), (-17)); (22829223025614856, (-17)); ((-94735187650260411), (-17)); (22451521037931557, (-17)); ((-90079662898031343), (-17)); ((-11803639217378688), (-17)); (41789094670775001, (-17))];
  [(52411589174902504, (-16)); (19454369443914349, (-17)); (49957384030439211, (-16)); (98113598415961711, (-17)); ((-97523883315693435), (-18)); (16691696369802156, (-17)); ((-13299600073685891), (-17)); (28611996682324442, (-17)); (94891908420742954, (-17)); ((-14030055015979467), (-17)); ((-95321794819867545), (-17)); (26775230877952561, (-17))];
  [(4647579445115837, (-15)); (47293983805144864, (-16)); (49988054622670405, (-18)); (17008579949257998, (-18)); ((-64754806591970929), (-18)); ((-99775624439606803), (-17)); (14818794054576444, (-18)); (99780731747412243, (-17)); ((-64505507810295112), (-18)); (99974552339626788, (-17)); ((-13688397215614084), (-18)); (17930873676143613, (-18))];
  [(33466040333924858, (-16)); (19279240029388653, (-16)); (16456590237592241, (-16)); ((-34958458502478779), (-17)); (91728477257106522, (-17)); (19073348925213968, (-17)); (25880555012986217, (-17)); (29020223478041496, (-17)); ((-92130469995025654), (-17)); ((-90045005699096181), (-17)); ((-2727110355994089), (-16)); ((-33884861800997745), (-17))];
  [(38711739058498978, (-17)); (32877293341070928, (-16)); (53248121400825372, (-16)); ((-98934102493619136), (-17)); (13484159118554237, (-17)); (54973463277816353, (-18)); ((-12249639344807092), (-17)); ((-97479132134368607), (-17)); (18648461980883535, (-17)); (7873353777407549, (-17)); (17776283390962666, (-17)); (9809186535640948, (-16))];
  [(10550286267953397, (-16)); (3365166454539871, (-17)); (56258331924321681, (-16)); (99943383616830994, (-17)); ((-16593963762208268), (-18)); ((-2926854093654839), (-17)); (31019744814478056, (-18)); (79135548009934842, (-17)); (61056881639040039, (-17)); (13030063451132985, (-18)); ((-61113103708074612), (-17)); (79142218376987084, (-17))];
  [(24877429973386733, (-16)); (27058833543526046, (-16)); (22429836624524429, (-16)); ((-9065709081225658), (-16)); (33500421282916176, (-17)); ((-25671261350494662), (-17)); (77390487110369239, (-19)); ((-59494944550382556), (-17)); ((-80372586397336931), (-17)); ((-42198257744944234), (-17)); ((-73062119780458357), (-17)); (53677124517593255, (-17))];
  [(17905443885094772, (-16)); (38293296260512681, (-16)); (31188528663326855, (-16)); ((-77268454005241916), (-17)); ((-13837394901284197), (-17)); (61952502112390329, (-17)); ((-1242515210358324), (-16)); ((-9241057194953034), (-16)); ((-36137263138808584), (-17)); (6225111734613793, (-16)); ((-35620397166603668), (-17)); (69684902919145819, (-17))];
  [(24888428779679676, (-18)); (52883990858228307, (-16)); (20942169380499123, (-16)); (54468218580698624, (-17)); (83838281551720095, (-17)); (20870340437438916, (-18)); (43713814685049013, (-17)); ((-2625871117988568), (-16)); ((-86020825925194067), (-17)); ((-71570353990506641), (-17)); (47766333684153062, (-17)); ((-50951563234583042), (-17))];
  [(25109026433086261, (-16)); (19905443853480873, (-16)); (90938179339019198, (-17)); ((-40753039517212214), (-17)); (7375125653898208, (-16)); ((-53851108893223298), (-17)); ((-87795719274900197), (-17)); ((-47865689075890533), (-17)); (88740424446370481, (-19)); ((-25121732565877258), (-17)); (47640612592738851, (-17)); (8425716933695977, (-16))];
  [(56199794698886159, (-16)); (33913814773411879, (-16)); (24755964587093535, (-16)); ((-96896464594573961), (-17)); (19479867410947932, (-17)); ((-15218735648021572), (-17)); (59142670744263548, (-18)); ((-41508265952250517), (-17)); ((-90785931193162284), (-17)); ((-24002012291573183), (-17)); ((-88868434347011704), (-17)); (39067950837816429, (-17))];
  [(33165945735538513, (-16)); (60263057411788044, (-16)); (24176977091879919, (-16)); (96718747480917788, (-17)); ((-25018323131635323), (-17)); ((-44235046516919306), (-18)); ((-21674244526922737), (-17)); ((-72166686669372759), (-17)); ((-65743413809686957), (-17)); (13255602962883997, (-17)); (64544967602793468, (-17)); ((-75221247977182104), (-17))];
  [(32943794304031995, (-16)); (1110710252828579, (-15)); (60970532287054304, (-16)); (44402523211337003, (-17)); (88557642177214224, (-17)); (13636713111273108, (-17)); ((-89551618475160821), (-17)); (43353474645931289, (-17)); (10049072823093114, (-17)); (29872329915683043, (-18)); ((-16673939190757606), (-17)); (98554838495717734, (-17))];
  [(38563877162519735, (-16)); (57085143355103813, (-16)); (24637297552655948, (-16)); (83937119404550342, (-17)); ((-41051048187383754), (-17)); ((-35628239204082979), (-17)); ((-54318798248915312), (-17)); ((-65768615533245001), (-17)); ((-52191544982246307), (-17)); ((-20070233829961988), (-18)); (63160910803734471, (-17)); ((-7750271739482949), (-16))];
  [(24948455426169447, (-17)); (34482538067465929, (-16)); (17982423811552852, (-16)); ((-95334680380462344), (-17)); (29253107104857246, (-17)); (7453485189281478, (-17)); (13857809918544867, (-17)); (64344072301654842, (-17)); ((-75284802343506851), (-17)); ((-26819019762410545), (-17)); ((-70739635879407559), (-17)); ((-65396055650415708), (-17))];
  [(40668719693832394, (-16)); (25776926250555237, (-16)); (15256457662883413, (-17)); ((-84517703147496015), (-17)); (32155320711185209, (-17)); (42694182327719621, (-17)); ((-25293442400955052), (-17)); (46306281530423254, (-17)); ((-84946866112498542), (-17)); ((-47085025498361066), (-17)); ((-82593968549682895), (-17)); ((-31003818039600894), (-17))];
  [(43739146524685761, (-16)); (18865461086489539, (-16)); (21019466813530534, (-16)); ((-31052927394742452), (-17)); (31563316608051017, (-17)); (89663106933212977, (-17)); (93297394542019152, (-17)); ((-7941890767684219), (-17)); (3510730041892981, (-16)); (18201974395314108, (-17)); (94555187143456609, (-17)); ((-26981562452501279), (-17))];
  [(6116313105900721, (-15)); (28753628260021773, (-16)); (14853806649299104, (-16)); ((-96476966787962315), (-17)); ((-25944133090522786), (-17)); (436999285762091, (-16)); (65674028175033247, (-18)); ((-39832133539998382), (-17)); ((-91489181643975737), (-17)); (25476736439879155, (-17)); ((-87978992355180896), (-17)); (40132689973884839, (-17))];
  [(79541757736145902, (-17)); (11522336698325448, (-16)); (57337096958536717, (-16)); (40644761027305698, (-17)); ((-63955962946143119), (-17)); ((-65250580109795053), (-17)); (88618018686430222, (-17)); (44982218342791669, (-17)); (11110661413836759, (-17)); (22245227918021343, (-17)); ((-62339673054909317), (-17)); (74959422344908033, (-17))];
  [(52679430758581205, (-16)); (45767059141867641, (-16)); (83789057861114025, (-17)); ((-13526713076100552), (-17)); (52256676939101798, (-17)); ((-84179972372525735), (-17)); ((-97526770444129129), (-17)); (79668023871721907, (-18)); (20616961620517427, (-17)); (17480191077187668, (-17)); (84886805659101661, (-17)); (49886602859875262, (-17))];
  [(42666851719311873, (-16)); (30501484740859652, (-16)); (46965510778767712, (-16)); ((-99582189369208962), (-17)); (3936603226294625, (-17)); (82395822390295678, (-18)); ((-81762039240950962), (-18)); ((-78619750349379913), (-17)); ((-61254261438636159), (-17)); (40666017541205982, (-18)); ((-61672019668889599), (-17)); (7861313338198318, (-16))];
  [(29459573785118183, (-16)); (19657717184605177, (-16)); (73709965810685829, (-17)); ((-38478547528364671), (-17)); (90539911802854123, (-17)); ((-17942289453656035), (-17)); ((-79097451548098963), (-17)); ((-42364052469740515), (-17)); ((-44146123464435794), (-17)); ((-4757094216749882), (-16)); ((-27948933919682201), (-18)); (87915834934464532, (-17))];
  [(38328659295837384, (-16)); (41446845809682724, (-16)); (44462463580173406, (-17)); ((-53769796019050964), (-17)); ((-64958258489863219), (-17)); ((-53751592441840845), (-17)); (35522925183421011, (-17)); (40363803037974577, (-17)); ((-84314205153845023), (-17)); (7646522623050771, (-16)); ((-64429714094319135), (-17)); (13715390047569165, (-18))];
  [(54734642114013825, (-16)); (4226328868757065, (-15)); (11636656031631643, (-16)); ((-46714595150222632), (-17)); (60981946223341454, (-17)); ((-64023033626690062), (-17)); ((-82937240334461371), (-17)); ((-55319069665853338), (-17)); (78239821707528079, (-18)); ((-30645729974249081), (-17)); (56753878864073737, (-17)); (76418822735157699, (-17))];
  [(49226951475009182, (-16)); (17707860750948694, (-16)); (21395952524792987, (-16)); ((-19865928343605885), (-17)); ((-20459846827094563), (-17)); (95847480712111288, (-17)); (69736059274438689, (-17)); ((-71667071685646533), (-17)); ((-84431799481878844), (-19)); (68863828879308553, (-17)); (6667252435461124, (-16)); (28505220017833233, (-17))];
  [(48810986042305311, (-16)); (31472585097424415, (-16)); (38648927612251733, (-16)); ((-99998394907996757), (-17)); (95135127262116785, (-20)); ((-55853838891197008), (-19)); (44099112709763723, (-19)); ((-48824651956669424), (-17)); ((-87269461371867751), (-17)); ((-35572833756774831), (-19)); ((-87270523721458548), (-17)); (48823448738615272, (-17))];
  [(31279465994095017, (-16)); (59612849932408523, (-16)); (28633532716765484, (-16)); (94863592928675866, (-17)); ((-3163403809314384), (-16)); (43170659481142262, (-19)); ((-3029883507063898), (-16)); ((-91235355925763595), (-17)); ((-27533441892750204), (-17)); (91038085450374187, (-18)); (25988410167241077, (-17)); ((-96133881680469679), (-17))];
  [(61654856878679132, (-16)); (39034470020332801, (-16)); (52761672850095309, (-17)); ((-72355726485046701), (-17)); (6854886901768722, (-16)); ((-81056400868206174), (-18)); ((-63307862122451031), (-17)); ((-70582104946916202), (-17)); ((-3178491866824954), (-16)); ((-27509333657975826), (-17)); ((-17866701364786663), (-17)); (94467018286996274, (-17))];
  [(53986810649259986, (-16)); (48239272668460869, (-16)); (60928443147083469, (-16)); (11130715955731409, (-17)); (62973548602624829, (-17)); ((-76879381752884002), (-17)); ((-47291134604474355), (-17)); (71395891136094158, (-17)); (51635020254711617, (-17)); (87405124278467294, (-17)); (30609784469607737, (-17)); (37727779481303247, (-17))];
  [(24434466647615629, (-16)); (46963426036251139, (-16)); (52758495984924378, (-16)); ((-16045688148326454), (-18)); ((-76593663923128108), (-17)); (64271580078206958, (-17)); ((-13426125071417008), (-17)); (63862762527859629, (-17)); (75771279043426976, (-17)); ((-99081605379026494), (-17)); ((-7413380412545352), (-17)); ((-11308283086912652), (-17))];
  [(6112142513440121, (-15)); (23396486822563154, (-16)); (34623868417730588, (-16)); ((-6953108741134183), (-16)); ((-70822157166068012), (-17)); (12233149134262306, (-17)); ((-71066546276344744), (-17)); (70289056336282885, (-17)); (29990931474368168, (-18)); ((-1072258754911761), (-16)); ((-66083745126629331), (-18)); ((-99203606298117486), (-17))];
  [(17167632103626021, (-17)); (34986869713426487, (-16)); (27228072698868799, (-17)); ((-9369164683426553), (-16)); (34441481974264387, (-17)); (59715687134691615, (-18)); ((-31566732411643139), (-17)); ((-76027714131344049), (-17)); ((-56774361192481471), (-17)); ((-15013884185479148), (-17)); ((-55077863097428248), (-17)); (821036678735242, (-15))];
  [(29711495423389365, (-16)); (18352197817444389, (-16)); (56971253690024399, (-16)); ((-26135280534586491), (-17)); (95125668077990966, (-17)); ((-16372366478134842), (-17)); ((-7019642426601348), (-16)); ((-70888722618774172), (-18)); (70867551886040325, (-17)); (66252616036231338, (-17)); (30014249328788384, (-17)); (68627514202286444, (-17))];
  [(47141845677940157, (-16)); (11835266260416888, (-16)); (61925441040307252, (-16)); (37766172268829418, (-17)); ((-1662611847112467), (-18)); (92594214664737862, (-17)); ((-82157847066485823), (-18)); (99599404892100263, (-17)); (35297913243522348, (-18)); ((-92229155443466448), (-17)); ((-89404083999519532), (-18)); (37601223169292902, (-17))];
  [(46497136806163724, (-16)); (26082417156375484, (-16)); (59078662218609805, (-16)); ((-86110821869278964), (-17)); (31844624915301427, (-18)); (50742344798376682, (-17)); ((-21563386285406339), (-17)); (88095091969377393, (-17)); ((-42122145515313997), (-17)); ((-46042879242111445), (-17)); ((-47213493511357268), (-17)); ((-75172729773165536), (-17))];
  [(21021115601622613, (-16)); (81799934576119948, (-17)); (36436316298777777, (-17)); (68368261098044369, (-17)); (3697556872352093, (-16)); ((-62917312339306208), (-17)); ((-56969012713368949), (-17)); (80924051428192567, (-17)); ((-14346758899181783), (-17)); (45610442498331882, (-17)); (45652001248788937, (-17)); (76390983218485509, (-17))];
  [(25499348191041418, (-16)); (90171505142115493, (-17)); (66763754233710282, (-17)); (62026560879769688, (-17)); (65105871392491044, (-17)); ((-43748500038888666), (-17)); ((-78212882499437797), (-17)); (47100979432365375, (-17)); ((-40795131420808445), (-17)); ((-59540537919439446), (-18)); (59520779957392289, (-17)); (80136296375028004, (-17))];
  [(11234764170317366, (-16)); (53679845102452211, (-16)); (57530468511705619, (-16)); (60963141900258466, (-17)); (34287645442860282, (-17)); (71469243032465746, (-17)); ((-65719845353856432), (-17)); (72274360567182272, (-17)); (21385011837034895, (-17)); ((-44321521367323863), (-17)); ((-6000645110810694), (-16)); (66594508550602161, (-17))];
  [(4539882218088902, (-15)); (18143009574356377, (-16)); (39875862358663374, (-16)); ((-24110534050556981), (-17)); (1665885146401874, (-16)); (95609438946668301, (-17)); ((-60531499768700736), (-17)); ((-79586330922037751), (-17)); ((-13976645232968293), (-18)); (7585920961589776, (-16)); ((-58210811695660636), (-17)); (29272542051957573, (-17))];
  [(4660756431384466, (-15)); (10916614354795603, (-17)); (30866527415619354, (-16)); (99404729173347761, (-17)); (56228384954009709, (-19)); (10880425306298068, (-17)); (11589044030627072, (-18)); ((-99845850368206934), (-17)); ((-54279927076401044), (-18)); (10833132444401615, (-17)); (55217751785253476, (-18)); ((-9925801348163219), (-16))];
  [(29046963844743918, (-16)); (61651217512416752, (-16)); (12217029571380074, (-16)); (99303859027787622, (-17)); ((-11449973075041506), (-17)); (276436227186454, (-16)); (65140423314420465, (-18)); (33830369651078634, (-17)); ((-93877970481767226), (-17)); (9813808368491031, (-17)); (93404519193945856, (-17)); (34340718679933491, (-17))];
  [(19261255491225626, (-16)); (42045250428291139, (-16)); (53813165008166681, (-16)); ((-48631189781616679), (-17)); ((-30398906503973372), (-17)); (81920167625481988, (-17)); ((-45413593930085067), (-17)); (88889243183139532, (-17)); (60256064161229195, (-18)); ((-74649935477384866), (-17)); ((-34272568180563384), (-17)); ((-5703313250673604), (-16))];
  [(37491955161824873, (-16)); (37682880440203586, (-16)); (5461528087330457, (-15)); ((-80996998616781535), (-17)); ((-48150404876086578), (-17)); ((-33481707324179694), (-17)); (57308671043490023, (-17)); ((-77109659900847305), (-17)); ((-27745568532735321), (-17)); ((-12458027062987911), (-17)); ((-41660999270836041), (-17)); (90050867299839266, (-17))];
  [(4772082530826272, (-15)); (19414841068689301, (-16)); (22078074691060756, (-16)); ((-36225658255565396), (-17)); ((-5560603236053728), (-17)); (93041825947270496, (-17)); (7148677228443594, (-16)); ((-65712607111469201), (-17)); (23905954383100636, (-17)); (59810894261030645, (-17)); (75172687581759878, (-17)); (27779920256021901, (-17))];
  [(17401822154814841, (-16)); (36548769941597703, (-16)); (62171014710694994, (-16)); ((-87113646309441262), (-17)); ((-82778247183004527), (-18)); (48401345483433267, (-17)); (50635373184025903, (-18)); (96529054361081512, (-17)); (25622299935417836, (-17)); ((-48842330170649267), (-17)); (247713399332467, (-15)); ((-83670828258197738), (-17))];
  [(54534928789061778, (-16)); (24958233038762287, (-16)); (32023480411566587, (-16)); ((-7986369986489561), (-16)); ((-40628561037543853), (-17)); (44397178648067787, (-17)); ((-43249308353535421), (-17)); ((-12552336714010132), (-17)); ((-89285699694625942), (-17)); (4184837835365528, (-16)); ((-90508335920160898), (-17)); ((-75468111234235358), (-18))];
  [(51150628169605283, (-17)); (21934146173309443, (-16)); (21869940771895438, (-17)); ((-58316413673683543), (-17)); ((-70837964245823803), (-17)); ((-39764037995998386), (-17)); (60523422525100357, (-17)); ((-52367333896100432), (-18)); ((-79432310486692481), (-17)); (54185895047401311, (-17)); ((-70388631503343857), (-17)); (45927435515152359, (-17))];
  [(40543277303769676, (-17)); (61713763938573623, (-16)); (26245240723160865, (-16)); (99375589243918827, (-17)); (10253082596194506, (-17)); (44007453572705406, (-18)); (11088156086673975, (-17)); ((-86356982109778369), (-17)); ((-49188661655802074), (-17)); ((-12430032266570199), (-18)); (49369483875842085, (-17)); ((-86954637626819464), (-17))];
  [(75890290592289644, (-17)); (48235316465206934, (-17)); (25796967913745417, (-16)); (88590582553463715, (-17)); ((-33657654999448938), (-17)); ((-31919757874645605), (-17)); ((-45489250213959176), (-17)); ((-76506212460388801), (-17)); ((-4557990313655419), (-16)); ((-90794712296336302), (-18)); (54899560243265333, (-17)); ((-83087914207099556), (-17))];
  [(43624373359999691, (-16)); (48967854797080426, (-16)); (52665222789539694, (-16)); (18335329737382888, (-17)); ((-33704003528016818), (-17)); ((-92346390452496152), (-17)); (96262648726397559, (-17)); (25203337277183802, (-17)); (9914345680412151, (-17)); (19932840831141774, (-17)); ((-90712909424601451), (-17)); (37065481517503857, (-17))];
  [(26647505039604402, (-17)); (43364184224166005, (-16)); (37923504568416311, (-16)); ((-36717546801988443), (-17)); (89732210414808722, (-17)); (24493921101291277, (-17)); (56555025739661335, (-17)); (6304678824974902, (-18)); (82468973401124512, (-17)); (73846806433521761, (-17)); (44133127289164914, (-17)); ((-50979567036689666), (-17))];
  [(30710909233009134, (-16)); (83706957211899402, (-17)); (32315637009627105, (-16)); (66964207979273205, (-17)); (74083898511181367, (-17)); ((-52317139728410303), (-18)); (74254321948764723, (-17)); ((-66648054989839645), (-17)); (66582608840826743, (-18)); (14458636304432813, (-18)); ((-83434254030516047), (-18)); ((-9964083867022534), (-16))];
  [(39089366469181375, (-17)); (62408293722555594, (-16)); (58851770230266736, (-16)); (99910312148560732, (-17)); (39149273167418203, (-18)); (1613341402737152, (-17)); ((-42342199800091823), (-18)); (92100557225971436, (-17)); (38724136398717157, (-17)); (30125372167519136, (-20)); ((-387577179768132), (-15)); (92183720849680184, (-17))];
  [(4971324483112439, (-15)); (34823184167066907, (-16)); (25808882873044001, (-16)); ((-94251238462859444), (-17)); (85565104815027285, (-18)); ((-32303098560310578), (-17)); ((-99318895992329237), (-18)); ((-99470792566098787), (-17)); (26303983083928367, (-18)); ((-31907077854386073), (-17)); (56874910683077984, (-18)); (94602277076939678, (-17))];
  [(30046459540973616, (-16)); (89568673477954452, (-17)); (58047561962693157, (-16)); (62498287222306614, (-17)); (7733296936302092, (-16)); ((-10657201498335975), (-17)); ((-63743545942406965), (-17)); (58436356156300417, (-17)); (50219046484996732, (-17)); (45063560056505947, (-17)); ((-24592765779230255), (-17)); (85816498567359434, (-17))];
  [(32276933516532331, (-16)); (54747124625812971, (-16)); (71038126187703576, (-17)); (69060372756732002, (-17)); ((-72055423079621883), (-17)); ((-62193986460044363), (-18)); (50570362661933643, (-17)); (54257675575107667, (-17)); ((-67072670003712176), (-17)); (51703997282045178, (-17)); (43175463471780573, (-17)); (73909241770263112, (-17))];
  [(43650138597259378, (-16)); (1600746715886467, (-15)); (41932482158026421, (-16)); ((-29945911580407759), (-18)); (3402782127454092, (-16)); (93984784955353728, (-17)); ((-6471952538384308), (-16)); ((-72315920576162518), (-17)); (24120337172441111, (-17)); (76173587665845666, (-17)); ((-60104201271874946), (-17)); (2418821059077482, (-16))];
  [(26148111071591966, (-16)); (89283946179604734, (-17)); (32659978890782879, (-16)); (62720302666960814, (-17)); (67326603803004381, (-17)); ((-39157273318224073), (-17)); (7166509393343542, (-16)); ((-69575256744389558), (-17)); ((-48371438333124572), (-18)); ((-30500458109292489), (-17)); ((-25028225452587527), (-17)); ((-91887485469011199), (-17))];
  [(27050479638181097, (-16)); (56225909070855504, (-16)); (14284113569697594, (-16)); (78962765524770206, (-17)); ((-55604297083435672), (-17)); (25943087837364098, (-17)); (33571045176189784, (-17)); (37598052016871331, (-18)); ((-94121457652458784), (-17)); (513601653663458, (-15)); (83030271652586995, (-17)); (21635789859379295, (-17))];
  [(58547002516824165, (-16)); (45421083439867491, (-16)); (35276714225896919, (-16)); ((-16945893336008705), (-17)); (89644097887475394, (-17)); ((-40948411605156848), (-17)); (98465123972709667, (-17)); (13638638886609589, (-17)); ((-10890679058698614), (-17)); ((-41780450073606944), (-18)); ((-42165427108727227), (-17)); ((-90579361317328122), (-17))];
  [(2412639459394545, (-15)); (1226868124767079, (-16)); (58649419629429325, (-16)); (99248340846730054, (-17)); (9127927477784975, (-17)); ((-81515507194394016), (-18)); ((-50303351070983909), (-18)); (91149933822276008, (-17)); (40821382790211752, (-17)); (11156279302777804, (-17)); ((-40104494812364877), (-17)); (90923962341966869, (-17))];
  [(18922214355607732, (-16)); (18939754052366284, (-16)); (2940182066710832, (-15)); ((-31758265979841682), (-17)); (29956406437070254, (-17)); ((-89966806408423128), (-17)); (11352844815789867, (-17)); ((-92994922657065815), (-17)); ((-34972235767747806), (-17)); ((-94140987123262221), (-17)); ((-21320367571489049), (-17)); (26132670549991149, (-17))];
  [(17592248732396534, (-16)); (48781033420219346, (-16)); (51849273704190582, (-16)); (16495694845187067, (-17)); ((-18474941006136683), (-17)); (96884305263516435, (-17)); ((-77858485703406755), (-17)); (57862300096023245, (-17)); (24290130332506549, (-17)); ((-60547074706767423), (-17)); ((-79439478739588398), (-17)); ((-48395208477293825), (-18))];
  [(22134878851134832, (-16)); (26329558539079692, (-16)); (59648802055532713, (-16)); ((-87340917990088918), (-17)); (29187675263787599, (-17)); ((-38982607113227352), (-17)); ((-15521607384292288), (-17)); (59189004950516266, (-17)); (79093244952875985, (-17)); (46158896746525968, (-17)); (75131493434267904, (-17)); ((-4716582391393277), (-16))];
  [(27242688820363153, (-17)); (15069832471126066, (-16)); (47967127353034007, (-16)); (63769779528555864, (-18)); ((-96116043040594401), (-17)); ((-2685219585820493), (-16)); (34852050337638263, (-17)); ((-23067897298419526), (-17)); (90847161218677031, (-17)); ((-93512933541042986), (-17)); ((-15151844258973002), (-17)); (32027376978146438, (-17))];
  [(49300309850143487, (-16)); (55785809016213384, (-17)); (44117427128826439, (-16)); (84839091957819024, (-17)); ((-1143057807070076), (-16)); (51688203303484459, (-17)); ((-52754768045034228), (-17)); ((-26351363216727308), (-17)); (80762244304716702, (-17)); (4388954805800914, (-17)); ((-95785946472276007), (-17)); ((-28386432218982915), (-17))];
  [(62253724895693319, (-16)); (10213235086225714, (-16)); (34326008678764839, (-16)); (52223772088300702, (-17)); ((-85137518571693604), (-17)); (49275308546726841, (-18)); ((-82971717303349901), (-17)); ((-49390101584031493), (-17)); (26005999178113454, (-17)); ((-19707149885313494), (-17)); ((-17669770710837684), (-17)); ((-96433435313817428), (-17))];
  [(45570267343535233, (-16)); (13594932317257176, (-16)); (23806342105912464, (-16)); (20973418975954908, (-17)); (15129637827763262, (-17)); (96598187124085155, (-17)); (77572151518781907, (-17)); ((-62715915151463353), (-17)); ((-70196364194730285), (-18)); (59520391507501003, (-17)); (76405549837136599, (-17)); ((-24890057229316254), (-17))];
  [(57768009528223114, (-16)); (26790095497812647, (-16)); (52874425715139042, (-16)); ((-89490274533490743), (-17)); ((-390257166111937), (-15)); (21644495995593399, (-17)); (30620339274646451, (-18)); (43017739416681267, (-17)); (90222491894790646, (-17)); ((-44520946891856583), (-17)); (81403117498418376, (-17)); ((-37301712419018773), (-17))];
  [(73648344490118356, (-17)); (56502284755221166, (-17)); (1845267214566349, (-16)); (84457636726210095, (-17)); ((-39666915651216528), (-17)); ((-35964474156350468), (-17)); (32394689454945602, (-17)); (91335964663183167, (-17)); ((-24664258638025033), (-17)); (42632050076687183, (-17)); (91802702446621753, (-18)); (89990171377177663, (-17))];
  [(24319824221944675, (-16)); (499344034416794, (-14)); (57526546572947823, (-17)); (27736591452247433, (-17)); ((-72885110068295333), (-17)); (62597461809114818, (-17)); (95210720391085146, (-17)); (29578588606498007, (-17)); ((-77476331003830029), (-18)); ((-12868574793725945), (-17)); (61748423675264941, (-17)); (77598530632984675, (-17))];
  [(55683829175360993, (-16)); (49518577198242686, (-17)); (29038711805272399, (-16)); (87988044708073876, (-17)); ((-35887817855333137), (-17)); (31147528281268572, (-17)); ((-27543653283529484), (-17)); ((-91929491182358514), (-17)); ((-2811255617601115), (-16)); (38722747219776504, (-17)); (1615652130054917, (-16)); ((-90771777922535979), (-17))];
  [(13707030119074666, (-16)); (15012644018154506, (-17)); (56790353590770231, (-16)); (98875217504769219, (-17)); ((-29727289393631968), (-18)); ((-14657907287114705), (-17)); (10773122561816637, (-17)); (82137494264743538, (-17)); (56012247465865006, (-17)); (10374545467279768, (-17)); ((-56961345828221921), (-17)); (81533881839300704, (-17))];
  [(47192370304576805, (-16)); (11307691665907424, (-16)); (31391762922677851, (-16)); (42596403814877565, (-17)); ((-61956570433918598), (-19)); (90471888011569057, (-17)); ((-4009513373984923), (-18)); ((-9999796597054057), (-16)); ((-49602397084212487), (-19)); (90473120981123023, (-17)); ((-15145987131355027), (-19)); ((-42598021548452925), (-17))];
  [(20517475987506253, (-16)); (62790605484029403, (-16)); (59169194531126372, (-16)); (99999149319457825, (-17)); ((-19082017956481318), (-19)); (36568161541017121, (-19)); (47201204364255236, (-20)); (93367071680664548, (-17)); (35813233557219526, (-17)); ((-40976509256487889), (-19)); ((-35812756294883519), (-17)); (93366367494575886, (-17))];
  [(33022719449200366, (-16)); (32405596940947077, (-16)); (25257341899102697, (-16)); ((-99510675829801809), (-17)); ((-97532833504945599), (-18)); ((-15807782200752907), (-18)); ((-88745406693810522), (-18)); (95260901724343161, (-17)); ((-29096445325375031), (-17)); (43437223442112996, (-18)); ((-28813782579696173), (-17)); ((-95660326204996804), (-17))];
  [(61147422509571161, (-16)); (46825748579316526, (-16)); (16902151187995891, (-16)); ((-29809705777046527), (-18)); (98540886133123096, (-17)); ((-16757314060246273), (-17)); ((-4898285121647019), (-17)); ((-16888636319230063), (-17)); ((-98441763323011611), (-17)); ((-99835467732073602), (-17)); ((-21136989794319189), (-18)); (5330258843849689, (-17))];
  [(16693342980443457, (-16)); (349516578035787, (-14)); (21700827889700918, (-16)); ((-93814150153028752), (-17)); ((-34063792820345752), (-18)); (34457246135637448, (-17)); (26531287907149986, (-17)); ((-71015400865331701), (-17)); (65214289859847152, (-17)); (2224850541166514, (-16)); (70322182987469695, (-17)); (67526251094103662, (-17))];
  [(26139001938556978, (-16)); (27002090995809271, (-16)); (13485730275003094, (-16)); ((-9041614872060556), (-16)); (36908062121840868, (-17)); ((-21510811257218396), (-17)); ((-29116349520985019), (-17)); ((-90089159909153882), (-17)); ((-32189772559537244), (-17)); ((-31259530404425045), (-17)); ((-22841589639804777), (-17)); (922014291734222, (-15))];
  [(32568854356814754, (-16)); (22444276879519038, (-16)); (61283602883679551, (-16)); ((-62382822593289289), (-17)); (77637280582968315, (-17)); (89908903327560866, (-18)); ((-78095084668140768), (-17)); ((-62374906845679046), (-17)); ((-32448030246513965), (-18)); (30888826410405256, (-18)); ((-9045643132155512), (-17)); (99542127485580523, (-17))];
  [(25376385836556641, (-16)); (35671604655919587, (-16)); (18747694813749065, (-16)); ((-91080446541378901), (-17)); ((-33980553798616164), (-17)); (2344513214640456, (-16)); (12199444821571798, (-17)); ((-7640721337195755), (-16)); ((-63349122257357104), (-17)); (39440154714053105, (-17)); ((-54838487472499697), (-17)); (73737470039729802, (-17))];
  [(24135616280433849, (-16)); (39653114883534193, (-16)); (48085882476770188, (-16)); ((-67949748556314471), (-17)); ((-54768023774759389), (-17)); (48819004935998339, (-17)); ((-43332765003939011), (-17)); (83652873986936338, (-17)); (33533090386052217, (-17)); ((-59203911595831549), (-17)); (16310259143065942, (-18)); ((-80574416573871765), (-17))];
  [(60828463548662812, (-16)); (22698273218969942, (-16)); (2221919069913517, (-15)); ((-64347624907739831), (-17)); ((-75015613057098474), (-17)); (1523289094034668, (-16)); ((-33349149621422169), (-17)); (95614496627202256, (-18)); ((-93789193939788529), (-17)); (68900053615805101, (-17)); ((-65431158311732052), (-17)); ((-31169634802548446), (-17))];
  [(41691680679985232, (-16)); (38760362452764818, (-16)); (37007428046958624, (-17)); ((-74220375881950573), (-17)); ((-34641035975206697), (-17)); ((-57370152784408757), (-17)); (11545948919194315, (-17)); (77715328905952175, (-17)); ((-61862902587859803), (-17)); (6601535327101814, (-16)); ((-52538807367546048), (-17)); ((-53680972913114788), (-17))];
  [(5453819885121284, (-15)); (46559833515462232, (-16)); (3180361351739617, (-15)); ((-56375723618729376), (-18)); (6742698485648797, (-16)); ((-73633005446114919), (-17)); (70230260139441114, (-17)); ((-49741594082711604), (-17)); ((-5092626413607404), (-16)); ((-70964275086913109), (-17)); ((-54583656265165059), (-17)); ((-44549928508531084), (-17))];
  [(14433822468597743, (-16)); (20095269744204525, (-16)); (34431934035354645, (-16)); ((-42479067355382011), (-17)); ((-11503505277026019), (-17)); ((-89795312811740635), (-17)); (15689352770836545, (-17)); ((-98623905876156615), (-17)); (52124273964483908, (-18)); ((-89159256649263074), (-17)); ((-11874112854122476), (-17)); (43699340929565533, (-17))];
  [(46056366308045673, (-16)); (54659751761504456, (-16)); (11525914373900612, (-16)); (68425835071712227, (-17)); ((-77700273145155332), (-18)); ((-72508839256124624), (-17)); ((-63104418221001579), (-17)); (43523280594748276, (-17)); ((-64214923867117779), (-17)); (36547742689908519, (-17)); (89695879068118234, (-17)); (24877937665123051, (-17))];
  [(21763132440347879, (-16)); (33935399106452317, (-16)); (19595845260968023, (-16)); ((-96842882594455559), (-17)); ((-1418927884003803), (-16)); (20496840166136449, (-17)); (13588450342750108, (-17)); ((-9897836461988212), (-16)); ((-43171002369973233), (-18)); (20900002585624478, (-17)); ((-13956013661919675), (-18)); (97781604551917511, (-17))];
  [(35376004753596826, (-18)); (15778142552342309, (-16)); (4687548202948534, (-15)); ((-70178708324367609), (-19)); ((-99934972424627766), (-17)); ((-35367755623847613), (-18)); (10534773001534619, (-18)); ((-35440551053498699), (-18)); (99931625919867351, (-17)); ((-99991988081385075), (-17)); (66404811507392008, (-19)); (10776639703604584, (-18))];
  [(52448546984222197, (-16)); (41313177661669522, (-16)); (10320575360151707, (-16)); ((-54891965287502698), (-17)); (42433972872445153, (-17)); ((-72015485092695075), (-17)); ((-83585867268280445), (-17)); ((-27325407136094482), (-17)); (47610134612874999, (-17)); (5243471035496378, (-18)); (86328906347221057, (-17)); (50468257241633907, (-17))];
  [(5206681815131323, (-15)); (44406651739763028, (-16)); (32580623355937703, (-16)); ((-26839239401614357), (-17)); (45700301795982085, (-17)); ((-84800575729761329), (-17)); (55245066826116629, (-17)); ((-6481334931437438), (-16)); ((-5241385639342705), (-16)); ((-78915383923039606), (-17)); ((-60915615127888534), (-17)); ((-78517522802377698), (-18))];
  [(5939947743781568, (-15)); (45931234082425663, (-16)); (14462365732675726, (-16)); ((-11898302874931653), (-17)); (93498068822400704, (-17)); ((-33414690110459144), (-17)); ((-44771813058640819), (-17)); ((-35090368171439312), (-17)); ((-82244457667583648), (-17)); ((-88622317415753205), (-17)); (51746679192448575, (-18)); (46035938871571036, (-17))];
  [(22499803955686008, (-18)); (22168887482561486, (-16)); (32161731813929029, (-16)); ((-60207103334504464), (-17)); ((-79824043446308812), (-17)); ((-17963284638688008), (-18)); ((-79468298519320513), (-17)); (5969037766727846, (-16)); (11038493755120173, (-17)); ((-77391368066771035), (-18)); (80734690077728072, (-18)); ((-9937265649899909), (-16))];
  [(28352998403518792, (-16)); (3086477244912099, (-15)); (61746501248919357, (-16)); ((-99848153031053044), (-17)); (52523622276425486, (-18)); ((-16610320036191763), (-18)); ((-50415297981783111), (-18)); ((-74974120994049298), (-17)); (65980786282551507, (-17)); (22202057520629689, (-18)); (65964337881913826, (-17)); (75125074470640074, (-17))];
  [(43023576805741848, (-17)); (18178538146282757, (-16)); (54561938442265987, (-16)); ((-24455185572176505), (-17)); ((-88127078426253813), (-17)); ((-40442081384163708), (-17)); (89431442448291665, (-17)); ((-36617295288264928), (-17)); (25713630381373748, (-17)); ((-3746946757358991), (-16)); ((-29879620710861138), (-17)); (87768144938393067, (-17))];
  [(50584099194946868, (-16)); (59878252636827165, (-16)); (37406462941966874, (-16)); (95669740131519609, (-17)); (98723367239782034, (-18)); ((-27383166193409747), (-17)); (23593566540782152, (-17)); ((-81396568301519567), (-17)); (53084294161472523, (-17)); ((-1704829730656971), (-16)); ((-57246271811747285), (-17)); ((-80201121704140488), (-17))];
  [(39590067703915244, (-16)); (59123348016435111, (-16)); (32013206943814771, (-16)); (9320194525123181, (-16)); ((-24792695685150387), (-17)); ((-26433305545275898), (-17)); ((-23170614616041485), (-17)); ((-96848305234491194), (-17)); (91393868241644471, (-18)); ((-27866108800858308), (-17)); ((-23933269459794348), (-18)); ((-96009124391530498), (-17))];
  [(33430138341337372, (-16)); (43626736236877548, (-16)); (78677035945703477, (-17)); ((-34263040741616768), (-17)); ((-92047723621936273), (-17)); ((-18795228521035437), (-17)); (51689737580685335, (-17)); ((-17646157285314851), (-18)); ((-85586547775748645), (-17)); (78448805395481935, (-17)); ((-39039758033961403), (-17)); (4818383779517309, (-16))];
  [(40460266089973285, (-16)); (36007502270195704, (-16)); (10562466884974862, (-16)); ((-89642617320601581), (-17)); ((-27395122578724385), (-17)); ((-34838318254600742), (-17)); ((-16844945781250628), (-17)); (93768915399777297, (-17)); ((-30391418301489925), (-17)); (4099327946796778, (-16)); ((-21375166985220861), (-17)); ((-88671603542594268), (-17))];
  [(52468654521066327, (-16)); (57534549204158847, (-17)); (2822153468659466, (-15)); (83900436174728243, (-17)); ((-27717200065430098), (-17)); (46823857489780507, (-17)); ((-1161074252811833), (-16)); ((-93191214411613466), (-17)); ((-34359688800023086), (-17)); (53159265115651255, (-17)); (23391331236627153, (-17)); ((-81406008103470429), (-17))];
  [(12974935307775297, (-16)); (19381411231018673, (-16)); (20655761834123445, (-16)); ((-35913864114964222), (-17)); ((-25190565094618145), (-17)); ((-8986450798032386), (-16)); ((-91048786363952083), (-17)); ((-11694922145723231), (-17)); (39665442108425913, (-17)); ((-20501533259327223), (-17)); (96065936867441615, (-17)); ((-18735605349105253), (-17))];
  [(14168811901429829, (-17)); (14157780860026661, (-16)); (1056270649736017, (-17)); (15439812137851347, (-17)); ((-97810789903345374), (-17)); ((-13952117388822724), (-17)); (97657964160968891, (-17)); (17249981462458067, (-17)); ((-1285924474764242), (-16)); (14984466526465812, (-17)); ((-11639910567890298), (-17)); (98183390880987309, (-17))];
  [(41593426860817902, (-19)); (14978841400637195, (-16)); (26079090886222955, (-17)); (7284760143138734, (-17)); ((-99733445681036226), (-17)); ((-41482797004673425), (-19)); (96254132483060151, (-17)); (71394182347244609, (-18)); ((-2615665665185804), (-16)); (26116551257592246, (-17)); (15061606346866284, (-18)); (96517652429760636, (-17))];
  [(27973343286495633, (-17)); (43669142312847935, (-16)); (25012326504739151, (-16)); ((-33864341384255081), (-17)); (9043405565410253, (-16)); (25978605824049034, (-17)); (88039130559146395, (-17)); (40196843506744606, (-17)); ((-25165954432205795), (-17)); ((-332011727654341), (-15)); (14349053977352302, (-17)); ((-93229752638065222), (-17))];
  [(12746880457646226, (-16)); (72463659424440441, (-17)); (11294042227575509, (-16)); (74874035977264697, (-17)); ((-19342358821814351), (-17)); ((-63401513323291048), (-17)); ((-49061947158800778), (-17)); (48146469434813344, (-17)); ((-72628113165286246), (-17)); (44573580487350489, (-17)); (85485616545538035, (-17)); (26559466981980695, (-17))];
  [(52530285152329474, (-16)); (21238473140582328, (-16)); (62031760850681499, (-16)); ((-52528583363260473), (-17)); ((-43795827569019435), (-17)); (7295665437363279, (-16)); (3782474400155727, (-16)); (64784025070269813, (-17)); (66123511982586869, (-17)); ((-76223596550318018), (-17)); (62329411863416206, (-17)); ((-17464470953767203), (-17))];
  [(24126905507614871, (-16)); (4094209468195972, (-15)); (42522080409627527, (-17)); ((-57955254271940826), (-17)); ((-60786490025506157), (-17)); (54278827664695606, (-17)); (77764518269832528, (-17)); ((-21333838240889191), (-17)); (59140062936832072, (-17)); ((-24369411165138313), (-17)); (76484442707589984, (-17)); (59634401339946541, (-17))];
  [(96500738043158218, (-17)); (62480558090716922, (-16)); (36749398391278927, (-16)); (99938302263529544, (-17)); (19999001952664189, (-18)); (28872374153123426, (-18)); (25420945418633423, (-19)); ((-86108469897458972), (-17)); (50845518873070861, (-17)); (35030155918591689, (-18)); ((-50806808708354978), (-17)); ((-86060426855993555), (-17))];
  [(47357133700029426, (-16)); (48519259087153452, (-16)); (14833596857575628, (-16)); (13908455872475695, (-17)); (2309559417375498, (-17)); ((-99001115097462455), (-17)); ((-98824599054942674), (-17)); (67288016840061277, (-18)); ((-13726683850338339), (-17)); (63445627803040472, (-18)); (99746624821068153, (-17)); (32182852471233994, (-18))];
  [(34357656067110209, (-16)); (28718143268720291, (-16)); (54433452159790292, (-16)); ((-96382999991906237), (-17)); (25506878885379941, (-17)); (77276414310422356, (-18)); ((-22781440628746569), (-17)); ((-9389523782382061), (-16)); (25781587943473561, (-17)); (13831965711318722, (-17)); (23088599860856115, (-17)); (96309881533652497, (-17))];
  [(24711932015732585, (-16)); (21903646651555558, (-17)); (29002647988340167, (-16)); (97610726783721813, (-17)); (17026207910315855, (-17)); ((-1350015781197805), (-16)); (13306381091778441, (-17)); ((-95955666052217548), (-17)); ((-24808272304126017), (-17)); ((-17178074368041821), (-17)); (22419152452088892, (-17)); ((-95928595133755712), (-17))];
  [(49828988632969526, (-16)); (46946299468028672, (-16)); (43747026068824004, (-16)); ((-17758100112851203), (-18)); (2671806746112283, (-16)); ((-96348281613875753), (-17)); (9975871761108176, (-16)); ((-59950259670623687), (-18)); ((-35011318522291002), (-18)); ((-67115392717516598), (-18)); ((-96177983628256303), (-17)); ((-26547141198377616), (-17))];
  [(24348249274900193, (-16)); (5103452914021342, (-15)); (2048059134048035, (-16)); (38117224161911228, (-17)); ((-70305279566799961), (-17)); (60035363638648098, (-17)); (81045752833579809, (-17)); (56655639622352238, (-17)); (14890414588601633, (-17)); ((-44482166874253104), (-17)); (42980299719944365, (-17)); (78575000261882599, (-17))];
  [(69152308273716712, (-17)); (18912582699775704, (-16)); (10569460974974805, (-16)); ((-31500501986774321), (-17)); ((-73106089389796747), (-17)); ((-60524524522810397), (-17)); ((-16774173302522116), (-17)); (67055625152523923, (-17)); ((-72264585001376402), (-17)); (93414910397635031, (-17)); ((-12611218400109078), (-17)); ((-3338580066235598), (-16))];
  [(31537847916059469, (-16)); (52838320802878325, (-17)); (32259942613986072, (-16)); (86362328471029448, (-17)); (50410023240802404, (-17)); (61463641592283836, (-19)); (50178763858935471, (-17)); ((-86070939846755035), (-17)); (85956367702147707, (-18)); (48620858333854197, (-18)); ((-71149751059325222), (-18)); ((-99627994311793477), (-17))];
  [(35903348074854802, (-17)); (11863379838571364, (-16)); (56641121841786166, (-16)); (37505707476262667, (-17)); ((-86789318630387924), (-17)); ((-32572013729243271), (-17)); (89583572484102825, (-17)); (24899305494995455, (-17)); (36807718305436743, (-17)); ((-23834962716364977), (-17)); ((-42984168684992463), (-17)); (87087632846286533, (-17))];
  [(28043384191040612, (-16)); (49263969955930396, (-16)); (58669230004651718, (-16)); (21237817776433854, (-17)); ((-92213943733725212), (-17)); (32334867823579422, (-17)); (71265050867165403, (-17)); (37256196410620701, (-17)); (59441301751505926, (-17)); ((-66859910417194834), (-17)); (10419424652379561, (-17)); (73628717012576472, (-17))];
  [(18499802408095869, (-16)); (36151539719047361, (-16)); (66892116917356448, (-17)); ((-88994976551292271), (-17)); ((-12567663013126271), (-17)); (43840027315496022, (-17)); (37046175580829921, (-17)); (36142630646675633, (-17)); (85564543619260336, (-17)); ((-26598402648829506), (-17)); (92389199024163426, (-17)); ((-27509287162779372), (-17))];
  [(27943364269161735, (-16)); (49791806591716146, (-16)); (11631329819572016, (-16)); (26363798260660914, (-17)); ((-90704343511243757), (-17)); (3282791814089745, (-16)); (66098781332822076, (-17)); ((-77993945808704751), (-18)); ((-74633240251831878), (-17)); (70255969480087188, (-17)); (41375010723456973, (-17)); (57898249024015191, (-17))];
  [(2950561668495105, (-15)); (23548565163553401, (-16)); (45980187424099395, (-16)); ((-70616005817363992), (-17)); (69517206188960179, (-17)); ((-13443874667803593), (-17)); (21289421316505663, (-17)); (3895480709572946, (-16)); (89606269558233587, (-17)); (67528810610067225, (-17)); (60414245404673406, (-17)); ((-42308139757894919), (-17))];
  [(12756232133976233, (-16)); (28396565003896801, (-16)); (12797720915213886, (-16)); ((-95476252646002624), (-17)); ((-86506367814305721), (-18)); ((-28450864028223077), (-17)); ((-24772361300014945), (-17)); (76064854664133852, (-17)); (60003899877805567, (-17)); (16450388940635999, (-17)); (64337425874835519, (-17)); ((-7476683981219111), (-16))];
  [(34736086265143351, (-16)); (61459281329265352, (-16)); (23945416732581886, (-16)); (99059501343917344, (-17)); ((-12935411377458486), (-17)); ((-44598571715196385), (-18)); ((-12521032635272172), (-17)); ((-72555935320310894), (-17)); ((-67667274154803281), (-17)); (55171491950904136, (-18)); (67589284522702087, (-17)); ((-73493194803793471), (-17))];
  [(42322141876601691, (-16)); (27823372096736856, (-16)); (25007302788788928, (-16)); ((-93615885216365446), (-17)); (16240558559381946, (-17)); (31181890462824335, (-17)); (31661358939604173, (-17)); (38533010440308102, (-19)); (94854677643267482, (-17)); (15284776257892577, (-17)); (98671656408463759, (-17)); ((-55027117275246118), (-18))];
  [(1616424266370146, (-15)); (52599797360800071, (-16)); (61200928654974573, (-16)); (5206317741109544, (-16)); ((-38942767006186901), (-18)); (85289273457099046, (-17)); ((-10005852789196788), (-17)); (98929233995938959, (-17)); (10624950396951341, (-17)); ((-84789789879570543), (-17)); ((-14065605922098487), (-17)); (51116047012875543, (-17))];
  [(23390339655516457, (-17)); (92275684992814522, (-17)); (40307928762483556, (-16)); (60362450297052228, (-17)); ((-77555839859054621), (-17)); ((-18478806722636942), (-17)); ((-34512710460102974), (-17)); ((-46312003028534177), (-17)); (8163376257518784, (-16)); ((-71869655702758151), (-17)); ((-4289860229939565), (-16)); ((-54721682265124927), (-17))];
  [(87711974788370406, (-17)); (56362999962285629, (-16)); (28145427141671857, (-16)); (79796490145589605, (-17)); (38534985385381681, (-17)); (46341936318989119, (-17)); (51379787924316667, (-17)); ((-83687414830754547), (-17)); ((-18882107715968782), (-17)); (31506151039075936, (-17)); (38877647823571121, (-17)); ((-86578813496197282), (-17))];
  [(40703424040174143, (-16)); (14189994012955351, (-16)); (1563131515396426, (-15)); (15121463821699441, (-17)); (59194969918284857, (-17)); (79166260921319165, (-17)); (78710221612593878, (-17)); (41238936770243861, (-17)); ((-45869936862352323), (-17)); ((-59800019611914801), (-17)); (69248145321251597, (-17)); ((-40356561102024358), (-17))];
  [(44416094868501563, (-16)); (29672565716649473, (-16)); (15311425359517854, (-16)); ((-98484191540859711), (-17)); (4639601442129708, (-17)); (16713411231745734, (-17)); (16516343102490816, (-17)); (54517725389721006, (-17)); (82188977538668606, (-17)); ((-52985306514221966), (-18)); (83703594407821913, (-17)); ((-54457633589303001), (-17))];
  [(19516122542977574, (-16)); (3795478603340352, (-15)); (48348539049128041, (-16)); ((-79372606983926719), (-17)); ((-22608261496210766), (-17)); (56469954601487526, (-17)); ((-53285221542670047), (-17)); (70618156797253206, (-17)); ((-46623610925229009), (-17)); ((-293372532068645), (-15)); ((-67096515875844964), (-17)); ((-68098334279178996), (-17))];
  [(18854233646567358, (-16)); (18787112226716833, (-16)); (84025754140858722, (-17)); ((-30307226008381438), (-17)); (29490709892266181, (-17)); ((-90618817481398872), (-17)); ((-87172550336899779), (-17)); (29839772157192235, (-17)); (38865594879887411, (-17)); (38502188501922363, (-17)); (90773817963425174, (-17)); (16664196737478487, (-17))];
  [(44066609920812967, (-16)); (11360255524041127, (-16)); (22570984813309227, (-16)); (42120251245916851, (-17)); (27298560088793206, (-17)); (86490884213652175, (-17)); (84207452690763895, (-17)); ((-47193460727749142), (-17)); ((-26112873757423938), (-17)); (33689602940871838, (-17)); (83830578440190584, (-17)); ((-42865426302201332), (-17))];
  [(30634212086024744, (-16)); (11482875142920765, (-16)); (41685156270004395, (-18)); (4100499363560916, (-16)); (90927778607060827, (-17)); ((-71224696930899681), (-18)); ((-91145604900778388), (-17)); (41137428698157985, (-17)); (4366547551213254, (-18)); (33270413605567199, (-18)); (63127678310943819, (-18)); (99745073853779087, (-17))];
  [(79042633247708227, (-17)); (38615671614470473, (-16)); (18601324409257303, (-16)); ((-75182253802479537), (-17)); (46389159431735399, (-17)); (4685802599765152, (-16)); (58145871345625355, (-17)); (80154260541835332, (-17)); (13941024440462163, (-17)); ((-31091580188815343), (-17)); (3772718388918811, (-16)); ((-87235160555557245), (-17))];
  [(95741635485951293, (-17)); (38668233014239326, (-16)); (25620960478304715, (-16)); ((-74834645130443533), (-17)); (38182305255325677, (-17)); (54239168997964116, (-17)); (61650122263570373, (-17)); (98652242887983799, (-18)); (78114913906491157, (-17)); (24475259203681748, (-17)); (91895532617863596, (-17)); ((-30922043460802529), (-17))];
  [(97923002466194309, (-17)); (31301086173230486, (-16)); (55548531746331617, (-16)); ((-99993405918022338), (-17)); ((-64040680750909445), (-19)); ((-9532324136907553), (-18)); (11124225297721672, (-18)); ((-33408154293748449), (-17)); ((-94247852722490988), (-17)); (28511230922214767, (-19)); ((-94252241913951273), (-17)); (33413075362276035, (-17))];
  [(28962405373561229, (-16)); (13849323971584965, (-17)); (1428682439023756, (-15)); (99042513009952826, (-17)); (13391656939046231, (-17)); ((-33532284592942697), (-18)); ((-52161647243706998), (-18)); (13812655107763397, (-17)); ((-98904004895869646), (-17)); ((-12781715152574669), (-17)); (98131921836377356, (-17)); (14378931617389745, (-17))];
  [(74429406843794484, (-19)); (25028261216202736, (-16)); (14181780077258488, (-16)); ((-80283176901080977), (-17)); ((-59618911380460382), (-17)); ((-44374821526307279), (-19)); (86250662749064982, (-18)); ((-1087746389244281), (-16)); ((-99031757588271019), (-17)); (58993387243175044, (-17)); ((-79544114710501457), (-17)); (13874944198063549, (-17))];
  [(52029862012365546, (-16)); (92773037695365179, (-17)); (54893743962168102, (-16)); (59965181604036222, (-17)); ((-37704518154438721), (-17)); (70587153972493855, (-17)); ((-23894900215707224), (-17)); (75745448070823052, (-17)); (60759039164815987, (-17)); ((-76375459009267821), (-17)); ((-53300998182884429), (-17)); (36411438502643639, (-17))];
  [(19948844889839306, (-16)); (25767787063744114, (-16)); (60492814957731289, (-16)); ((-84468820140828915), (-17)); (22025353117100954, (-17)); ((-48784241759848096), (-17)); ((-10118525859196997), (-17)); (82927435757383128, (-17)); (54960493385174924, (-17)); (52560763488110185, (-17)); (51360726423718983, (-17)); ((-67819185506572088), (-17))];
  [(21914010421192107, (-16)); (59975990444780134, (-16)); (11428989885863711, (-17)); (95949665562013142, (-17)); ((-16382785790677065), (-17)); (22918682516118127, (-17)); (18889579925740008, (-17)); (97768298321036751, (-17)); ((-91947601185587813), (-18)); ((-20900848039419576), (-17)); (13151584434795255, (-17)); (96902994680698806, (-17))];
  [(53663891669817856, (-16)); (18340606939763993, (-16)); (50765380206642574, (-17)); ((-26023382828267233), (-17)); ((-58740516760943939), (-17)); (76631163613967845, (-17)); (88585176568684532, (-17)); (17048424812288956, (-17)); (43151103157563819, (-17)); ((-38411587294310429), (-17)); (79113228363384291, (-17)); (47598813634948667, (-17))];
  [(44833247490960275, (-16)); (59650557469402177, (-16)); (36535123933459048, (-16)); (94982213507082414, (-17)); ((-7102418605326602), (-17)); ((-30462021719671212), (-17)); (87299466104254556, (-18)); ((-87498569552991379), (-17)); (4762130151895736, (-16)); ((-30036097440814963), (-17)); ((-47891084516171067), (-17)); ((-82488040796171336), (-17))];
  [(35412291380848293, (-16)); (62034438583106208, (-16)); (56029208526799872, (-16)); (99682233501945849, (-17)); ((-73380196650312396), (-18)); ((-30993211287567872), (-18)); (76540922416173995, (-18)); (774593641439559, (-15)); (62781062259019249, (-17)); ((-22061722553680555), (-18)); ((-62818789974096567), (-17)); (77774883028970154, (-17))];
  [(63519610570987073, (-17)); (22035101028161863, (-16)); (1217890276158731, (-16)); ((-59133539152674908), (-17)); ((-64913670853733718), (-17)); ((-47848091744312921), (-17)); (58619869990243811, (-17)); (61455004989677209, (-18)); ((-80783313041395499), (-17)); (55379918649326099, (-17)); ((-75818521219490354), (-17)); (34418257516668582, (-17))];
  [(80850067191630637, (-17)); (2330825157405672, (-15)); (26690154987111785, (-16)); ((-68894234228913287), (-17)); ((-50054614630937178), (-17)); ((-52422514668413245), (-17)); ((-68430347974433747), (-17)); (21076574932714601, (-17)); (69807345352789185, (-17)); ((-23892927114724644), (-17)); (8396614522088075, (-16)); ((-48773091870788965), (-17))];
  [(559547459167828, (-14)); (30531392078159785, (-16)); (11502836919059187, (-16)); ((-9960905439321257), (-16)); ((-68258993172471624), (-18)); (56074398258763918, (-18)); (79054449878283986, (-18)); ((-97205999441721613), (-17)); (22101982084881849, (-17)); (39421088816062391, (-18)); (22458868427568301, (-17)); (97365594572819902, (-17))];
  [(68714045365035847, (-17)); (18986048337259454, (-16)); (41940278004731448, (-16)); ((-32196900668460343), (-17)); ((-73189762031459082), (-17)); ((-60055127350824011), (-17)); (15903424249317263, (-17)); ((-66712609628001296), (-17)); (72777117377429412, (-17)); ((-93329741693050483), (-17)); (13881154505310428, (-17)); (33119071018193957, (-17))];
  [(76951122953642193, (-17)); (19007377338515192, (-16)); (50090573001926835, (-16)); ((-32398759643319169), (-17)); ((-67950933841584582), (-17)); ((-65825458324504116), (-17)); (82814407054916039, (-17)); ((-54009226836957958), (-17)); (14992578184444863, (-17)); ((-45739417986208625), (-17)); ((-4965555363230395), (-16)); (73771482537307587, (-17))];
  [(22608052446398998, (-16)); (52450335841883806, (-16)); (20760441093306614, (-16)); (50781335357442337, (-17)); ((-54836177782753237), (-17)); (66439819276494549, (-17)); (31596426007371586, (-17)); ((-59893420608026215), (-17)); ((-73582905837094748), (-17)); (80143133473028549, (-17)); (58358990516015097, (-17)); ((-13088406437606903), (-17))];
  [(18902351902478078, (-16)); (24679581666250128, (-16)); (14306825619158368, (-16)); ((-78155952843586185), (-17)); (19590395322506496, (-17)); ((-59227218795238457), (-17)); ((-61382710500434645), (-17)); ((-41084275520165692), (-17)); (67411016581883298, (-17)); ((-11126989113455785), (-17)); (89040994581659016, (-17)); (44134922648374575, (-17))];
  [(22252135614096376, (-16)); (46128561158002608, (-16)); (4578248261771547, (-15)); ((-99368604086891604), (-18)); ((-60568435047311509), (-17)); (78947599590727469, (-17)); ((-86338732734082602), (-17)); (44689851335915126, (-17)); (2341880478261982, (-16)); ((-49465968453987419), (-17)); ((-65835263069979522), (-17)); ((-5673478740081529), (-16))];
  [(59982588629482192, (-17)); (59277240607205062, (-17)); (17914373048250041, (-16)); (82939502899713924, (-17)); ((-46113904583546472), (-17)); ((-31536433894908233), (-17)); ((-40864171271581995), (-17)); ((-11584802190145371), (-17)); ((-90531275615126616), (-17)); (3809407257087587, (-16)); (87973292323720476, (-17)); ((-28452442297456071), (-17))];
  [(24044421752539061, (-17)); (28482681510940835, (-16)); (14413743538013202, (-16)); ((-95728793297524106), (-17)); ((-28081853251356248), (-17)); ((-68853214717393876), (-18)); ((-32034659274215393), (-18)); (33967887484967657, (-17)); ((-93999576732347201), (-17)); (28735621445372506, (-17)); ((-89764091583315597), (-17)); ((-33416641398715963), (-17))];
  [(61256003269881569, (-16)); (58221008315979823, (-16)); (14835974142304174, (-16)); (89557051982046931, (-17)); (43940666559879415, (-17)); ((-69822820451797024), (-18)); ((-10782477968838423), (-17)); (6209390231800338, (-17)); ((-99222888699134015), (-17)); ((-43165641535096611), (-17)); (89613957033615677, (-17)); (10298839528841325, (-17))];
  [(84242733187086061, (-17)); (3602892631059039, (-15)); (52118975738366879, (-16)); ((-89547461801349759), (-17)); (29629068653605389, (-17)); (33217019367422834, (-17)); ((-43350652079637297), (-17)); ((-74983595581280127), (-17)); ((-49981810271070271), (-17)); (10098170587093633, (-17)); ((-5915723695730698), (-16)); (79990301076886761, (-17))];
  [(3399471872561139, (-15)); (40637603779564024, (-16)); (59253117579842227, (-16)); ((-60409408959362498), (-17)); ((-77056149140755037), (-17)); ((-20323710015108193), (-17)); (79293220627279837, (-17)); ((-60665981584505868), (-17)); ((-56766047019249449), (-18)); ((-79554051898075157), (-18)); ((-19544527571320552), (-17)); (97748263259660384, (-17))];
  [(15493501293435439, (-16)); (45968931274947611, (-17)); (31506959271180697, (-16)); (89619038329359901, (-17)); ((-95142984764866947), (-19)); ((-44356766678441789), (-17)); ((-54760422270362661), (-19)); ((-9999310889784101), (-16)); (10384134820895407, (-18)); ((-44363589784146162), (-17)); ((-68771664914512361), (-19)); ((-89618072659896497), (-17))];
  [(12313818709689663, (-16)); (56549291851228514, (-16)); (38728089267844029, (-17)); (80905367569010989, (-17)); (19567747898487589, (-17)); (55420436128782491, (-17)); (28122027130202648, (-18)); (92898125004505372, (-17)); ((-36905689081064158), (-17)); ((-58706158232540706), (-17)); (31417218413292597, (-17)); (74609284762336137, (-17))];
  [(30538940794812315, (-16)); (35478459229637229, (-16)); (45458232114239194, (-17)); ((-91860786384024151), (-17)); ((-39365167182938166), (-17)); (34611468573308997, (-18)); (36887163006641766, (-17)); ((-88559681402341006), (-17)); ((-28222686534724128), (-17)); (14175088367630112, (-17)); ((-24648862906332772), (-17)); (95872313141984278, (-17))];
  [(43422017422300696, (-16)); (42804702685701157, (-16)); (11237715617404074, (-16)); ((-41861407733673228), (-17)); ((-32856472743521581), (-17)); ((-84664483352875819), (-17)); ((-62141771288817815), (-17)); (78347288434869267, (-17)); (3203997372983991, (-18)); (66227054922013717, (-17)); (52746133448411436, (-17)); ((-53214872005849578), (-17))];
  [(20707767016962024, (-16)); (5146119490283005, (-15)); (42386408654465564, (-16)); (42025879956013029, (-17)); ((-43501716139197272), (-17)); (7963307169051993, (-16)); ((-90709209891375997), (-17)); ((-178387665932217), (-15)); (38126337974094143, (-17)); ((-23800535298766554), (-18)); ((-88257459171320252), (-17)); ((-46956961633155747), (-17))];
  [(27048271496736764, (-16)); (4580306625623324, (-15)); (98734991943259054, (-17)); ((-13169864369827081), (-17)); ((-89823210072849047), (-17)); (41932631740557247, (-17)); (84479591266979892, (-17)); ((-32301294623155935), (-17)); ((-42659407227856472), (-17)); (51862831891870065, (-17)); (29806329829029726, (-17)); (80136317423991466, (-17))];
  [(96394989175299117, (-17)); (15680877102733892, (-16)); (50550174447419591, (-16)); (27086132095010531, (-19)); ((-5702777105875898), (-16)); ((-82144750058750471), (-17)); (96529348547680116, (-17)); ((-21303440047901986), (-17)); (15107889034737265, (-17)); ((-26115349951806155), (-17)); ((-79334713525639067), (-17)); (54990833115160931, (-17))];
  [(78648982626368857, (-17)); (52434137781032897, (-16)); (82706893224063313, (-18)); (50641727830938188, (-17)); (60906409684922658, (-17)); (61039533595773332, (-17)); ((-55655578753078527), (-17)); (77155899110011328, (-17)); ((-30812721174632224), (-17)); ((-65862523152070751), (-17)); ((-18367811296344333), (-17)); (72970895240669964, (-17))];
  [(2771386746525371, (-15)); (50677775793504338, (-16)); (67081320857716287, (-17)); (34795470743773893, (-17)); ((-87399763869743607), (-17)); (33919853938839922, (-17)); (89547037643769245, (-17)); (20270418125054884, (-17)); ((-39628754689755508), (-17)); (27759741802555515, (-17)); (44163236119520333, (-17)); (85317086861348856, (-17))];
  [(2858602009160903, (-15)); (38421671500363845, (-16)); (49033243207606896, (-16)); ((-76447196031608478), (-17)); ((-61901552961725304), (-17)); (18000665538572239, (-17)); ((-59260314398877356), (-18)); (34552546385522526, (-17)); (93653636820199215, (-17)); ((-64192743906755434), (-17)); (70528854231463523, (-17)); ((-30082758359543454), (-17))];
  [(32354772137382759, (-17)); (19975753102102653, (-17)); (37700656577413527, (-16)); (98011472018091306, (-17)); ((-1881357538925047), (-16)); ((-63087822850288508), (-18)); ((-11509796251543404), (-17)); ((-79799043630566979), (-17)); (59157731750759557, (-17)); ((-16164032389687366), (-17)); ((-5725523571447293), (-16)); ((-80377621513610853), (-17))];
  [(2722510324567343, (-15)); (23349377750347669, (-17)); (5653926861695731, (-15)); (97286395136851489, (-17)); (21135509088578935, (-17)); ((-94152842146691021), (-18)); ((-11545979582828654), (-17)); (79609483379754375, (-17)); (59405559600777402, (-17)); (20051126570577121, (-17)); ((-56706440653379142), (-17)); (79889498131328163, (-17))];
  [(15455922699448348, (-16)); (3962273417621835, (-15)); (47557388183194138, (-17)); ((-68172331145882481), (-17)); (18437590141499517, (-18)); (73137772859404759, (-17)); (31846878452151439, (-17)); (90747883512565486, (-17)); (2739704310402381, (-16)); ((-65865845466296369), (-17)); (41969300574200513, (-17)); ((-62452127348252751), (-17))];
  [(52493927112831766, (-16)); (21949184277751992, (-16)); (62057575987798863, (-16)); ((-58438510383511122), (-17)); ((-41512195200770891), (-17)); (6972573523290635, (-16)); (35994512248154226, (-17)); (63748576620289432, (-17)); (68121318740204695, (-17)); ((-72727818557782531), (-17)); (64906522233903297, (-17)); ((-22311606381569218), (-17))];
  [(94598743996796097, (-17)); (29637790688929422, (-16)); (5900981945679896, (-15)); ((-98423277388720676), (-17)); ((-10346345292841888), (-17)); ((-14346135617100295), (-17)); (14950423136058283, (-17)); ((-53191369815737244), (-18)); ((-98732930827683163), (-17)); (94521593361389322, (-18)); ((-99320994360973569), (-17)); (67820913464578469, (-18))];
  [(22141971123432942, (-16)); (5310191042969298, (-15)); (18567020291262633, (-16)); (56282707495408213, (-17)); ((-4958784592785746), (-16)); (66130948679278678, (-17)); (49461382750673732, (-17)); ((-43896539129950918), (-17)); ((-75011102303619315), (-17)); (66225587603113611, (-17)); (74927560941537119, (-17)); ((-17932644692572608), (-19))];
  [(59579908753937136, (-16)); (50911938831371835, (-16)); (47059586794185577, (-16)); (36981036024241243, (-17)); (880411469130985, (-15)); ((-29684329616819372), (-17)); (30249843084259537, (-17)); (18799307057465861, (-17)); (93442672519233905, (-17)); (87848448864800377, (-17)); ((-43535531516053899), (-17)); ((-1968013027556553), (-16))];
  [(46998423142415868, (-16)); (3946158346997485, (-15)); (53630044628289939, (-16)); ((-69342423114410723), (-17)); ((-9040006556057004), (-18)); ((-72047284053159844), (-17)); (57876360156105433, (-17)); (58861025140997603, (-17)); ((-56442064583355001), (-17)); (42918006613807297, (-17)); ((-80836640839198104), (-17)); ((-40292458427498323), (-17))];
  [(57888667624207898, (-18)); (27340845177758366, (-16)); (42247073727482949, (-16)); ((-91811125471964927), (-17)); ((-39565887952125384), (-17)); ((-22929784410178893), (-18)); ((-16514078813502606), (-17)); (32932572302087637, (-17)); (92966288957391396, (-17)); ((-36027800939171101), (-17)); (85732060468226412, (-17)); ((-36769707197091361), (-17))];
  [(99170822744206666, (-17)); (3402941578240894, (-15)); (24341800865659642, (-16)); ((-9660423167255503), (-16)); (1414034181965565, (-16)); (21625752152898944, (-17)); (24801223150450968, (-17)); (27270349596177479, (-17)); (9295820223704736, (-16)); (72471893308268601, (-18)); (95165008097123382, (-17)); ((-29851289430736305), (-17))];
  [(1589415116422249, (-15)); (35510516696101151, (-16)); (3458595142836963, (-15)); ((-91733632986270863), (-17)); ((-74119562119210657), (-19)); (39804411918671578, (-17)); ((-13112088512143835), (-17)); ((-93841724438827989), (-17)); ((-31965667351031185), (-17)); (37590074673906465, (-17)); ((-34542457691921707), (-17)); (85987236858803273, (-17))];
  [(54732488413066616, (-16)); (61124260282861007, (-16)); (61764265629835124, (-16)); (98545602623812401, (-17)); (11717472526512676, (-17)); ((-12307113434923728), (-17)); ((-10339363825569256), (-17)); (98820476201057117, (-17)); (11296505613631685, (-17)); (13485613044729161, (-17)); ((-98597322979238622), (-18)); (98594745903730119, (-17))];
  [(61763612175379743, (-16)); (1137976218808727, (-15)); (12495054018296019, (-17)); (41943252291372446, (-17)); ((-9026118884369867), (-16)); (96789139754648257, (-18)); (90763738523841797, (-17)); (41504057801934763, (-17)); ((-62735121861151488), (-18)); (16454046304653806, (-18)); (11416259216390746, (-17)); (9933258110562827, (-16))];
  [(10937602148824768, (-16)); (96437862110784711, (-17)); (29187302792916574, (-16)); (56992757019537044, (-17)); ((-37727974782803531), (-17)); ((-72996065415199962), (-17)); ((-52928660927393778), (-17)); ((-84807240811349116), (-17)); (25077396991754874, (-18)); ((-6285206838080184), (-16)); (3720660996051619, (-16)); ((-68302896538148561), (-17))];
  [(27866044830568195, (-16)); (89991762004381759, (-17)); (11657077133449967, (-16)); (62167449659781837, (-17)); (73443892935544464, (-17)); ((-2722503982128906), (-16)); ((-53965901855654519), (-17)); (14969444119621544, (-17)); ((-82846829629475827), (-17)); ((-56770499730972568), (-17)); (66195999374749326, (-17)); (48940780817982787, (-17))];
  [(36261274680612101, (-16)); (54442061031655689, (-16)); (17825567774226767, (-16)); (6682226066608915, (-16)); ((-65832527793321127), (-17)); ((-3465348126544916), (-16)); ((-47716175852605791), (-17)); ((-21880553531240021), (-18)); ((-87854305391226362), (-17)); (57078472662435831, (-17)); (75241549014578812, (-17)); ((-32874872781659525), (-17))];
  [(22016653999628972, (-16)); (15211604191043691, (-16)); (13433334690627827, (-17)); (49615528677119568, (-18)); (58912030993616649, (-17)); ((-80652065053215161), (-17)); ((-69182989217689428), (-17)); (60268575732079066, (-17)); (39766981053780276, (-17)); (72035387109711346, (-17)); (53824449680733399, (-17)); (43747361297799781, (-17))];
  [(10919396075032533, (-16)); (50599022249016166, (-16)); (10642148420641298, (-16)); (34056075938734937, (-17)); (43322142738087754, (-17)); (83446843201141341, (-17)); (51947097966828515, (-17)); (65306540389303691, (-17)); ((-55104943473385093), (-17)); ((-78368888626034761), (-17)); (62114794783215654, (-17)); ((-26375094154186263), (-19))];
  [(45871811373521183, (-16)); (11687719523200728, (-16)); (50653202538390829, (-16)); (39128211546530761, (-17)); (11492429099891488, (-17)); (91306665334760218, (-17)); ((-89651203582690175), (-17)); (2715951667989227, (-16)); (35000319282682169, (-17)); ((-20776062123149719), (-17)); ((-95552523394720557), (-17)); (20930134150463603, (-17))];
  [(27141054580852217, (-16)); (58549410110846356, (-16)); (48792500930660254, (-17)); (9096962500532213, (-16)); ((-37790391652963762), (-17)); (17216667073120676, (-17)); (41451607458513989, (-17)); (801280191856095, (-15)); ((-43142378011600879), (-17)); (25082993235134441, (-18)); (46383044748121083, (-17)); (88556883382363105, (-17))];
  [(53285667044169722, (-16)); (39679320857637919, (-16)); (58047277031631941, (-16)); ((-67757248029299444), (-17)); (4250347748107926, (-16)); ((-60020077819937756), (-17)); ((-10096721012998594), (-17)); (75460774964692168, (-17)); (64836160177124613, (-17)); (7284923859781699, (-16)); (49991257673151956, (-17)); ((-46838686915570715), (-17))];
  [(57348270040589808, (-16)); (44152710591002178, (-16)); (49401283310517146, (-16)); ((-29276562816121526), (-17)); (81598990309611386, (-17)); ((-49844635118793235), (-17)); (30134531620510829, (-17)); (57346075783561301, (-17)); (76179640300007179, (-17)); (90745759535562454, (-17)); (72823329145260352, (-18)); ((-41378433436222395), (-17))];
  [(55160443308923899, (-16)); (49081016126963233, (-16)); (56597772175589149, (-16)); (19446561197015838, (-17)); (70615466923134917, (-17)); ((-68082942715766614), (-17)); ((-17585039660451446), (-17)); (70793273234280085, (-17)); (6840379262085482, (-16)); (9650180121506059, (-16)); ((-13297729145243423), (-18)); (26184615067721156, (-17))];
  [(38123306669046388, (-16)); (30107762791164219, (-16)); (62122684291587822, (-16)); ((-99145573329987013), (-17)); (10218469861308534, (-17)); (81079074218750588, (-18)); ((-10767290893767704), (-17)); ((-290221918489108), (-15)); ((-95088263350920466), (-17)); ((-73634730852468383), (-18)); ((-95148805846308682), (-17)); (29874470876390441, (-17))];
  [(19691904650150942, (-16)); (51820620766559538, (-16)); (2303344960876978, (-15)); (45259480418734199, (-17)); ((-34593129800829087), (-17)); (82188167048603811, (-17)); (37969900623868852, (-17)); ((-75919087633749793), (-17)); ((-52863775683094616), (-17)); (80683741105874229, (-17)); (55132635556827969, (-17)); ((-21225607593617876), (-17))];
  [(51022259090466342, (-16)); (10538673933813765, (-16)); (60506436172844404, (-16)); (49421266839902006, (-17)); ((-33038226724829167), (-17)); (80411528768068985, (-17)); (13618002445952301, (-17)); (94297331937266704, (-17)); (30373725469474078, (-17)); ((-85860866483638754), (-17)); ((-40606359590247915), (-18)); (51102082563111217, (-17))];
  [(54680779630441139, (-16)); (33288356625299271, (-16)); (44239321962489351, (-16)); ((-98252118463809301), (-17)); (1276604104178756, (-16)); ((-13548040946682274), (-17)); (16619885734657569, (-17)); (92939716294291763, (-17)); ((-3295434012847907), (-16)); (83845462334290799, (-18)); ((-34630006226623117), (-17)); ((-93436941587380384), (-17))];
  [(63899725240952596, (-18)); (31669929440841091, (-16)); (5753214506818467, (-15)); ((-99967742996479869), (-17)); (25345725613980862, (-18)); (16217928584906635, (-19)); ((-22688674899168947), (-18)); ((-91992568306063105), (-17)); (39143576954176174, (-17)); (11413152513432818, (-18)); (39127270776088152, (-17)); (92020400352920262, (-17))];
  [(22704813662951379, (-17)); (46716518479817539, (-16)); (30029705961352344, (-16)); ((-40725866031183798), (-18)); (97352676095355373, (-17)); (22491564984076268, (-17)); (99526656028316174, (-17)); (19646614206651185, (-18)); (95176071217185396, (-18)); (88237621330891525, (-18)); (22772715309663341, (-17)); ((-96971875609599756), (-17))];
  [(32539738033769661, (-16)); (33774685502347084, (-16)); (11014713072853279, (-16)); ((-97231002191490501), (-17)); ((-23222054423520125), (-17)); ((-26207634745315567), (-18)); (81655825319869008, (-18)); ((-23251789146835788), (-17)); ((-96915827207863214), (-17)); (21896471742079354, (-17)); ((-94446230680859677), (-17)); (24504163634496107, (-17))];
  [(42907467617088679, (-16)); (55266250778209294, (-16)); (22016315542172307, (-16)); (72720144969526279, (-17)); ((-28092551330598625), (-17)); ((-62630576201634636), (-17)); ((-67145925034058851), (-17)); ((-48060807027186703), (-17)); ((-56405527913636888), (-17)); ((-14255008485849163), (-17)); (83072061414372045, (-17)); ((-53812892000292689), (-17))];
  [(59422719454060884, (-16)); (25635860664982344, (-16)); (54699245271058938, (-16)); ((-83755342525823584), (-17)); ((-51491250246650966), (-17)); (18267286235747629, (-17)); (22109577709175288, (-17)); ((-13681868634695005), (-18)); (97515612279411801, (-17)); ((-49962077337755956), (-17)); (85713354926425545, (-17)); (12530427580601405, (-17))];
  [(34089150979858505, (-16)); (80648908875215986, (-17)); (69164540662725615, (-17)); (69203708616863124, (-17)); (69622258710594509, (-17)); (19067978542765129, (-17)); ((-41461238779079018), (-17)); (59959702836409212, (-17)); ((-68452901433567404), (-17)); ((-59091559402138805), (-17)); (39466126333915108, (-17)); (70360588965833371, (-17))];
  [(45324611232792291, (-16)); (35685526096583757, (-16)); (47675210600018785, (-16)); ((-91022885300885537), (-17)); ((-74107753851725217), (-18)); ((-40742051490963949), (-17)); (41088513010519961, (-17)); ((-28408917329799854), (-17)); ((-86629484095964304), (-17)); ((-51544592428467685), (-18)); ((-95592959073035921), (-17)); (28903593644644132, (-17))];
  [(1118910461420354, (-15)); (1267529021601566, (-15)); (21030599712249893, (-16)); (29863999960049625, (-17)); ((-41673613648063695), (-17)); ((-85857157138459206), (-17)); ((-95128461437576617), (-17)); ((-20221602429874921), (-17)); ((-23273646463061504), (-17)); ((-76627234652997062), (-18)); (88625034390289503, (-17)); ((-45682446830422174), (-17))];
  [(21498019062069398, (-16)); (50999456689714497, (-16)); (4267363979243247, (-15)); (37792744169119868, (-17)); ((-50660950390166337), (-17)); (77493074488837788, (-17)); ((-91753790072624974), (-17)); ((-93137995305349136), (-18)); (38658700775034793, (-17)); ((-12367315613184779), (-17)); ((-85713016770325579), (-17)); ((-50003282498789647), (-17))];
  [(27155232483093168, (-16)); (91072403934762214, (-17)); (60602571199109851, (-16)); (61317395689325227, (-17)); (71932441239535061, (-17)); ((-32648137515018461), (-17)); ((-62934363250551417), (-17)); (69462596564863888, (-17)); (34845567877631178, (-17)); (47743511686158602, (-17)); ((-81949727747824275), (-19)); (87862879056435661, (-17))];
  [(33539580069170762, (-16)); (17482415000648261, (-16)); (55538519489549518, (-16)); ((-1765154417204659), (-16)); (96218571565743594, (-17)); (2074631230339902, (-16)); ((-85567152468597152), (-17)); ((-2541751975468165), (-16)); (45080063308919804, (-17)); (4864859100485992, (-16)); ((-97947013925002227), (-18)); (86818076561702373, (-17))];
  [(17961555706993129, (-16)); (53048598785903289, (-16)); (17663977854189123, (-16)); (55841249227138212, (-17)); ((-18537137148154054), (-17)); (80858700404490569, (-17)); (75713987569189223, (-17)); ((-28441747584587618), (-17)); ((-58808665013816319), (-17)); (33899070357832756, (-17)); (9406083957038196, (-16)); ((-18470214372262123), (-18))];
  [(51949617828455708, (-16)); (57806722383311264, (-16)); (11765834325347986, (-16)); (87637496258086178, (-17)); (22350482061538954, (-17)); ((-42662925371225507), (-17)); ((-47975051617971853), (-17)); (32693598444871808, (-17)); ((-81421883071926138), (-17)); ((-42501378644542703), (-18)); (9182366019900482, (-16)); (39374506419647104, (-17))];
  [(18315501669150089, (-16)); (5386936839183277, (-15)); (47826947401608946, (-16)); (6245442630864918, (-16)); ((-20134608580122187), (-17)); (75458877355701359, (-17)); ((-73858048259223719), (-17)); (16178755179576568, (-17)); (65446440607396705, (-17)); ((-25385691674557337), (-17)); ((-96606653074022764), (-17)); ((-4766680190627029), (-17))];
  [(47434549907276136, (-16)); (35358360653807037, (-16)); (58113655222145253, (-16)); ((-92328744150028152), (-17)); (11930838193917336, (-18)); ((-38392441374293296), (-17)); (16386940984006959, (-17)); (91622869776494964, (-17)); ((-36561152868941643), (-17)); (34740051365323499, (-17)); ((-40047800000990724), (-17)); ((-8478975496022696), (-16))];
  [(65374787627510356, (-17)); (28116390911901101, (-16)); (45085449936945352, (-16)); ((-94605739028897284), (-17)); ((-2571937383479167), (-16)); ((-19704516039284381), (-17)); (1409003995984002, (-16)); ((-87423624183702187), (-17)); (46460528500189413, (-17)); ((-2917575905998494), (-16)); (41177952160507375, (-17)); (86331635795580008, (-17))];
  [(6954122559044007, (-16)); (55807337843606692, (-16)); (34206620950936539, (-16)); (76326057616990683, (-17)); (49606180154899887, (-17)); (41395166615046192, (-17)); (36284262832044073, (-17)); ((-85923290850150558), (-17)); (36064391859777384, (-17)); (53458256606280785, (-17)); ((-12506597455745061), (-17)); ((-83581097269041571), (-17))];
  [(16942208522642708, (-16)); (33248613336260382, (-16)); (25495192715481472, (-16)); ((-98325324761687916), (-17)); ((-22436372744779352), (-18)); (18085812182182312, (-17)); (8231641262411811, (-17)); ((-9400683224256533), (-16)); (33090112931888543, (-17)); (16259477009902876, (-17)); (34024720182519519, (-17)); (92617211272342292, (-17))];
  [(35051495581900398, (-16)); (44282110458137129, (-16)); (3445794493047833, (-15)); ((-28036845171402874), (-17)); ((-89715187154032416), (-17)); ((-34133861585699898), (-17)); ((-75371858214142895), (-17)); ((-14438759569647269), (-18)); (65703867554110085, (-17)); ((-59439198364226986), (-17)); (44148617375154964, (-17)); ((-67215186391768944), (-17))];
  [(94444505763252817, (-17)); (2799184254228225, (-15)); (64445749343001568, (-17)); ((-94194876203513245), (-17)); ((-19681805431709026), (-17)); ((-2720205565675437), (-16)); ((-60789530875891024), (-19)); (82003600506093111, (-17)); ((-57227964906422046), (-17)); (33570161755618666, (-17)); ((-53740450677170859), (-17)); ((-7736283475103638), (-16))];
  [(70399729481205564, (-17)); (16798909560208006, (-16)); (52906205582296222, (-16)); ((-10887835716586387), (-17)); ((-75772937575241983), (-17)); ((-64342186507975518), (-17)); (95295341980307169, (-17)); ((-26376167384708382), (-17)); (14936384801890651, (-17)); ((-28288740344259411), (-17)); ((-59688857631155312), (-17)); (75079873764030414, (-17))];
  [(62056635239770124, (-16)); (42045773075214914, (-16)); (48478877124068385, (-16)); ((-48626622903244726), (-17)); (871186385126826, (-15)); ((-67671536647376032), (-18)); ((-50632502208170775), (-18)); (49222220774285508, (-18)); (99750364545809411, (-17)); (87234253835446041, (-17)); (48847871535175524, (-17)); (20175242888147947, (-18))];
  [(52281258105352686, (-16)); (20228018522947291, (-17)); (12531061842382532, (-16)); (97961102755829188, (-17)); ((-99080801682364064), (-18)); (17477193545923631, (-17)); (19697643814840096, (-17)); (30251432782149978, (-17)); ((-93256922760569105), (-17)); (39528692117961499, (-18)); (94798105265911636, (-17)); (31586295493260558, (-17))];
  [(12287316252193665, (-16)); (3405729843899326, (-15)); (57155525134145151, (-16)); ((-96531811948089552), (-17)); (87573637274441271, (-18)); (24595078014999711, (-17)); ((-20607237585444835), (-17)); (32283206260096242, (-17)); ((-92374976875045078), (-17)); ((-16029692483504038), (-17)); ((-94239605124986214), (-17)); ((-29358913208274001), (-17))];
  [(5471023810896285, (-15)); (84209434414081985, (-17)); (52765422678808305, (-16)); (66590182418807764, (-17)); ((-51322382705869762), (-17)); (54145735185904953, (-17)); ((-18313297191606856), (-17)); (5911193141699782, (-16)); (78551910925985946, (-17)); ((-72321302196529824), (-17)); ((-62223730180248649), (-17)); (29963922491119621, (-17))];
  [(27844401101499376, (-16)); (16581049683498723, (-16)); (46183771057593068, (-16)); ((-87197761121718162), (-18)); (93332749621226629, (-17)); ((-3482762341439648), (-16)); (43435296873462381, (-17)); (35024637034400735, (-17)); (82985840877360961, (-17)); (89651215775737181, (-17)); ((-78913020947055698), (-18)); ((-43593426811645675), (-17))];
  [(22819415770352842, (-16)); (35281948235587333, (-16)); (38911566252396228, (-16)); ((-92619553383843356), (-17)); ((-24609702067650019), (-17)); (28565379309907535, (-17)); ((-37476112167153486), (-17)); (51763477955448622, (-17)); ((-76916080027460554), (-17)); (41423843148990357, (-18)); ((-8194452339294731), (-16)); ((-57165861649155525), (-17))];
  [(15477418948236539, (-16)); (26418571417690537, (-16)); (57779310343229984, (-16)); ((-87770933358148695), (-17)); ((-11046553295578956), (-18)); ((-47906606997806678), (-17)); (24154863185761091, (-17)); (85323226525132201, (-17)); ((-46222176493736639), (-17)); (41386058545319143, (-17)); ((-52141411104263913), (-17)); ((-74622164308867112), (-17))];
  [(12656253476443984, (-16)); (52141025160807253, (-16)); (15764653597684184, (-16)); (48092860306876561, (-17)); (26342795766342308, (-17)); (83624959783045838, (-17)); (83772953397801786, (-17)); (14334654058042329, (-17)); ((-526935477268895), (-15)); ((-25868302350811256), (-17)); (95396932887011776, (-17)); ((-15174192869407735), (-17))];
  [(34651570165965424, (-16)); (46204924914543026, (-16)); (16697062352251566, (-16)); ((-9176719976741346), (-17)); ((-94410760778423597), (-17)); ((-31660638965563359), (-17)); ((-40828835494233678), (-17)); (32566685862136713, (-17)); ((-85278468350115832), (-17)); (90822871583391807, (-17)); (51009039587289848, (-18)); ((-41535367774350357), (-17))];
  [(25383805296522923, (-16)); (6167920994461541, (-16)); (1783388682267756, (-15)); (81573816882324157, (-17)); (47634018288874758, (-17)); ((-32813300670676082), (-17)); ((-22024061624251015), (-17)); ((-26877245467430966), (-17)); ((-93768621540761998), (-17)); ((-53485073701176111), (-17)); (8371746518940123, (-16)); ((-11433849458566125), (-17))];
  [(14430294168700746, (-16)); (54947014734868578, (-16)); (18230318738591531, (-16)); (7049215199518335, (-16)); (90376832171653557, (-18)); (70350385849362151, (-17)); (70379811883288779, (-17)); ((-21226148685110177), (-17)); ((-67794783658261493), (-17)); (88055997161380614, (-18)); (97302471161136306, (-17)); ((-21323473440680019), (-17))];
  [(32219583401726384, (-16)); (24199935776082437, (-16)); (59106624827393963, (-16)); ((-75075036219874625), (-17)); (65845392597636221, (-17)); (53031321167462613, (-18)); ((-63259356345211337), (-17)); ((-73973864760919383), (-17)); (22937331299058733, (-17)); (19026107625420474, (-17)); (13865482537451118, (-17)); (97189277302743415, (-17))];
  [(62298429852060409, (-16)); (56839349208785683, (-17)); (70779695512809693, (-17)); (84276681152803246, (-17)); ((-53751320376132627), (-17)); (28699428027553788, (-18)); (42705967370695458, (-17)); (63522781628704572, (-17)); ((-64351041678321008), (-17)); (32766467078429939, (-17)); (55458559050648459, (-17)); (76489913473764004, (-17))];
  [(62584349822767793, (-16)); (4958002584815409, (-15)); (75729283470739739, (-17)); (24315155964973872, (-17)); (96969122684722076, (-17)); ((-24005074784956299), (-18)); ((-72116348666281949), (-17)); (16417170743820386, (-17)); ((-67303111070822741), (-17)); ((-64869140933438063), (-17)); (18096014769102228, (-17)); (73922451285344859, (-17))];
  [(49415162598074831, (-16)); (30439751407134583, (-16)); (58125249337366807, (-16)); ((-99523919294036012), (-17)); ((-2213644484815332), (-17)); (94915365694419468, (-18)); ((-23312213649391889), (-18)); (99966440843454918, (-17)); ((-11296512911858875), (-18)); ((-94633448263210934), (-18)); ((-13455419677117247), (-18)); ((-99542124859334147), (-17))];
  [(76595883275517895, (-17)); (36201019275764623, (-16)); (58024683366258323, (-17)); ((-88768232318543494), (-17)); (3318592126291755, (-16)); (31920143498620529, (-17)); ((-10254701078401227), (-17)); (53333702106748815, (-17)); ((-83966405933451815), (-17)); ((-44889219605978076), (-17)); ((-77808809588118066), (-17)); ((-43940267564572927), (-17))];
  [(61002524443865092, (-17)); (21847362116193412, (-16)); (26054521578421053, (-16)); ((-57609232431582114), (-17)); ((-66995587105058696), (-17)); ((-46826996989903591), (-17)); ((-81515461164745806), (-17)); (42860717221062916, (-17)); (38963938589353331, (-17)); ((-60337326542335666), (-18)); (60618068492361021, (-17)); ((-79303491994442865), (-17))];
  [(51083429013614223, (-16)); (48806231822849977, (-16)); (69307956055800035, (-17)); (16744174250406743, (-17)); (38024331865660166, (-17)); ((-90960336492573257), (-17)); ((-87366839282544739), (-17)); (48472266564230881, (-17)); (41802832325262357, (-18)); (45680061541661815, (-17)); (7876921708571365, (-16)); (41336937685969233, (-17))];
  [(35479426746443203, (-16)); (18090628974794467, (-16)); (17574839117534968, (-16)); ((-23601852442790394), (-17)); (89261870781206165, (-17)); (3840925651334588, (-16)); (54309328437085846, (-17)); (4489328729200317, (-16)); ((-70958365263233092), (-17)); ((-80581942182982214), (-17)); (41123206048312877, (-18)); ((-59073169995028985), (-17))];
  [(33250026214995271, (-17)); (15585397944820154, (-17)); (61718196572402766, (-16)); (98787933308931208, (-17)); ((-14672205278561415), (-17)); ((-50666186765845382), (-18)); (1514439634712838, (-16)); (98262742645579026, (-17)); (10727565756022722, (-17)); (34046280018887938, (-18)); ((-11364849318511058), (-17)); (99293749592490932, (-17))];
  [(52661225380935051, (-16)); (35437467027439125, (-16)); (6472580270306677, (-16)); ((-92022003157330834), (-17)); (20582492053165971, (-17)); ((-33291319526170099), (-17)); ((-36494190230280915), (-17)); ((-1437760582273756), (-16)); (91986186627352118, (-17)); (14146554857924368, (-17)); (96796929040581359, (-17)); (20741974688162979, (-17))];
  [(19581760241152215, (-16)); (5039302227412314, (-15)); (39506831909644133, (-16)); (32112129026940761, (-17)); ((-35775648539509114), (-17)); (87686453577132584, (-17)); ((-88145970876111623), (-17)); ((-4514596790705504), (-16)); (13861074995931488, (-17)); (34628008716424769, (-17)); ((-8174316211960897), (-16)); ((-46032124207150538), (-17))];
  [(62565636685831132, (-16)); (41895948037010919, (-16)); (31739073803650113, (-16)); ((-49930303513034957), (-17)); (86612041740648049, (-17)); ((-23062993327946212), (-18)); (86641338191360306, (-17)); (49926956662918509, (-17)); ((-75994393831762463), (-19)); (49326210734036363, (-19)); ((-23776509195625753), (-18)); ((-99970512995573668), (-17))];
  [(60796757912179027, (-16)); (56174511344047193, (-16)); (56935356243809823, (-16)); (78646354507552818, (-17)); (60489072246734199, (-17)); ((-12482910774402636), (-17)); ((-43333246282494398), (-17)); (68441057412806672, (-17)); (58634899393088291, (-17)); (44011142785583435, (-17)); ((-40704960372739241), (-17)); (8003827529226698, (-16))];
  [(2575583648933887, (-15)); (36816562125634169, (-16)); (85530110651864541, (-18)); ((-85767600167545233), (-17)); ((-43400143377522332), (-17)); (27574377895259944, (-17)); (45597060582662075, (-17)); ((-39408785745444219), (-17)); (79798845056120438, (-17)); ((-23766085662581038), (-17)); (81014660160246166, (-17)); (53589159457848212, (-17))];
  [(15628139826078971, (-16)); (31172527799676826, (-16)); (51376132705745201, (-16)); ((-99970379989960145), (-17)); ((-1942680024383794), (-19)); ((-24336695055835737), (-18)); (22249561053513355, (-18)); (3979323457068823, (-16)); ((-91714492054044783), (-17)); (98625300619816988, (-19)); ((-91741474290538938), (-17)); ((-3978101557283511), (-16))];
  [(56989122109323027, (-16)); (24337413936964887, (-16)); (48517559249037285, (-16)); ((-75976074556981732), (-17)); ((-54234273212515205), (-17)); (3586474179500263, (-16)); ((-27982981644085514), (-17)); (77063508190861563, (-17)); (57255291839477906, (-17)); ((-58690619635668573), (-17)); (3346429910258496, (-16)); ((-73726195157176022), (-17))];
  [(38688460422491511, (-17)); (16620014420909321, (-16)); (35210215485519383, (-16)); ((-91078721514744179), (-18)); ((-92223989926812777), (-17)); ((-37573692217448257), (-17)); ((-71747758746059442), (-17)); ((-2008853763822751), (-16)); (66698648940400329, (-17)); ((-69060160583288877), (-17)); (330331097164141, (-15)); ((-64339007473489229), (-17))];
  [(20587608676167877, (-16)); (43099705915433164, (-16)); (20748877591009811, (-16)); ((-39164468499109684), (-17)); ((-43137728069552628), (-17)); (81272878773792534, (-17)); (50327600871476397, (-17)); ((-83987892090983252), (-17)); ((-20326499271510601), (-17)); (77027767705572336, (-17)); (32941924641870635, (-17)); (54603595148906658, (-17))];
  [(16841310531987614, (-16)); (58020636491653201, (-16)); (18531723996834308, (-16)); (88647640660332094, (-17)); ((-5233613188390468), (-17)); (45980486060403292, (-17)); (42701193165085488, (-17)); ((-29048490938501098), (-17)); ((-85631730546999196), (-17)); (17838270870089751, (-17)); (95544724957425697, (-17)); ((-23515986587323578), (-17))];
  [(76697660050716887, (-17)); (46244889038616703, (-16)); (94356566864447933, (-17)); ((-87786928041395873), (-18)); (71723231152987066, (-17)); (69128233491285851, (-17)); (1387537718821126, (-16)); (69600067803487653, (-17)); ((-70450723698446072), (-17)); ((-98642832788476909), (-17)); (3407150528683546, (-17)); ((-16061844997990643), (-17))];
  [(45655866255076356, (-16)); (99439648504051226, (-17)); (62702783179630703, (-16)); (54500899388733715, (-17)); (12264190946028562, (-17)); (82941193542524305, (-17)); ((-13333660779974169), (-17)); (98933252410139394, (-17)); ((-58672870865694851), (-18)); ((-82775995651056367), (-17)); ((-78613731619226315), (-18)); (55554777976203795, (-17))];
  [(22029326991818663, (-16)); (37322277111271687, (-16)); (56846200561798774, (-16)); ((-83058719030442696), (-17)); ((-32904858109071944), (-17)); (44927936808224556, (-17)); (18691863505835005, (-18)); (78983989063955751, (-17)); (61302818972146056, (-17)); ((-55657482294914928), (-17)); (51757123030233831, (-17)); ((-64988036439212959), (-17))];
  [(53345786529873234, (-16)); (90826226002893806, (-17)); (43075768511237653, (-16)); (61511677432795875, (-17)); ((-45951304212838351), (-17)); (64068644285195031, (-17)); ((-76988127241712534), (-17)); ((-17480898644744633), (-17)); (61377898680111598, (-17)); ((-1700417017138886), (-16)); ((-8707982443546467), (-16)); ((-46129842543315702), (-17))];
  [(27140564743307452, (-16)); (28025103486755978, (-18)); (3935815119264654, (-15)); (999607322489241, (-15)); (25499228112594079, (-18)); ((-11618527942579735), (-18)); (26158584527725019, (-18)); ((-70050603040832971), (-17)); (71316690179583497, (-17)); (10046356622999192, (-18)); ((-71319078143735581), (-17)); ((-70089798115801216), (-17))];
  [(44094581631904815, (-16)); (36891012574492317, (-16)); (59253820118170841, (-16)); ((-85382409582541074), (-17)); ((-15529334763199248), (-17)); ((-49685852067683101), (-17)); (31946691962718754, (-17)); (59727534747300171, (-17)); ((-73566503693251672), (-17)); (41100523190323973, (-17)); ((-78685839608042207), (-17)); ((-46035699610835701), (-17))];
  [(52604512130606365, (-16)); (47643751823226346, (-16)); (31517556966665898, (-16)); (51962789085270314, (-18)); (52033034850362159, (-17)); ((-85238265877279518), (-17)); (52896612949224775, (-17)); ((-7383068487135156), (-16)); ((-41844692733094413), (-17)); ((-84705059022497009), (-17)); ((-42913788642907952), (-17)); ((-31360161356522415), (-17))];
  [(57760279634643041, (-17)); (47255630482384783, (-16)); (39161209011051628, (-16)); (13173686783868429, (-18)); (83770127091475133, (-17)); (54596981114740295, (-17)); (21690805788610554, (-17)); ((-53540948120028087), (-17)); (81626440683452817, (-17)); (97610314434520629, (-17)); (10767203977196874, (-17)); ((-18875747256928704), (-17))]
].

